(** The dump of driver devices (C102), the banners (C104) and the text (C103). *)
From Coq Require Import ZArith String List Bool Permutation Sorted Lia ZifyBool ZifyNat Arith.
From Verif Require Import Bytes BytesProofs Ring RingSpec RingHistory RingProofs RingRefine RingInv RingObs RingRetain RingLemmas RingLemmas2 RingLemmas3
  Parse ParseSpec ParseProofs Cat CatSpec CatProofs CatMerge Render Live LiveSpec LiveProofs.
Import ListNotations.
Open Scope Z_scope.

(** ** The driver's devices are static devices *)
Lemma poll_rel csv uid : forall fds w s, Forall2 (nrel csv uid) w s ->
  exists w', poll_all uid fds w = (w', map (fun p => fst p && negb (match snd p with [] => true | _ => false end)) (combine fds s)) /\
    Forall2 (nrel csv uid) w' s.
Proof.
  induction fds as [|b fds IH]; intros w s H; [exists w; split; [reflexivity|exact H]|].
  inversion H as [|n x w0 s0 Hn H0]; subst; [exists []; split; [reflexivity|exact H]|].
  cbn [poll_all combine map fst snd]. destruct (IH w0 s0 H0) as (w' & E & H').
  destruct b.
  - destruct (poll_nrel csv uid n x Hn) as (n' & E1 & H1). rewrite E1, E. exists (n' :: w'). split; [reflexivity|]. constructor; assumption.
  - cbn [poll_one]. rewrite E. exists (n :: w'). split; [reflexivity|]. constructor; assumption.
Qed.
Lemma Forall2_set_nth {A B} (Q : A -> B -> Prop) l l' n x y : Forall2 Q l l' -> Q x y -> Forall2 Q (set_nth n x l) (set_nth n y l').
Proof. intros H. revert n. induction H; intros [|n] Hx; cbn; constructor; auto. Qed.
Lemma recv_rel csv uid w s j : Forall2 (nrel csv uid) w s -> nth j s [] <> [] ->
  exists w' s' x, e_recv (live_env csv uid) w j = (w', x) /\ e_recv static_env s j = (s', x) /\
    Forall2 (nrel csv uid) w' s' /\ forall k, k <> j -> nth k s [] <> [] -> nth k s' [] <> [].
Proof.
  intros H Hj. cbn [e_recv live_env static_env]. destruct (nth j s []) as [|x r] eqn:E; [contradiction|]. clear Hj.
  assert (X : exists n, nth_error w j = Some n /\ nrel csv uid n (x :: r)).
  { clear - H E. revert j E. induction H as [|n y w s Hn H IH]; intros [|j] E; cbn in *; try discriminate; eauto.
    subst y. eauto. }
  destruct X as (n & Ew & Hn). rewrite Ew. destruct (recv_nrel csv uid n x r Hn) as (n' & En & Hn'). rewrite En.
  do 3 eexists. split; [reflexivity|]. split; [reflexivity|]. split; [now apply Forall2_set_nth|].
  intros k Hk. rewrite nth_set_nth. destruct (Nat.eqb_spec k j); [contradiction|]. auto.
Qed.

Lemma dump_live csv uid ns s marks : Forall2 (nrel csv uid) ns s -> marks_cover s marks ->
  exists q, picks i_stamp (fun d => filter i_show (nth d s [])) q /\ forall T, 0 <= T -> forall fuel, (2 * CatSpec.total s < fuel)%nat ->
    exists ns' c', process_logs fuel (live_env csv uid) true 0 ns (open_ctx T marks) 0 = Ok (Some (ns', c', 0)) /\
      printed (c_out c') = final_out T q.
Proof.
  intros H HM. destruct (dump_any s marks HM) as (q & M & D). exists q. split; [exact M|].
  intros T HT0 fuel Hf. destruct (D T HT0 fuel Hf) as (s' & c' & E & P).
  destruct (logs_sim (live_env csv uid) static_env (Forall2 (nrel csv uid)) (fun s j => nth j s [] <> [])) with (w := ns) (3 := H) (4 := E)
    as (ns' & E' & _).
  - intros w s0 fds H0. destruct (poll_rel csv uid fds w s0 H0) as (w' & Ep & H').
    cbn [e_poll live_env static_env]. rewrite Ep. do 3 eexists. split; [reflexivity|]. split; [reflexivity|]. split; [exact H'|].
    intros rev j [= <-] Hr X.
    assert (G : forall fds (s0 : world) j, nth j (map (fun p => fst p && negb (match snd p with [] => true | _ => false end)) (combine fds s0)) false = true ->
       nth j s0 [] <> []).
    { clear. induction fds as [|b fds IH]; intros [|x s0] [|j]; cbn; try discriminate; auto.
      destruct b, x; cbn; try discriminate. }
    exact (G _ _ _ Hr X).
  - intros w s0 j H0 Hj. now apply recv_rel.
  - exists ns', c'. split; [exact E'|exact P].
Qed.

(** ** Opening *)
Lemma stream_wf nm n q : zlen nm <= 15 -> Forall wf_entry q ->
  Forall (fun rec => exists e, wf_entry e /\ rec = enc 2 e) (stream nm 2 n q).
Proof.
  intros Hn H. destruct q as [|e q]; [constructor|]. cbn [stream].
  apply Forall_app. split.
  - destruct (0 <? n); constructor; [|constructor]. inversion H; subst. eexists. split; [|reflexivity]. now apply wf_report.
  - apply Forall_forall. intros rec Hr. apply in_map_iff in Hr. destruct Hr as (x & <- & Hx).
    rewrite Forall_forall in H. eauto.
Qed.

Lemma started_rel csv uid g : started uid g -> exists recs, content uid g recs /\
  nrel csv uid (g_node g) (map (item_of csv) recs) /\
  Forall (fun rec => exists e, wf_entry e /\ rec = enc 2 e) recs /\ (recs <> [] -> 0 < g_mark g).
Proof.
  intros (Hi & Hu & d & outs & Erun & Eopen).
  destruct (history_kept _ _ _ _ Hi Hu) as (h & d0 & a & Hex & HR & Hv & HI & Hn & _ & HK).
  pose proof Hex as (_ & Er). rewrite Erun in Er. assert (d0 = d) as -> by congruence. clear Er.
  unfold add_ulog_device in Eopen.
  set (fid := g_fid g) in *. set (all := g_all g) in *.
  pose proof (step_R d a (OpOpen fid true false all false) Logic.I HR Hv) as (d2 & E2 & HR2).
  pose proof (vers_step a (OpOpen fid true false all false) Hv) as Hv2.
  rewrite E2 in Eopen. cbn [bind RingSpec.astep] in *.
  destruct (alookup fid (a_files a)) eqn:El; [discriminate|]. cbn [andb fst snd render] in *.
  set (r := mkAReader (a_keep a) (a_gone a) all 2) in *.
  match type of HR2 with R _ ?A => set (a2 := A) in * end.
  assert (El2 : alookup fid (a_files a2) = Some (mkAFile false false (Some r))).
  { cbn [a2 a_files]. rewrite alookup_app, El. cbn [alookup]. rewrite Z.eqb_refl. reflexivity. }
  pose proof (step_R d2 a2 (OpIoctl fid GetLogLen uid) Logic.I HR2 Hv2) as (d3 & E3 & HR3).
  pose proof (vers_step a2 (OpIoctl fid GetLogLen uid) Hv2) as Hv3.
  rewrite E3 in Eopen. cbn [bind RingSpec.astep aioctl] in *. rewrite El2 in *. cbn [aioctl a_rd fst snd render] in *.
  assert (En : g_node g = (d3, fid)) by congruence.
  assert (Em : g_mark g = RingSpec.total (a_q r)) by congruence. clear Eopen.
  destruct HI as (_ & (gone & Hacc & Hg) & _).
  pose proof (R_reader_wf d2 a2 fid _ r HR2 El2 eq_refl) as Hwf.
  pose proof HR as ((_ & _ & _ & Hnm) & _ & Enm & _). rewrite Enm, Hn in Hnm.
  exists (stream (g_nm g) 2 (zlen gone) (mine r uid)). split; [|split; [|split]].
  - exists h, d, gone, (a_keep a). split; [exact Hex|]. split; [exact Hacc|]. split; [|reflexivity].
    destruct HK as [HK|HK]; [left|right; exact HK]. apply length_zero_iff_nil. unfold zlen in Hg. lia.
  - exists a2, false, false, r. rewrite En. cbn [fst snd]. split; [exact HR3|]. split; [exact Hv3|]. split; [exact El2|].
    split; [reflexivity|]. cbn [a2 a_name r a_lost]. rewrite Hn, Hg. reflexivity.
  - apply stream_wf; [exact Hnm|]. unfold mine. destruct (a_all r); [exact Hwf|].
    apply Forall_forall. intros x Hx. apply filter_In in Hx. rewrite Forall_forall in Hwf. now apply Hwf.
  - intros Hne. rewrite Em. destruct (a_q r) as [|e q] eqn:Eq.
    + exfalso. apply Hne. unfold mine. rewrite Eq. destruct (a_all r); reflexivity.
    + rewrite total_cons. pose proof (esize_pos e). pose proof (total_nonneg q). lia.
Qed.

(** ** Items and entries *)
Definition dummy : uentry := mkU 0 0 0 0 [] 0 [] [] [] false 0.
Definition u_data (da : fdata) : uentry :=
  match fd_entry da with Some e => resolve (fd_buf da) e | None => dummy end.
Definition good_rec (rec : list Z) : Prop := exists e, wf_entry e /\ rec = enc 2 e.

Lemma s32_range x : - 2 ^ 31 <= s32 x < 2 ^ 31.
Proof. unfold s32. pose proof (Z.mod_pos_bound x 4294967296 ltac:(lia)). change (2 ^ 31) with 2147483648. destruct (_ <? _) eqn:E; lia. Qed.

Lemma item_good csv rec : good_rec rec ->
  exists e, fd_entry (i_data (item_of csv rec)) = Some e /\ 0 <= pe_prio e < 8 /\
    reads_as rec (u_data (i_data (item_of csv rec))) /\
    i_ok (item_of csv rec) = true /\ i_dec (item_of csv rec) = 0 /\
    i_show (item_of csv rec) = wanted csv (u_data (i_data (item_of csv rec))) /\
    u_data (i_data (item_of csv rec)) = u_data (i_data (item_of true rec)) /\
    (0 <= u_sec (u_data (i_data (item_of csv rec))) -> 0 <= u_nsec (u_data (i_data (item_of csv rec))) ->
     i_stamp (item_of csv rec) = utime (u_data (i_data (item_of csv rec)))).
Proof.
  intros (e0 & W & ->). destruct (record_read csv e0 W) as (mem & pe & v & PB & PR & SH & PA & Lv & V1 & V2 & _).
  unfold item_of. rewrite PB. cbn [i_data i_ok i_show i_dec i_stamp fd_entry fd_buf u_data].
  unfold u_data. cbn [fd_entry fd_buf]. rewrite (resolve_shows _ _ _ SH).
  exists pe. pose proof SH as (S1 & S2 & S3 & S4 & S5 & S6 & S7 & _).
  split; [reflexivity|]. split; [lia|]. split; [exists v; auto|]. split; [reflexivity|]. split; [reflexivity|].
  split; [unfold wanted; cbn; rewrite S7; reflexivity|]. split; [reflexivity|].
  cbn [entry_of u_sec u_nsec]. intros H1 H2. unfold stamp_of, utime. cbn [entry_of u_sec u_nsec].
  rewrite <- V1, <- V2. pose proof (s32_range (of_le (zsub 12 4 (enc 2 e0)))) as B1. fold (hdr_sec (enc 2 e0)) in B1. rewrite <- V1 in B1.
  pose proof (s32_range (of_le (zsub 16 4 (enc 2 e0)))) as B2. fold (hdr_nsec (enc 2 e0)) in B2. rewrite <- V2 in B2.
  change (2 ^ 31) with 2147483648 in *. change (2 ^ 64) with 18446744073709551616.
  rewrite (Z.mod_small (v_sec v * 1000000)) by lia. rewrite (Z.mod_small (v_nsec v)) by lia.
  assert (0 <= v_nsec v / 1000 < 2147484).
  { split; [apply Z.div_pos; lia|apply Z.div_lt_upper_bound; lia]. }
  rewrite Z.mod_small by lia. reflexivity.
Qed.

Definition world_of (csv : bool) (recs : list (list (list Z))) : world := map (map (item_of csv)) recs.
Definition us_of (recs : list (list (list Z))) : list (list uentry) :=
  map (map (fun rec => u_data (i_data (item_of true rec)))) recs.
Definition q_of (q : list mitem) : list (nat * uentry) := map (fun m => (fst m, u_data (i_data (snd m)))) q.

Lemma entries_printed evs :
  entries evs = concat (map (fun p => match fd_entry (snd p) with
                                      | Some e => [(fst (fst p), resolve (fd_buf (snd p)) e)] | None => [] end) (printed evs)).
Proof.
  induction evs as [|[d|f|] evs IH]; cbn; auto. destruct (fd_entry (f_data f)); cbn; [f_equal|]; exact IH.
Qed.

Lemma world_in csv recs d x : In x (nth d (world_of csv recs) []) ->
  exists rec, x = item_of csv rec /\ In rec (nth d recs []).
Proof.
  unfold world_of. change (@nil item) with (map (item_of csv) []) at 1. rewrite map_nth. intros H.
  apply in_map_iff in H. destruct H as (rec & <- & H). eauto.
Qed.
Lemma nth_good recs d : Forall (Forall good_rec) recs -> Forall good_rec (nth d recs []).
Proof. intros H. revert d. induction H; intros [|d]; cbn; auto. Qed.
Lemma merges_in w q m : merges w q -> In m q -> In (snd m) (nth (fst m) w []).
Proof.
  intros [_ H] Hm. assert (X : In (snd m) (filter i_show (nth (fst m) w []))).
  { rewrite <- H. apply in_map. apply filter_In. split; [exact Hm|]. apply Nat.eqb_refl. }
  now apply filter_In in X.
Qed.
Lemma sorted_map {A B} (P : A -> A -> Prop) (Q : B -> B -> Prop) (f : A -> B) (G : A -> Prop) l :
  (forall a b, G a -> G b -> P a b -> Q (f a) (f b)) -> Forall G l -> StronglySorted P l -> StronglySorted Q (map f l).
Proof.
  intros H. induction l as [|x l IH]; intros HG HS; cbn; constructor; inversion HG; inversion HS; subst; auto.
  rewrite Forall_forall in *. intros y Hy. apply in_map_iff in Hy. destruct Hy as (z & <- & Hz). auto.
Qed.
Lemma filter_sorted {A} (P : A -> A -> Prop) (f : A -> bool) l : StronglySorted P l -> StronglySorted P (filter f l).
Proof.
  induction 1 as [|x l HS IH HF]; cbn; [constructor|]. destruct (f x); auto. constructor; auto.
  rewrite Forall_forall in *. intros y Hy. apply filter_In in Hy. now apply HF.
Qed.
Lemma filter_map_comm {A B} (f : A -> B) (p : B -> bool) (p' : A -> bool) l :
  Forall (fun x => p (f x) = p' x) l -> filter p (map f l) = map f (filter p' l).
Proof. induction 1 as [|x l H HF IH]; cbn; auto. rewrite H, IH. destruct (p' x); reflexivity. Qed.

(** Times of a good record. *)
Lemma item_time csv rec : good_rec rec ->
  0 <= u_sec (u_data (i_data (item_of true rec))) /\ 0 <= u_nsec (u_data (i_data (item_of true rec))) ->
  i_stamp (item_of csv rec) = utime (u_data (i_data (item_of true rec))).
Proof.
  intros G [H1 H2]. destruct (item_good csv rec G) as (_ & _ & _ & _ & _ & _ & _ & E & T). rewrite E in T. auto.
Qed.

Lemma timely_timed csv recs : Forall (Forall good_rec) recs -> timely (us_of recs) -> timed (world_of csv recs).
Proof.
  intros HG HT. unfold timed, world_of, timely, us_of in *. rewrite Forall_map in *.
  revert HT. induction HG as [|l recs Hl HG IH]; intros HT; constructor; inversion HT as [|? ? [H1 H2] HT']; subst; auto.
  apply filter_sorted.
  apply (sorted_map (fun a b => utime (u_data (i_data (item_of true a))) <= utime (u_data (i_data (item_of true b)))) _ _
    (fun rec => good_rec rec /\ 0 <= u_sec (u_data (i_data (item_of true rec))) /\ 0 <= u_nsec (u_data (i_data (item_of true rec))))).
  - intros a b [Ga Ta] [Gb Tb]. rewrite (item_time csv a Ga Ta), (item_time csv b Gb Tb). auto.
  - rewrite Forall_map in H2. rewrite Forall_forall in *. intros x Hx. split; [now apply Hl|now apply H2].
  - clear - H1. induction l as [|x l IHl]; cbn in *; constructor; inversion H1; subst; auto.
    now rewrite Forall_map in H3.
Qed.

Lemma picks_map {A B} (f : A -> B) (ta : A -> Z) (tb : B -> Z) g q : picks ta g q ->
  (forall d x, In x (g d) -> tb (f x) = ta x) -> picks tb (fun d => map f (g d)) (map (fun m => (fst m, f (snd m))) q).
Proof.
  induction 1 as [g H|g h d x r q Hd Hm Hh P IH]; intros T; cbn [map]; [constructor; intros d; now rewrite H|].
  apply (pk_next tb _ (fun e => map f (h e)) d (f x) (map f r)).
  - now rewrite Hd.
  - intros e y s0 E. destruct (g e) as [|z l] eqn:G; [discriminate|]. cbn [map] in E. assert (y = f z) by congruence. subst y.
    rewrite (T e z), (T d x); [exact (Hm _ _ _ G)|rewrite Hd; now left|rewrite G; now left].
  - intros e. rewrite Hh. now destruct (Nat.eqb e d).
  - apply IH. intros e y Hy. rewrite Hh in Hy. destruct (Nat.eqb_spec e d) as [->|]; [apply (T d); rewrite Hd; now right|now apply (T e)].
Qed.
Lemma picked_of csv recs q : Forall (Forall good_rec) recs ->
  Forall (Forall (fun u => 0 <= u_sec u /\ 0 <= u_nsec u)) (us_of recs) ->
  picks i_stamp (fun d => filter i_show (nth d (world_of csv recs) [])) q ->
  picks utime (fun d => filter (wanted csv) (nth d (us_of recs) [])) (q_of q).
Proof.
  intros HG HT P. assert (F : forall d, map (fun x => u_data (i_data x)) (filter i_show (nth d (world_of csv recs) [])) = filter (wanted csv) (nth d (us_of recs) [])).
  { intros d. unfold us_of, world_of. change (@nil item) with (map (item_of csv) []) at 1.
    change (@nil uentry) with (map (fun rec => u_data (i_data (item_of true rec))) []). rewrite !map_nth.
    pose proof (nth_good recs d HG) as Gn. induction Gn as [|rec l Hr Hl IH]; cbn; auto.
    destruct (item_good csv rec Hr) as (_ & _ & _ & _ & _ & _ & S & E & _). rewrite S, <- E.
    destruct (wanted csv _); cbn [map]; rewrite IH; reflexivity. }
  apply (picks_ext _ (fun d => map (fun x => u_data (i_data x)) (filter i_show (nth d (world_of csv recs) [])))); [|intros d; symmetry; apply F].
  unfold q_of. apply (picks_map (fun x => u_data (i_data x)) i_stamp utime _ _ P). intros d x Hx. apply filter_In in Hx. destruct Hx as [Hx _].
  destruct (world_in _ _ _ _ Hx) as (rec & -> & Hr). pose proof (nth_good recs d HG) as Gn. rewrite Forall_forall in Gn. specialize (Gn rec Hr).
  assert (TT : 0 <= u_sec (u_data (i_data (item_of true rec))) /\ 0 <= u_nsec (u_data (i_data (item_of true rec)))).
  { clear - HT Hr. unfold us_of in HT. rewrite Forall_map in HT. revert d HT Hr.
    induction recs as [|l recs IH]; intros [|d] HT Hr; cbn in Hr; try contradiction; inversion HT as [|? ? H2 H3]; subst.
    - rewrite Forall_map, Forall_forall in H2. now apply H2.
    - now apply (IH d). }
  rewrite (item_time csv rec Gn TT). destruct (item_good csv rec Gn) as (_ & _ & _ & _ & _ & _ & _ & -> & _). reflexivity.
Qed.
Lemma picks_in_world w q m : picks i_stamp (fun d => filter i_show (nth d w [])) q -> In m q -> In (snd m) (nth (fst m) w []).
Proof. intros P Hm. apply (picks_in _ _ _ P) in Hm. now apply filter_In in Hm. Qed.
Lemma picked_merged csv us q : timely us -> picks utime (fun d => filter (wanted csv) (nth d us [])) q -> merged csv us q.
Proof.
  intros HT P. split; [|exact (picks_devs _ _ _ P)]. apply (picks_sorted _ _ _ P). intros d. apply filter_sorted.
  destruct (nth_in_or_default d us []) as [X| ->]; [|constructor]. apply (proj1 (Forall_forall _ _) HT _ X).
Qed.
