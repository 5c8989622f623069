(** C107: following the logs of a running system. *)
From Coq Require Import ZArith String List Bool Lia ZifyBool ZifyNat Arith.
From Verif Require Import Bytes BytesProofs Ring RingSpec RingHistory Parse ParseSpec Iov Cat CatSpec CatProofs Render Live LiveSpec LiveProofs LiveDump LiveText
  SaidSpec PropsSaid FollowSpec FollowProofs PropsFollow Busy BusySpec BusyProofs BusyRun.
Import ListNotations.
Open Scope Z_scope.
#[local] Arguments shown_from : simpl never.
#[local] Arguments delivered : simpl never.

Definition val (p : nat * Z * fdata) : uentry := u_data (snd p).
Lemma entries_from i evs : Forall (fun p => fd_entry (snd p) <> None) (shown_from i evs) ->
  entries_of i (entries evs) = map val (shown_from i evs).
Proof.
  rewrite entries_printed. unfold shown_from, entries_of. induction (printed evs) as [|[[j st] da] r IH]; [reflexivity|].
  cbn [filter fst map concat snd]. intros H. rewrite filter_app, map_app.
  destruct (Nat.eqb_spec j i) as [->|Hne].
  - inversion H as [|? ? H1 H2]; subst. cbn [snd] in H1. rewrite (IH H2). cbn [map val]. unfold val, u_data. cbn [snd].
    destruct (fd_entry da); [|congruence]. cbn [filter fst]. rewrite Nat.eqb_refl. reflexivity.
  - rewrite (IH H). destruct (fd_entry da); cbn [filter fst]; [|reflexivity]. destruct (Nat.eqb_spec j i); [congruence|reflexivity].
Qed.

Section Tap.
Variables (csv : bool) (uid : Z) (gs : list LiveSpec.log) (ls : list (list said)) (sched : list (list (nat * op))).
Hypothesis names_ok : Forall (fun g => c_string (g_nm g) /\ zlen (g_nm g) <= 15) gs.
Hypothesis same_len : length ls = length gs.
Hypothesis sched_ok : Forall (Forall (fun io => forall g, nth_error gs (fst io) = Some g -> polite (g_fid g) (snd io))) sched.

Definition T (w : busy * list got) : Prop :=
  exists uss, B uid gs ls sched uss (fst w) /\
    (forall i, map val (delivered i (snd w)) = filter (wanted csv) (fst (uss i))) /\
    forall i, Forall (fun p => fd_entry (snd p) <> None) (delivered i (snd w)).

Lemma T_same l b' (uss uss' : nat -> list uentry * nat) : (forall j, fst (uss' j) = fst (uss j)) -> B uid gs ls sched uss' b' ->
  (forall i, map val (delivered i l) = filter (wanted csv) (fst (uss i))) ->
  (forall i, Forall (fun p => fd_entry (snd p) <> None) (delivered i l)) -> T (b', l).
Proof. intros H HB HD HE. exists uss'. split; [exact HB|]. split; [|exact HE]. intros i. cbn [snd]. now rewrite H. Qed.
Lemma T_poll w fds : T w -> exists w' r, e_poll (tap (busy_env csv uid)) w fds = (w', inr r) /\ T w'.
Proof.
  intros (uss & HB & HD & HE). destruct w as [b l]. cbn [fst snd] in *.
  destruct (poll_busy uid gs ls sched same_len sched_ok fds 0 uss b HB) as (b' & r & uss' & E & HB' & [Sm _] & _).
  exists (b', l), r. cbn. rewrite E. split; [reflexivity|]. exact (T_same l b' uss uss' Sm HB' HD HE).
Qed.
(** What a record adds. *)
Lemma T_more l (uss uss' : nat -> list uentry * nat) i bs u : record_of bs u ->
  fst (uss' i) = fst (uss i) ++ [u] -> (forall j, j <> i -> fst (uss' j) = fst (uss j)) ->
  (forall i, map val (delivered i l) = filter (wanted csv) (fst (uss i))) ->
  (forall i, Forall (fun p => fd_entry (snd p) <> None) (delivered i l)) ->
  let l' := l ++ match rx_of (item_of csv bs) with RxFrame st da _ ok => [(i, st, da, ok)] | _ => [] end in
  (forall i, map val (delivered i l') = filter (wanted csv) (fst (uss' i))) /\
  (forall i, Forall (fun p => fd_entry (snd p) <> None) (delivered i l')) /\ rx_of (item_of csv bs) <> RxFail.
Proof.
  intros (Hg & Hr) U1 U2 HD HE. cbv zeta.
  destruct (item_good csv bs Hg) as (e & E1 & _ & E3 & E4 & E5 & E6 & _).
  unfold rx_of. rewrite (reads_fun _ _ _ E3 Hr) in E6.
  assert (D : forall j, delivered j [(i, i_stamp (item_of csv bs), i_data (item_of csv bs), i_ok (item_of csv bs))] =
                if Nat.eqb i j then [(i, i_stamp (item_of csv bs), i_data (item_of csv bs))] else []).
  { intros j. unfold delivered. cbn [filter fst snd]. rewrite E4. cbn [andb]. destruct (Nat.eqb i j); reflexivity. }
  split; [|split]; [intros j|intros j|destruct (i_show _); discriminate].
  - rewrite delivered_app, map_app, HD.
    destruct (i_show (item_of csv bs)) eqn:Es.
    + rewrite D. destruct (Nat.eqb_spec i j) as [<-|Hne]; [|rewrite app_nil_r, (U2 j); [reflexivity|congruence]].
      rewrite U1, filter_app. cbn [filter]. rewrite <- E6. cbn [map]. unfold val. cbn [snd]. now rewrite (reads_fun _ _ _ E3 Hr).
    + change (delivered j []) with (@nil (nat * Z * fdata)). cbn [map]. rewrite app_nil_r.
      destruct (Nat.eq_dec j i) as [->|Hne]; [|now rewrite (U2 j Hne)]. rewrite U1, filter_app. cbn [filter]. rewrite <- E6. now rewrite app_nil_r.
  - rewrite delivered_app. apply Forall_app. split; [apply HE|]. destruct (i_show (item_of csv bs)).
    + rewrite D. destruct (Nat.eqb i j); repeat constructor. cbn. congruence.
    + constructor.
Qed.
Lemma T_recv w i : (i < length gs)%nat -> T w ->
  exists w' x, e_recv (tap (busy_env csv uid)) w i = (w', x) /\ x <> RxFail /\ T w'.
Proof.
  intros Hi (uss & HB & HD & HE). destruct w as [b l]. cbn [fst snd] in *.
  destruct (recv_busy csv uid gs ls sched names_ok same_len sched_ok uss b i HB Hi) as (b' & x & uss' & E & HB' & _ & Hx).
  cbn. rewrite E. eexists _, x. split; [reflexivity|]. destruct Hx as [(-> & [Sm _] & _)|(bs & u & Hr & -> & U1 & U2 & _)].
  - split; [discriminate|]. rewrite app_nil_r. exact (T_same l b' uss uss' Sm HB' HD HE).
  - destruct (T_more l uss uss' i bs u Hr U1 U2 HD HE) as (D' & E' & X). split; [exact X|]. exists uss'. auto.
Qed.

(** The state of the reader after some rounds. *)
Definition S_ok (N : Z) (n : nat) (w : busy * list got) (c : ctx) : Prop :=
  T w /\ inv n c /\ FI N c (snd w) /\ (c_mark c = true -> c_tail c = 0) /\ BI (length gs) (fun _ => True) c.
Lemma S_process N n w l c : S_ok N n (w, l) c ->
  exists w' l' c' r, process_devices (busy_env csv uid) w c = Ok (w', c', r) /\ S_ok N n (w', l') c' /\ 0 <= r.
Proof.
  intros (HT & I & F & M & HBI). cbn [snd] in F.
  destruct (process_devices_inv (busy_env csv uid) n w c (busy_sane csv uid) I) as (w' & c' & r & E & _).
  destruct (tap_process (busy_env csv uid) w l c) as (l' & Et). rewrite E in Et.
  destruct (FI_process N (busy_env csv uid) n w l c w' l' c' r (busy_sane csv uid) I F M Et) as (I' & F' & M').
  destruct (env_process (tap (busy_env csv uid)) (length gs) T T_poll T_recv (w, l) c (w', l') c' r (bi_n _ _ _ HBI) HT Et) as (HT' & Hr).
  exists w', l', c', r. split; [exact E|]. split; [|exact Hr]. split; [exact HT'|]. split; [exact I'|]. split; [exact F'|]. split; [exact M'|].
  eapply (devs_process (busy_env csv uid)); eassumption.
Qed.
Lemma S_rounds N n : forall k w l c, S_ok N n (w, l) c ->
  exists w' l' c', rounds k (busy_env csv uid) w c = Ok (w', c') /\ S_ok N n (w', l') c'.
Proof.
  induction k as [|k IH]; intros w l c HS; cbn [rounds]; [eauto 6|].
  destruct (S_process N n w l c HS) as (w1 & l1 & c1 & r & E & H1 & _). rewrite E. cbn [bind]. apply (IH _ _ _ H1).
Qed.
End Tap.

(** At most one entry of a device waits, and only without a tail to compute. *)
Lemma waiting_one N n c l d : inv n c -> FI N c l -> (N = 0 \/ printed (c_out c) <> []) -> (length (on d (c_rq c ++ c_pq c)) <= 1)%nat.
Proof.
  intros I F X.
  assert (T0 : c_tail c = 0).
  { destruct (Z.eq_dec (c_tail c) 0) as [->|T0]; [reflexivity|exfalso].
    destruct X as [->|X]; [apply T0, (fi_tail _ _ _ F T0)|].
    apply X. destruct (printed (c_out c)) as [|[[j st] da] r] eqn:P; [reflexivity|exfalso].
    pose proof (fi_new _ _ _ F T0 j) as Y. unfold shown_from in Y. rewrite P in Y. cbn in Y.
    rewrite Nat.eqb_refl in Y. discriminate. }
  rewrite (fi_now _ _ _ F T0). cbn [app]. pose proof (iv_nodup _ _ I) as ND. revert ND. generalize (c_pq c). clear.
  induction l as [|f q IH]; cbn; [lia|]. intros ND. inversion ND; subst. unfold on in *. cbn.
  destruct (f_ok f && Nat.eqb (f_dev f) d) eqn:B; [|now apply IH].
  apply andb_prop in B as [_ B%Nat.eqb_eq]. cbn.
  fold (on d q). rewrite on_other; [cbn; lia|]. now rewrite <- B.
Qed.

Lemma all_start uid gs ls : Forall (started uid) gs -> Forall2 was_told gs ls ->
  exists ws : nat -> nat, forall i g l, nth_error gs i = Some g -> nth_error ls i = Some l -> J uid g l [] ([], ws i) (g_node g).
Proof.
  intros Hs H. revert Hs. induction H as [|g l gs ls Hg H IH]; intros Hs.
  - exists (fun _ => O). intros [|i]; discriminate.
  - inversion Hs as [|? ? S1 S2]; subst. destruct (IH S2) as (ws & Hws). destruct (J_start uid g l S1 Hg) as (w & Hw).
    exists (fun i => match i with O => w | S i => ws i end). intros [|i] g' l'; cbn; [congruence|apply Hws].
Qed.

Lemma S_start csv uid gs ls sched N : Forall (started uid) gs -> Forall2 was_told gs ls -> 0 <= N ->
  S_ok csv uid gs ls sched N (Z.to_nat (N + zlen (map g_mark gs) + 1)) ((map g_node gs, sched), []) (open_ctx N (map g_mark gs)).
Proof.
  intros Hst Htold HN. split; [|split; [now apply open_inv|split; [|split; [discriminate|]]]].
  - destruct (all_start _ _ _ Hst Htold) as (ws & Hws).
    exists (fun i => ([], ws i)). cbn [fst snd]. split; [|split; [reflexivity|constructor]].
    exists []. split; [reflexivity|]. cbn [fst concat]. split; [apply map_length|].
    intros i g l n Eg El En. rewrite nth_error_map, Eg in En. cbn in En. assert (n = g_node g) as -> by congruence. cbn.
    now apply Hws.
  - constructor; cbn.
    + intros d. exists []. split; [reflexivity|]. intros X; now destruct X.
    + reflexivity.
    + reflexivity.
    + reflexivity.
    + apply Z.le_refl.
  - rewrite <- (map_length g_mark gs). apply BI_open.
Qed.

(** The logs [gs], which hold the messages [ls], are followed by a reader that opened them, with a
    tail of [N] entries or none (0); other processes make the calls [sched] on the devices meanwhile:
    any calls, but what they write are messages of the library. Then after any number of rounds the
    reader has not failed; the other processes have made the calls [done]; and for each device there
    is a run of the driver with these calls and those of the reader, in which the messages [tl] were
    accepted. Of them the reader was told about the first ones: each of them is shown, or belongs to
    another user, or is counted in a warning at its place, or was flushed. What it was told is shown
    in order without gaps, but for entries that precede the tail and the last one, which waits. *)
Theorem C107_follow : forall csv uid gs ls sched N k,
  Forall (started uid) gs -> Forall2 was_told gs ls -> Forall (fun g => c_string (g_nm g)) gs -> 0 <= N ->
  (forall batch i o g, In batch sched -> In (i, o) batch -> nth_error gs i = Some g -> polite (g_fid g) o) ->
  exists b' c', rounds k (busy_env csv uid) (map g_node gs, sched) (open_ctx N (map g_mark gs)) = Ok (b', c') /\
  (exists b'' c'' r, process_devices (busy_env csv uid) b' c' = Ok (b'', c'', r) /\ 0 <= r) /\
  exists done, sched = done ++ snd b' /\
  forall i g l, nth_error gs i = Some g -> nth_error ls i = Some l ->
  exists n' tr tl told unread us dropped waiting,
    nth_error (fst b') i = Some n' /\
    run (fst (g_node g)) (map fst tr) = Ok (fst n', map snd tr) /\
    of_others (g_fid g) (map fst tr) = calls_on i done /\
    timeline (map Some l) tr tl /\
    tl = told ++ map Some unread /\
    tells (sees uid g) (g_nm g) (fun m => In (Some m) tl) told us /\
    filter (wanted csv) us = dropped ++ entries_of i (entries (c_out c')) ++ waiting /\
    (dropped <> [] -> 0 < N) /\
    (N = 0 \/ entries (c_out c') <> [] -> (length waiting <= 1)%nat).
Proof.
  intros csv uid gs ls sched N k Hst Htold Hnm HN Hpol.
  assert (Hlen : length ls = length gs) by (clear - Htold; induction Htold; cbn; congruence).
  assert (Hnames : Forall (fun g => c_string (g_nm g) /\ zlen (g_nm g) <= 15) gs).
  { rewrite Forall_forall in *. intros g Hg. split; [now apply Hnm|]. destruct (Hst g Hg) as ((_ & _ & H) & _). lia. }
  assert (Hsched : Forall (Forall (fun io => forall g, nth_error gs (fst io) = Some g -> polite (g_fid g) (snd io))) sched).
  { apply Forall_forall. intros batch Hb. apply Forall_forall. intros [i o] Hi g Hg. eapply Hpol; eauto. }
  pose proof (S_start csv uid gs ls sched N Hst Htold HN) as H0.
  destruct (S_rounds csv uid gs ls sched Hnames Hlen Hsched N _ k _ _ _ H0) as (b' & l' & c' & E & HS).
  exists b', c'. split; [exact E|]. split.
  { destruct (S_process csv uid gs ls sched Hnames Hlen Hsched N _ _ _ _ HS) as (w' & l2 & c2 & r & E2 & _ & Hr). eauto 6. }
  destruct HS as ((uss & (done & Es & HL & HJ) & HD & HE) & I & F & _). cbn [fst snd] in *.
  exists done. split; [exact Es|]. intros i g l Eg El.
  assert (Hi : (i < length (fst b'))%nat) by (rewrite HL; apply nth_error_Some; congruence).
  destruct (nth_error (fst b') i) as [n'|] eqn:En; [|apply nth_error_None in En; lia].
  destruct (HJ i g l n' Eg El En) as (_ & tr & tl & told & gap & q & a & Er & Eo & Tm & _ & _ & HK & TS & _).
  destruct (fi_dev _ _ _ F i) as (dr & D & Z).
  exists n', tr, tl, told, (map fst gap ++ q), (fst (uss i)), (map val dr), (map val (on i (c_rq c' ++ c_pq c'))).
  split; [reflexivity|]. split; [exact Er|]. split; [exact Eo|]. split; [exact Tm|]. split; [apply HK|]. split; [exact TS|].
  assert (FE : Forall (fun p => fd_entry (snd p) <> None) (shown_from i (c_out c'))).
  { specialize (HE i). rewrite D in HE. apply Forall_app in HE. destruct HE as [_ HE]. apply Forall_app in HE. apply HE. }
  split; [rewrite <- HD, D, !map_app, (entries_from i _ FE); reflexivity|]. split.
  - intros X. apply Z. intros ->. now apply X.
  - intros X. rewrite map_length. eapply waiting_one; eauto. destruct X as [->|X]; [now left|]. right. intros Y. apply X.
    rewrite entries_printed, Y. reflexivity.
Qed.

(** While two logs are followed, a program logs to the first and flushes the second. *)
Definition ex_m4 : said := mkSaid (s_task ex_m1) 9 0 (s_prio ex_m1) (s_tag ex_m1) (bytes_of_string "later").
Definition ex_sched : list (list (nat * op)) := [[]; [(0%nat, say 1 ex_m4)]; [(1%nat, OpIoctl 1 FlushLog 0)]].
Lemma ex_sayable4 : sayable ex_m4.
Proof.
  unfold sayable, c_string, uint32, int32; cbn; repeat split; try lia; try discriminate; intuition discriminate.
Qed.
Example C107_ex : Forall (started 0) [ex_g1; ex_g2] /\ Forall2 was_told [ex_g1; ex_g2] [[ex_m1; ex_m3]; [ex_m2]] /\
  Forall (fun g => c_string (g_nm g)) [ex_g1; ex_g2] /\
  (forall batch i o g, In batch ex_sched -> In (i, o) batch -> nth_error [ex_g1; ex_g2] i = Some g -> polite (g_fid g) o).
Proof.
  destruct C105_ex as (H1 & H2 & H3 & _). split; [exact H1|]. split; [exact H2|]. split; [exact H3|].
  assert (F1 : g_fid ex_g1 = 2) by (vm_compute; reflexivity). assert (F2 : g_fid ex_g2 = 2) by (vm_compute; reflexivity).
  clear H1 H2 H3. revert F1 F2. generalize ex_g1 ex_g2. intros g1 g2 F1 F2 batch i o g Hb Hi Hg.
  assert (F : g_fid g = 2).
  { destruct i as [|[|i]]; cbn in Hg; [congruence|congruence|]. destruct i; discriminate. }
  rewrite F. destruct Hb as [<-|[<-|[<-|[]]]]; [destruct Hi|destruct Hi as [[= <- <-]|[]]|destruct Hi as [[= <- <-]|[]]].
  - split; [cbn; discriminate|]. exists ex_m4. split; [exact ex_sayable4|reflexivity].
  - split; [cbn; discriminate|exact Logic.I].
Qed.
Definition ex_follow (k : nat) : option (list (nat * uentry)) :=
  match rounds k (busy_env false 0) (map g_node [ex_g1; ex_g2], ex_sched) (open_ctx 0 (map g_mark [ex_g1; ex_g2])) with
  | Ok (_, c) => Some (entries (c_out c)) | Bug _ => None end.
Example C107_out : ex_follow 6 = Some [(0%nat, shown ex_m1); (0%nat, shown ex_m3); (0%nat, shown ex_m4)].
Proof. vm_compute. reflexivity. Qed.
Print Assumptions C107_follow.
