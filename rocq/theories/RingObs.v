(** From the refinement to statements about histories and observable behaviour. *)
From Coq Require Import ZArith String List Bool Lia ZifyBool ZifyNat.
From Verif Require Import Bytes BytesProofs Ring RingSpec RingProofs RingRefine RingHistory RingInv.
Import ListNotations.
Open Scope Z_scope.

(** ** Histories *)

Definition good_event (m : ledger) (nm : list Z) (o : op) (x : aout) : Prop :=
  delivery_ok m o x /\
  match o, x with
  | OpReadBody _ _ _ _, (AEntry ver _) => 1 <= ver <= 2
  | OpReadBody _ _ _ _, (AReport ver nm' _ _) => 1 <= ver <= 2 /\ nm' = nm
  | OpReadBody _ _ _ _, (AErr _ | ARetry | ANoFile) => True
  | OpReadBody _ _ _ _, _ => False
  | _, (AEntry _ _ | AReport _ _ _ _) => False
  | _, _ => True
  end.

Lemma astep_name : forall a o, a_name (fst (astep a o)) = a_name a /\ a_cap (fst (astep a o)) = a_cap a.
Proof.
  intros a o. destruct o; cbn [astep]; try (
    destruct (alookup fid (a_files a)) as [[w mm [r|]]|]; cbn; auto; fail).
  - destruct (alookup fid (a_files a)); [auto|]. destruct (rd && nomem); cbn; auto.
  - destruct (alookup fid (a_files a)) as [[w mm [r|]]|]; cbn; auto.
    destruct (aread (a_name a) r euid count valid); cbn; auto.
  - destruct (alookup fid (a_files a)) as [f|]; [|auto]. destruct (a_wr f); [|auto].
    unfold awrite. destruct (_ && _); [auto|]. destruct (_ =? 0); [auto|].
    destruct (make_room _ _ _). destruct (iter_fault _ _); cbn; auto.
  - destruct (alookup fid (a_files a)) as [f|]; [|auto].
    destruct c; cbn [aioctl]; repeat match goal with
     | |- context [match ?b with _ => _ end] => destruct b end; cbn; auto.
Qed.

Lemma aread_label : forall nm r euid count valid, 1 <= a_ver r <= 2 ->
  match snd (aread nm r euid count valid) with
  | AEntry ver _ => 1 <= ver <= 2
  | AReport ver nm' _ _ => 1 <= ver <= 2 /\ nm' = nm
  | AErr _ | ARetry | ANoFile => True
  | _ => False
  end.
Proof.
  intros nm r euid count valid H. unfold aread. pose proof (visible_ver r euid) as (E & _).
  destruct (a_q (visible r euid)); [exact I|].
  destruct (a_lost (visible r euid) >? 0); repeat
   match goal with |- context [if ?b then _ else _] => destruct b end; cbn; try exact I; try lia.
  split; [lia|reflexivity].
Qed.

Lemma astep_good : forall m a o a' x, Inv m a -> vers_ok a -> astep a o = (a', x) ->
  good_event m (a_name a) o x /\ Inv (record m (o, x)) a'.
Proof.
  intros m a o a' x HI Hv E. destruct (astep_inv m a o a' x HI E) as [H1 H2].
  split; [|exact H2]. split; [exact H1|].
  destruct o; cbn [astep] in E.
  - destruct (alookup fid (a_files a)); [injection E as <- <-; exact I|].
    destruct (rd && nomem); injection E as <- <-; exact I.
  - destruct (alookup fid (a_files a)); injection E as <- <-; exact I.
  - destruct (alookup fid (a_files a)) as [[w mm [r|]]|]; injection E as <- <-; try exact I.
    destruct (a_q r); [|exact I]. destruct nonblock; [exact I|]. destruct signal; exact I.
  - destruct (alookup fid (a_files a)) as [[w mm [r|]]|] eqn:El; try (injection E as <- <-; exact I).
    pose proof (vers_lookup _ _ _ Hv El) as Hr. unfold ver_ok in Hr. cbn in Hr.
    pose proof (aread_label (a_name a) r euid count valid Hr) as HL.
    destruct (aread (a_name a) r euid count valid) as [r' x'] eqn:Er. injection E as <- <-. exact HL.
  - destruct (alookup fid (a_files a)) as [f|]; [|injection E as <- <-; exact I].
    destruct (a_wr f); [|injection E as <- <-; exact I].
    unfold awrite in E. destruct (_ && _); [injection E as <- <-; exact I|].
    destruct (_ =? 0); [injection E as <- <-; exact I|].
    destruct (make_room _ _ _). destruct (iter_fault _ _); injection E as <- <-; exact I.
  - destruct (alookup fid (a_files a)) as [[w mm [r|]]|]; injection E as <- <-; exact I.
  - destruct (alookup fid (a_files a)) as [f|]; [|injection E as <- <-; exact I].
    assert (Hx : match snd (aioctl a fid f c euid) with AEntry _ _ | AReport _ _ _ _ => False | _ => True end).
    { destruct c; cbn [aioctl]; repeat match goal with
      | |- context [if ?b then _ else _] => destruct b
      | |- context [match ?b with Some _ => _ | None => _ end] => destruct b end; exact I. }
    rewrite E in Hx. cbn in Hx. destruct x; auto.
Qed.

Definition with_ops (ops : list op) (xs : list aout) : history := combine ops xs.

Lemma arun_good : forall ops m a a' xs, Inv m a -> vers_ok a -> arun a ops = (a', xs) ->
  (forall pre o x post, with_ops ops xs = pre ++ (o, x) :: post ->
      good_event (fold_left record pre m) (a_name a) o x) /\
  Inv (fold_left record (with_ops ops xs) m) a' /\ map fst (with_ops ops xs) = ops /\
  map snd (with_ops ops xs) = xs /\ a_name a' = a_name a /\ a_cap a' = a_cap a.
Proof.
  induction ops as [|o ops IH]; intros m a a' xs HI Hv E; cbn [arun] in E.
  - injection E as <- <-. split; [intros pre o x post H; destruct pre; discriminate|]. split; [exact HI|]. auto.
  - destruct (astep a o) as [a1 x] eqn:Es. destruct (arun a1 ops) as [a2 xs2] eqn:Er.
    injection E as <- <-.
    destruct (astep_good m a o a1 x HI Hv Es) as [G HI1].
    pose proof (vers_step a o Hv) as Hv1. pose proof (astep_name a o) as (Hn & Hc).
    rewrite Es in Hv1, Hn, Hc. cbn [fst] in Hv1, Hn, Hc.
    destruct (IH _ _ _ _ HI1 Hv1 Er) as (I1 & I2 & I3 & I4 & I5 & I6).
    unfold with_ops in *. cbn [combine map fst snd fold_left].
    split; [|split; [exact I2|repeat split; congruence]].
    intros pre o' x' post H. destruct pre as [|ev pre]; cbn [app] in H.
    + injection H as <- <- _. exact G.
    + injection H as <- H. cbn [fold_left]. rewrite <- Hn. eapply I1; eassumption.
Qed.

Lemma Inv_init : forall nm pow2, Inv ledger0 (init_adev nm pow2).
Proof.
  intros. split; [constructor|]. split; [exists []; split; reflexivity|]. intros fid x H. discriminate.
Qed.

(** The whole of what a history satisfies. *)
Lemma history_good : forall nm mem pow2 ops, init_ok nm mem pow2 -> Forall user_op ops ->
  exists h d a, explains h nm mem pow2 ops d /\ R d a /\ vers_ok a /\ Inv (ledger_of h) a /\
    a_name a = nm /\ a_cap a = 2 ^ pow2 /\ always (fun m o x => good_event m nm o x) h.
Proof.
  intros nm mem pow2 ops Hi Hu. destruct (init_R nm mem pow2 Hi) as [HR Hv].
  destruct (run_R ops _ _ Hu HR Hv) as (d & E & HR' & Hv').
  destruct (arun (init_adev nm pow2) ops) as [a xs] eqn:Ea. cbn [fst snd] in *.
  destruct (arun_good ops ledger0 _ _ _ (Inv_init nm pow2) Hv Ea) as (G1 & G2 & G3 & G4 & G5 & G6).
  exists (with_ops ops xs), d, a. split; [|split; [exact HR'|]; split; [exact Hv'|]; split; [exact G2|]; split; [exact G5|]; split; [exact G6|exact G1]].
  split; [exact G3|]. rewrite E. do 2 f_equal. rewrite <- G4 at 1. rewrite map_map. reflexivity.
Qed.

Lemma reachable_R : forall d, reachable d -> exists a m, R d a /\ vers_ok a /\ Inv m a.
Proof.
  intros d (nm & mem & pow2 & ops & outs & Hi & Hu & E).
  destruct (history_good nm mem pow2 ops Hi Hu) as (h & d' & a & (_ & E') & HR & Hv & HI & _).
  rewrite E in E'. injection E' as <- _. exists a, (ledger_of h). auto.
Qed.

Lemma reachable_step : forall d o d' x, reachable d -> user_op o -> step d o = Ok (d', x) -> reachable d'.
Proof.
  intros d o d' x (nm & mem & pow2 & ops & outs & Hi & Hu & E) Ho Es.
  exists nm, mem, pow2, (ops ++ [o]), (outs ++ [x]). split; [exact Hi|].
  split. { apply Forall_app. split; [exact Hu|]. constructor; [exact Ho|constructor]. }
  clear - E Es. revert E. generalize (init_dev nm mem pow2) as d0. revert outs.
  induction ops as [|o' ops IH]; intros outs d0 E; cbn [run app] in *.
  - injection E as <- <-. rewrite Es. reflexivity.
  - destruct (step d0 o') as [[d1 x1]|b]; cbn [bind] in *; [|discriminate].
    destruct (run d1 ops) as [[d2 xs]|b] eqn:Er; cbn [bind] in *; [|discriminate].
    injection E as <- <-. rewrite (IH xs d1 Er). reflexivity.
Qed.

(** ** Draining a reader *)

Definition mine (r : areader) (euid : Z) : list entry :=
  if a_all r then a_q r else filter (fun e => e_euid e =? u32 euid) (a_q r).

Lemma mine_visible : forall r euid, mine (visible r euid) euid = mine r euid.
Proof.
  intros r euid. unfold mine, visible. destruct (a_all r) eqn:E; [rewrite E; reflexivity|].
  cbn [a_all a_q]. induction (a_q r) as [|e q IH]; [reflexivity|]. cbn [skip_others filter].
  destruct (e_euid e =? u32 euid) eqn:Ee; [cbn [filter]; rewrite Ee; reflexivity|exact IH].
Qed.

Lemma visible_head : forall r euid, match a_q (visible r euid) with
  | [] => mine r euid = []
  | e :: rest => mine r euid = e :: mine (mkAReader rest (a_lost r) (a_all r) (a_ver r)) euid end.
Proof.
  intros r euid. rewrite <- mine_visible. pose proof (visible_ver r euid) as (_ & _ & Ha).
  unfold mine at 1 2. rewrite Ha. unfold mine. cbn [a_all a_q]. destruct (a_all r) eqn:E.
  - destruct (a_q (visible r euid)); reflexivity.
  - unfold visible. rewrite E. cbn [a_q].
    destruct (skip_others euid (a_q r)) as [|e rest] eqn:Es; [reflexivity|].
    cbn [filter]. rewrite (skip_others_own _ _ _ _ Es), Z.eqb_refl. reflexivity.
Qed.

Lemma alookup_update_id : forall xs fid x y, alookup fid xs = Some x -> alookup fid (aupdate fid y xs) = Some y.
Proof. intros xs fid x y H. rewrite alookup_update, Z.eqb_refl, H. reflexivity. Qed.

Lemma skip_others_len : forall q euid, (length (skip_others euid q) <= length q)%nat.
Proof.
  intros q euid. destruct (skip_others_split q euid) as (d & H). rewrite H at 2. rewrite app_length. lia.
Qed.

Lemma R_reader_wf : forall d a fid f r, R d a -> alookup fid (a_files a) = Some f -> a_rd f = Some r ->
  Forall wf_entry (a_q r).
Proof.
  intros d a fid f r (_ & _ & _ & _ & _ & _ & Hf) El Er.
  pose proof (R_lookup _ _ _ fid Hf) as HL. rewrite El in HL.
  destruct (lookup fid (d_files d)) as [g|]; [|contradiction]. destruct HL as (_ & _ & HL). rewrite Er in HL.
  destruct (f_reader g); [|contradiction]. destruct HL as ((_ & _ & _ & _ & H) & _). exact H.
Qed.

Lemma skip_others_wf : forall q euid, Forall wf_entry q -> Forall wf_entry (skip_others euid q).
Proof.
  intros q euid H. destruct (skip_others_split q euid) as (d & E). rewrite E in H.
  apply Forall_app in H. apply H.
Qed.

Lemma visible_wf : forall r euid, Forall wf_entry (a_q r) -> Forall wf_entry (a_q (visible r euid)).
Proof. intros r euid H. unfold visible. destruct (a_all r); [exact H|]. apply skip_others_wf. exact H. Qed.

Lemma enc_len_small : forall ver e, wf_entry e -> enc_len ver e <= 8192.
Proof. intros ver e [_ H]. rewrite enc_len_eq. pose proof (hdr_len_pos ver). lia. Qed.

(** First element of a stream. *)
Lemma drains_R : forall n d a fid f r euid, (length (a_q r) + (if (0 <? a_lost r)%Z then 1 else 0) <= n)%nat ->
  R d a -> vers_ok a -> alookup fid (a_files a) = Some f -> a_rd f = Some r ->
  drains d fid euid (stream (a_name a) (a_ver r) (a_lost r) (mine r euid)).
Proof.
  induction n as [n IH] using (well_founded_induction lt_wf).
  intros d a fid f r euid Hn HR Hv El Er.
  pose proof (step_R d a (OpReadBody fid euid 8192 8192) I HR Hv) as (d' & Es & HR').
  pose proof (vers_step a (OpReadBody fid euid 8192 8192) Hv) as Hv'.
  pose proof (R_reader_wf d a fid f r HR El Er) as Hwf. pose proof (visible_wf r euid Hwf) as Hwf'.
  pose proof HR as ((_ & _ & _ & Hnm) & _ & Enm & _). rewrite Enm in Hnm.
  destruct f as [w mm fr]. cbn in Er. subst fr.
  cbn [astep] in *. rewrite El in *.
  pose proof (visible_head r euid) as Hh. pose proof (visible_ver r euid) as (V1 & V2 & V3).
  unfold aread in *.
  destruct (a_q (visible r euid)) as [|e rest] eqn:Eq.
  { rewrite Hh. cbn [stream]. eapply drains_end. exact Es. }
  rewrite Hh. cbn [stream]. rewrite V2, V1 in *.
  inversion Hwf' as [|? ? We Wr]; subst.
  assert (Hlen : (length (e :: rest) <= length (a_q r))%nat).
  { rewrite <- Eq. unfold visible. destruct (a_all r); [lia|]. cbn [a_q]. apply skip_others_len. }
  destruct (Z.gtb_spec (a_lost r) 0) as [Hl|Hl].
  - destruct (Z.ltb_spec 0 (a_lost r)) as [_|]; [|lia].
    pose proof (enc_len_small (a_ver r) _ (wf_report (a_name a) (a_lost r) e We Hnm)).
    destruct (Z.ltb_spec 8192 (enc_len (a_ver r) (report (a_name a) (a_lost r) e))); [lia|].
    cbn [fst snd render] in *. cbn [app map]. eapply drains_more; [exact Es|].
    set (r2 := mkAReader (e :: rest) 0 (a_all (visible r euid)) (a_ver r)) in *.
    set (a2 := mkADev (a_cap a) (a_name a) (a_keep a) (a_gone a) (aupdate fid (mkAFile w mm (Some r2)) (a_files a))) in *.
    assert (Hx : drains d' fid euid (stream (a_name a2) (a_ver r2) (a_lost r2) (mine r2 euid))).
    { eapply (IH (length (a_q r2) + 0)%nat); try exact HR'; try exact Hv'.
      - cbn [r2 a_q]. lia.
      - cbn [r2 a_lost Z.ltb Z.compare]. lia.
      - cbn [a2 a_files]. eapply alookup_update_id. exact El.
      - reflexivity. }
    cbn [a2 r2 a_name a_ver a_lost] in Hx.
    replace (mine r2 euid) with (e :: mine (mkAReader rest (a_lost r) (a_all r) (a_ver r)) euid) in Hx.
    { exact Hx. }
    rewrite <- Hh. unfold mine, r2. cbn [a_all a_q]. rewrite V3.
    destruct (a_all r) eqn:Ea; [unfold visible in Eq; rewrite Ea in Eq; exact Eq|].
    rewrite <- Eq. unfold visible. rewrite Ea. cbn [a_q].
    clear. induction (a_q r) as [|x q IH]; [reflexivity|]. cbn [skip_others filter].
    destruct (e_euid x =? u32 euid) eqn:Ex; [cbn [filter]; rewrite Ex; reflexivity|]. exact IH.
  - destruct (Z.ltb_spec 0 (a_lost r)) as [|_]; [lia|].
    pose proof (enc_len_small (a_ver r) e We).
    destruct (Z.ltb_spec 8192 (enc_len (a_ver r) e)); [lia|].
    cbn [fst snd render] in *. cbn [app map]. eapply drains_more; [exact Es|].
    set (r2 := mkAReader rest (a_lost r) (a_all (visible r euid)) (a_ver r)) in *.
    set (a2 := mkADev (a_cap a) (a_name a) (a_keep a) (a_gone a) (aupdate fid (mkAFile w mm (Some r2)) (a_files a))) in *.
    assert (Hx : drains d' fid euid (stream (a_name a2) (a_ver r2) (a_lost r2) (mine r2 euid))).
    { eapply (IH (length (a_q r2) + 0)%nat); try exact HR'; try exact Hv'.
      - cbn [r2 a_q]. cbn [length] in Hlen. lia.
      - cbn [r2 a_lost]. destruct (Z.ltb_spec 0 (a_lost r)); lia.
      - cbn [a2 a_files]. eapply alookup_update_id. exact El.
      - reflexivity. }
    cbn [a2 r2 a_name a_ver a_lost] in Hx.
    replace (mine (mkAReader rest (a_lost r) (a_all r) (a_ver r)) euid) with (mine r2 euid)
      by (unfold mine, r2; cbn [a_all a_q]; rewrite V3; reflexivity).
    unfold stream in Hx. destruct (mine r2 euid); [exact Hx|].
    destruct (Z.ltb_spec 0 (a_lost r)); [lia|]. exact Hx.
Qed.

(** The abstract reader of a concrete one. *)
Lemma R_reader_of : forall d a fid r, R d a -> reader_of d fid = Some r ->
  exists f ar, alookup fid (a_files a) = Some f /\ a_rd f = Some ar /\ R_reader (d_log d) r ar.
Proof.
  intros d a fid r (_ & _ & _ & _ & _ & _ & Hf) Hr. unfold reader_of in Hr.
  pose proof (R_lookup _ _ _ fid Hf) as HL.
  destruct (lookup fid (d_files d)) as [g|]; [|discriminate].
  destruct (alookup fid (a_files a)) as [f|] eqn:El; [|contradiction].
  destruct HL as (_ & _ & HL). rewrite Hr in HL. destruct (a_rd f) as [ar|] eqn:Er; [|contradiction].
  exists f, ar. auto.
Qed.

Lemma R_reader_back : forall d a fid f ar, R d a -> alookup fid (a_files a) = Some f -> a_rd f = Some ar ->
  exists r, reader_of d fid = Some r /\ R_reader (d_log d) r ar.
Proof.
  intros d a fid f ar (_ & _ & _ & _ & _ & _ & Hf) El Er. unfold reader_of.
  pose proof (R_lookup _ _ _ fid Hf) as HL. rewrite El in HL.
  destruct (lookup fid (d_files d)) as [g|]; [|contradiction].
  destruct HL as (_ & _ & HL). rewrite Er in HL. destruct (f_reader g) as [r|]; [|contradiction].
  exists r. auto.
Qed.

Lemma owes_R : forall d a fid f ar, R d a -> vers_ok a -> alookup fid (a_files a) = Some f ->
  a_rd f = Some ar -> a_all ar = true -> owes d fid (a_lost ar) (a_q ar).
Proof.
  intros d a fid f ar HR Hv El Er Ha.
  destruct (R_reader_back d a fid f ar HR El Er) as (r & Hr & (_ & _ & _ & _ & Ever)).
  exists (a_ver ar). split; [exists r; split; [exact Hr|exact Ever]|].
  intros euid. pose proof (drains_R _ d a fid f ar euid (le_n _) HR Hv El Er) as H.
  unfold mine in H. rewrite Ha in H. pose proof HR as (_ & _ & -> & _). exact H.
Qed.

Lemma unrestricted_R : forall d a fid, R d a -> unrestricted d fid ->
  exists f ar, alookup fid (a_files a) = Some f /\ a_rd f = Some ar /\ a_all ar = true.
Proof.
  intros d a fid HR (r & Hr & Ha). destruct (R_reader_of d a fid r HR Hr) as (f & ar & H1 & H2 & (_ & _ & _ & H3 & _)).
  exists f, ar. repeat split; try assumption. congruence.
Qed.

Lemma drains_det : forall d fid euid l1, drains d fid euid l1 -> forall l2, drains d fid euid l2 -> l1 = l2.
Proof.
  intros d fid euid l1 H. induction H as [d d' fid euid E|d d' fid euid bs l E H IH]; intros l2 H2;
  inversion H2; subst; try congruence.
  assert (d' = d'0 /\ bs = bs0) as [-> ->] by (split; congruence).
  f_equal. apply IH. assumption.
Qed.

(** Equal abstract devices cannot be distinguished. *)
Lemma R_indistinguishable : forall d1 d2 a, R d1 a -> R d2 a -> vers_ok a -> indistinguishable d1 d2.
Proof.
  intros d1 d2 a H1 H2 Hv ops Hu.
  destruct (run_R ops d1 a Hu H1 Hv) as (d1' & E1 & _).
  destruct (run_R ops d2 a Hu H2 Hv) as (d2' & E2 & _).
  exists d1', d2', (map render (snd (arun a ops))). auto.
Qed.
