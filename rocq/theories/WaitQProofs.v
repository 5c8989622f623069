(** Lemmas for the sleeping and waking protocol. *)
From Coq Require Import ZArith String List Bool Lia ZifyBool Arith.
From Verif Require Import Bytes BytesProofs Ring RingSpec RingRefine RingHistory RingInv RingObs WaitQ.
Import ListNotations.
Open Scope Z_scope.

(** ** Lists *)

Lemma nth_put : forall {A} n m (x : A) l, nth_error (put n x l) m =
  if Nat.eqb m n then match nth_error l n with Some _ => Some x | None => None end else nth_error l m.
Proof.
  induction n as [|n IH]; intros m x l; destruct l as [|y l]; destruct m as [|m]; cbn; try reflexivity.
  - destruct (Nat.eqb m n); reflexivity.
  - rewrite IH. reflexivity.
Qed.

Lemma nth_wake : forall wq ths k t, nth_error (wake_all wq k ths) t =
  option_map (wake_one wq (k + t)) (nth_error ths t).
Proof.
  intros wq ths. induction ths as [|th ths IH]; intros k t; destruct t as [|t]; cbn; try reflexivity.
  - rewrite Nat.add_0_r. reflexivity.
  - rewrite IH. rewrite Nat.add_succ_r. reflexivity.
Qed.

Lemma in_wq_cons : forall t b p wq, in_wq t b wq = true -> in_wq t b (p :: wq) = true.
Proof. intros t b p wq H. unfold in_wq in *. cbn [existsb]. rewrite H. apply orb_true_r. Qed.

Lemma in_wq_here : forall t b wq, in_wq t b ((t, b) :: wq) = true.
Proof. intros. cbn. rewrite Nat.eqb_refl, eqb_reflx. reflexivity. Qed.

Lemma in_wq_leave : forall t b t' b' wq, t' <> t \/ b' <> b -> in_wq t' b' wq = true -> in_wq t' b' (leave t b wq) = true.
Proof.
  intros t b t' b' wq N. unfold in_wq, leave. rewrite !existsb_exists. intros (p & Hi & Hp).
  exists p. split; [|exact Hp]. apply filter_In. split; [exact Hi|].
  apply andb_true_iff in Hp. destruct Hp as [H1 H2]. apply Nat.eqb_eq in H1. apply eqb_prop in H2. subst.
  apply negb_true_iff. apply andb_false_iff. destruct N as [N|N].
  - left. apply Nat.eqb_neq. exact N.
  - right. apply eqb_false_iff. exact N.
Qed.

(** ** Classes of statements *)

Definition holds (p : pc) : bool :=
  match p with
  | RPrep _ | RTest _ | RUnlock _ _ | RBody _ | RUnlock2 _ _ | WBody _ _ | WUnlock _ | PBody _ _
  | PUnlock _ _ _ | OBody _ | OUnlock _ => true
  | _ => false
  end.
Definition wakes (p : pc) : bool :=
  match p with WWake _ => true | WUnlock v => negb (v <? 0) | _ => false end.
Definition cand (th : thread) : option Z :=
  match t_pc th with
  | RUnlock c true | RDecide c true | RSched c => if t_run th then None else Some (ra_fid c)
  | PUnlock f _ false | PDecide f _ false | PSet f _ | PChk f _ => if t_trig th then None else Some f
  | PSched f _ => if t_run th then None else Some f
  | _ => None
  end.
Definition rqueued (th : thread) : bool :=
  match t_pc th with
  | RTest _ | RUnlock _ _ | RDecide _ _ | RSched _ => negb (t_run th)
  | _ => false
  end.
Definition pqueued (p : pc) : bool :=
  match p with
  | PLock _ _ | PBody _ _ | PUnlock _ _ _ | PDecide _ _ _ | PSet _ _ | PChk _ _ | PSched _ _
  | PWoke _ _ | PFree _ => true
  | _ => false
  end.
(** A read in the middle, and the file it needs. *)
Definition needs_reader (p : pc) : option Z :=
  match p with
  | RLock c | RPrep c | RTest c | RUnlock c _ | RDecide c _ | RSched c | RFinish c _ | RLock2 c
  | RBody c | RUnlock2 c _ => Some (ra_fid c)
  | PReg f _ | PLock f _ | PBody f _ | PUnlock f _ _ | PDecide f _ _ | PSet f _ | PChk f _
  | PSched f _ | PWoke f _ => Some f
  | _ => None
  end.
Definition needs_file (p : pc) : option Z := match p with WStart w => Some (wa_fid w) | _ => None end.
Definition closes (p : pc) : option Z :=
  match p with OLock (OpClose f) | OBody (OpClose f) => Some f | _ => None end.
Definition good_iter (p : pc) : Prop :=
  match p with WStart w | WLock w _ | WBody w _ => user_iter (wa_it w)
  | OLock o | OBody o => match o with OpOpen _ _ _ _ _ | OpClose _ | OpIoctl _ _ _ => True | _ => False end
  | _ => True end.

Lemma needs_uses : forall p f, needs_reader p = Some f -> uses p = Some f.
Proof. intros [] f H; cbn in *; congruence. Qed.

(** ** Facts about the device *)

Definition has_file (a : adev) (fid : Z) : Prop := exists f, alookup fid (a_files a) = Some f.
Definition has_reader (a : adev) (fid : Z) : Prop :=
  exists f r, alookup fid (a_files a) = Some f /\ a_rd f = Some r.
Definition empty (a : adev) (fid : Z) : Prop :=
  exists f r, alookup fid (a_files a) = Some f /\ a_rd f = Some r /\ a_q r = [].

(** File [fid] stays, and with [e] an empty queue stays empty. *)
Definition keeps (e : bool) (a a' : adev) (fid : Z) : Prop :=
  (has_file a fid -> has_file a' fid) /\ (has_reader a fid -> has_reader a' fid) /\
  (e = true -> empty a fid -> empty a' fid).

Lemma keeps_refl : forall e a fid, keeps e a a fid.
Proof. firstorder. Qed.

Lemma keeps_files : forall e a a' fid, a_files a' = a_files a -> keeps e a a' fid.
Proof. intros e a a' fid H. unfold keeps, has_file, has_reader, empty. rewrite H. firstorder. Qed.

(** One file replaced. *)
Lemma keeps_update : forall e a a' fid f0 f1 fid', alookup fid (a_files a) = Some f0 ->
  a_files a' = aupdate fid f1 (a_files a) ->
  match a_rd f0, a_rd f1 with
  | Some r, Some r' => a_q r = [] -> a_q r' = [] | None, None => True | _, _ => False end ->
  keeps e a a' fid'.
Proof.
  intros e a a' fid f0 f1 fid' El Ea Hr. unfold keeps, has_file, has_reader, empty. rewrite Ea.
  rewrite alookup_update. destruct (Z.eqb_spec fid' fid) as [->|N].
  - rewrite El. destruct (a_rd f0) as [r0|] eqn:E0, (a_rd f1) as [r1|] eqn:E1; try contradiction.
    + split; [intros _; eauto|]. split; [intros _; eauto|].
      intros _ (f & r & A & B & C). exists f1, r1. repeat split; try assumption. apply Hr. congruence.
    + split; [intros _; eauto|]. split.
      * intros (f & r & A & B). congruence.
      * intros _ (f & r & A & B & C). congruence.
  - firstorder.
Qed.

Lemma keeps_on_files : forall e a a' g fid, a_files a' = on_files g (a_files a) ->
  (forall f, match a_rd f, a_rd (g f) with
    | Some r, Some r' => e = true -> a_q r = [] -> a_q r' = [] | None, None => True | _, _ => False end) ->
  keeps e a a' fid.
Proof.
  intros e a a' g fid Ea Hg. unfold keeps, has_file, has_reader, empty. rewrite Ea, alookup_on_files.
  destruct (alookup fid (a_files a)) as [f0|] eqn:E; cbn [option_map].
  - split; [intros _; eauto|]. specialize (Hg f0). split.
    + intros (f & r & A & B). assert (f = f0) by congruence. subst. rewrite B in Hg.
      destruct (a_rd (g f0)) as [r'|] eqn:E1; [|contradiction]. eauto.
    + intros He (f & r & A & B & C). assert (f = f0) by congruence. subst. rewrite B in Hg.
      destruct (a_rd (g f0)) as [r'|] eqn:E1; [|contradiction]. exists (g f0), r'. auto.
  - split; [|split].
    + intros (f & A). discriminate.
    + intros (f & r & A & B). discriminate.
    + intros _ (f & r & A & B & C). discriminate.
Qed.

Lemma keeps_trans : forall e a b c fid, keeps e a b fid -> keeps e b c fid -> keeps e a c fid.
Proof. unfold keeps. intros e a b c fid (A & B & C) (D & E & F). split; [auto|]. split; auto. Qed.

Lemma make_room_nil : forall cap need, make_room cap need [] = ([], 0).
Proof. intros. unfold make_room. cbn [drop_oldest]. match goal with |- (if ?b then _ else _) = _ => destruct b end; reflexivity. Qed.

Lemma keeps_write : forall a raw t sec nsec it fid,
  keeps (match snd (awrite a raw t sec nsec it) with AErr _ => true | _ => false end) a
        (fst (awrite a raw t sec nsec it)) fid.
Proof.
  intros a raw t sec nsec it fid. unfold awrite.
  destruct (raw && _); [apply keeps_refl|].
  destruct (zlen _ =? 0); [apply keeps_refl|].
  destruct (make_room (a_cap a) _ (a_keep a)) as [k n].
  set (need := esize _).
  assert (R1 : forall f, match a_rd f, a_rd (amake_room (a_cap a) need f) with
    | Some r, Some r' => true = true -> a_q r = [] -> a_q r' = [] | None, None => True | _, _ => False end).
  { intros f. unfold amake_room. destruct (a_rd f) as [r|] eqn:E; [|rewrite E; exact I].
    destruct (make_room (a_cap a) need (a_q r)) as [q m] eqn:Em. cbn [a_rd a_q].
    intros _ Hq. rewrite Hq, make_room_nil in Em. congruence. }
  destruct (iter_fault _ _); cbn [fst snd].
  - eapply keeps_on_files; [reflexivity|exact R1].
  - eapply (keeps_on_files false a _ (fun f => aappend _ (amake_room (a_cap a) need f))).
    + cbn [a_files]. unfold on_files. rewrite map_map. reflexivity.
    + intros f. specialize (R1 f). unfold aappend. destruct (a_rd f), (a_rd (amake_room (a_cap a) need f)) eqn:E;
        try contradiction; cbn [a_rd]; try rewrite E; try exact I. discriminate.
Qed.

Lemma visible_nil : forall r euid, a_q r = [] -> a_q (visible r euid) = [].
Proof. intros r euid H. unfold visible. destruct (a_all r); [exact H|]. cbn. rewrite H. reflexivity. Qed.

Lemma aread_nil : forall nm r euid c v, a_q r = [] -> a_q (fst (aread nm r euid c v)) = [].
Proof. intros. unfold aread. rewrite (visible_nil r euid H). cbn [fst]. apply visible_nil. exact H. Qed.

Lemma keeps_step : forall a o fid, (forall f t x y it, o <> OpWrite f t x y it) -> o <> OpClose fid ->
  keeps true a (fst (astep a o)) fid.
Proof.
  intros a o fid Nw Nc. destruct o as [f rd wr all nm|f|f nb sg|f eu ct vl|f t x y it|f eu|f c eu]; cbn [astep].
  - destruct (alookup f (a_files a)) eqn:E; [apply keeps_refl|]. destruct (rd && nm); [apply keeps_refl|].
    cbn [fst]. unfold keeps, has_file, has_reader, empty. cbn [a_files]. rewrite alookup_app.
    split; [|split].
    + intros (g & A). rewrite A. eauto.
    + intros (g & r & A & B). rewrite A. eauto.
    + intros _ (g & r & A & B & C). rewrite A. eauto.
  - destruct (alookup f (a_files a)) eqn:E; [|apply keeps_refl]. cbn [fst].
    assert (N : f <> fid) by congruence. clear Nc Nw.
    assert (L : alookup fid (aremove f (a_files a)) = alookup fid (a_files a)).
    { clear E. induction (a_files a) as [|[i g] xs IH]; [reflexivity|]. cbn [aremove alookup].
      destruct (Z.eqb_spec i f) as [->|]; destruct (Z.eqb_spec f fid); try congruence.
      - cbn [alookup]. rewrite IH. reflexivity.  }
    unfold keeps, has_file, has_reader, empty. cbn [a_files]. rewrite L. firstorder.
  - destruct (alookup f (a_files a)) as [[w m [r|]]|]; apply keeps_refl.
  - destruct (alookup f (a_files a)) as [[w m [r|]]|] eqn:E; try apply keeps_refl.
    pose proof (aread_nil (a_name a) r eu ct vl) as H.
    destruct (aread (a_name a) r eu ct vl) as [r' x]. cbn [fst] in *.
    eapply keeps_update; [exact E|reflexivity|]. cbn [a_rd]. exact H.
  - exfalso. eapply Nw. reflexivity.
  - destruct (alookup f (a_files a)) as [[w m [r|]]|] eqn:E; try apply keeps_refl.
    cbn [fst]. eapply keeps_update; [exact E|reflexivity|]. cbn [a_rd]. apply visible_nil.
  - destruct (alookup f (a_files a)) as [g|] eqn:E; [|apply keeps_refl].
    assert (Fl : forall x, match a_rd x, a_rd (aflush x) with
       | Some r, Some r' => true = true -> a_q r = [] -> a_q r' = [] | None, None => True | _, _ => False end).
    { intros x. unfold aflush. destruct (a_rd x) as [r|] eqn:Ex; cbn [a_rd a_q]; [reflexivity|rewrite Ex; exact I]. }
    unfold aioctl. destruct c as [| | | | |arg|arg st cp|].
    + destruct (a_rd g); apply keeps_refl.
    + destruct (a_rd g); apply keeps_refl.
    + destruct (a_rd g) as [r|] eqn:Er; [|apply keeps_refl]. cbn [fst].
      eapply keeps_update; [exact E|reflexivity|]. rewrite Er. cbn [a_rd]. apply visible_nil.
    + destruct (a_rd g); (destruct (a_wr g); [|apply keeps_refl]); (eapply keeps_on_files; [reflexivity|exact Fl]).
    + destruct (a_rd g); apply keeps_refl.
    + destruct (a_rd g) as [r|] eqn:Er; destruct arg as [v|]; try apply keeps_refl.
      destruct (_ || _); [|apply keeps_refl]. cbn [fst].
      eapply keeps_update; [exact E|reflexivity|]. rewrite Er. cbn [a_rd a_q]. auto.
    + assert (X : fst (if negb (a_wr g) then (a, AErr EBADF) else
         if st && negb cp then (a, AErr EPERM) else
         match arg with
         | None => (a, AErr EFAULT)
         | Some m => if (m =? 0) || (m =? 1) then
             (mkADev (a_cap a) (a_name a) (a_keep a) (a_gone a) (aupdate f (mkAFile (a_wr g) (m =? 1) (a_rd g)) (a_files a)), AVal 0)
             else (a, AErr EINVAL) end) = fst (aioctl a f g (SetRawMode arg st cp) eu)).
      { unfold aioctl. destruct (a_rd g); reflexivity. }
      change (keeps true a (fst (aioctl a f g (SetRawMode arg st cp) eu)) fid). rewrite <- X.
      destruct (negb (a_wr g)); [apply keeps_refl|]. destruct (st && negb cp); [apply keeps_refl|].
      destruct arg as [m|]; [|apply keeps_refl]. destruct (_ || _); [|apply keeps_refl]. cbn [fst].
      eapply keeps_update; [exact E|reflexivity|]. cbn [a_rd]. destruct (a_rd g); auto.
    + destruct (a_rd g); apply keeps_refl.
Qed.

(** ** Invariant *)

Definition pending (ths : list thread) : Prop :=
  exists t th, nth_error ths t = Some th /\ wakes (t_pc th) = true.

Definition local (a : adev) (mx : option nat) (wq : list (nat * bool)) (t : nat) (th : thread) : Prop :=
  (holds (t_pc th) = true <-> mx = Some t) /\
  (rqueued th = true -> in_wq t false wq = true) /\
  (pqueued (t_pc th) = true -> in_wq t true wq = true) /\
  (forall f, needs_reader (t_pc th) = Some f -> has_reader a f) /\
  (forall f, needs_file (t_pc th) = Some f -> has_file a f) /\
  good_iter (t_pc th).

Definition WInv (s : state) : Prop :=
  exists a, R (s_dev s) a /\ vers_ok a /\
  (forall t th, nth_error (s_ths s) t = Some th -> local a (s_mx s) (s_wq s) t th) /\
  (forall t th f, nth_error (s_ths s) t = Some th -> cand th = Some f -> empty a f \/ pending (s_ths s)) /\
  (forall t1 t2 th1 th2 f, nth_error (s_ths s) t1 = Some th1 -> nth_error (s_ths s) t2 = Some th2 ->
     closes (t_pc th1) = Some f -> uses (t_pc th2) <> Some f).

Lemma closes_uses : forall p f, closes p = Some f -> uses p = None.
Proof. intros [] f H; try discriminate H; destruct o; try discriminate H; reflexivity. Qed.

Lemma cand_needs : forall th f, cand th = Some f -> needs_reader (t_pc th) = Some f.
Proof.
  intros th f. unfold cand. destruct (t_pc th); try discriminate; cbn;
    try (destruct e); try (destruct b); try (destruct (t_run th)); try (destruct (t_trig th)); congruence.
Qed.

Lemma needs_file_uses : forall p f, needs_file p = Some f -> uses p = Some f.
Proof. intros [] f H; cbn in *; congruence. Qed.

Lemma frame : forall s a t th th' d' a' mx' wq' e,
  R (s_dev s) a -> vers_ok a ->
  (forall t th, nth_error (s_ths s) t = Some th -> local a (s_mx s) (s_wq s) t th) ->
  (forall t th f, nth_error (s_ths s) t = Some th -> cand th = Some f -> empty a f \/ pending (s_ths s)) ->
  (forall t1 t2 th1 th2 f, nth_error (s_ths s) t1 = Some th1 -> nth_error (s_ths s) t2 = Some th2 ->
     closes (t_pc th1) = Some f -> uses (t_pc th2) <> Some f) ->
  nth_error (s_ths s) t = Some th ->
  R d' a' -> vers_ok a' ->
  (forall t', t' <> t -> (mx' = Some t' <-> s_mx s = Some t')) ->
  (forall t' b, t' <> t -> in_wq t' b (s_wq s) = true -> in_wq t' b wq' = true) ->
  local a' mx' wq' t th' ->
  (forall f, closes (t_pc th) <> Some f -> keeps e a a' f) ->
  (e = false -> wakes (t_pc th') = true) ->
  (wakes (t_pc th) = true -> wakes (t_pc th') = true) ->
  (forall f, cand th' = Some f -> empty a' f \/ cand th = Some f) ->
  (forall f, closes (t_pc th') = Some f -> closes (t_pc th) = Some f \/
     forall t2 th2, nth_error (s_ths s) t2 = Some th2 -> uses (t_pc th2) <> Some f) ->
  (forall f, uses (t_pc th') = Some f -> uses (t_pc th) = Some f \/
     forall t2 th2, nth_error (s_ths s) t2 = Some th2 -> closes (t_pc th2) <> Some f) ->
  WInv (mkS d' mx' wq' (put t th' (s_ths s))).
Proof.
  intros s a t th th' d' a' mx' wq' e HR Hv HL HD HE Ht HR' Hv' Hmx Hwq HL' HK He Hw HD' Hc Hus.
  assert (Pw : wakes (t_pc th') = true -> pending (put t th' (s_ths s))).
  { intros H. exists t, th'. split; [|exact H]. rewrite nth_put, Nat.eqb_refl, Ht. reflexivity. }
  assert (Pk : pending (s_ths s) -> pending (put t th' (s_ths s))).
  { intros (k & x & Hk & Hx). destruct (Nat.eq_dec k t) as [->|N].
    - apply Pw. apply Hw. congruence.
    - exists k, x. split; [|exact Hx]. rewrite nth_put. rewrite (proj2 (Nat.eqb_neq k t) N). exact Hk. }
  assert (Ek : forall t' x f, nth_error (s_ths s) t' = Some x -> uses (t_pc x) = Some f -> keeps e a a' f).
  { intros t' x f Hx Hf. apply HK. intros Hcl. exact (HE t t' th x f Ht Hx Hcl Hf). }
  assert (Em : forall f, keeps e a a' f -> empty a f -> empty a' f \/ pending (put t th' (s_ths s))).
  { intros f (_ & _ & K) Hf. destruct e; [left; auto|]. right. auto. }
  exists a'. cbn [s_dev s_mx s_wq s_ths]. split; [exact HR'|]. split; [exact Hv'|]. split; [|split].
  - intros t' x Hx. rewrite nth_put in Hx. destruct (Nat.eqb_spec t' t) as [->|N].
    + rewrite Ht in Hx. injection Hx as <-. exact HL'.
    + pose proof (HL t' x Hx) as (A & B & C & D & E & F). repeat split; try assumption.
      * intros H. apply Hmx; [exact N|]. apply A. exact H.
      * intros H. apply A. apply Hmx; assumption.
      * intros H. apply Hwq; auto.
      * intros H. apply Hwq; auto.
      * intros f H. apply (Ek t' x f Hx (needs_uses _ _ H)). auto.
      * intros f H. apply (Ek t' x f Hx (needs_file_uses _ _ H)). auto.
  - intros t' x f Hx Hcd. rewrite nth_put in Hx. destruct (Nat.eqb_spec t' t) as [->|N].
    + rewrite Ht in Hx. injection Hx as <-. destruct (HD' f Hcd) as [G|G]; [left; exact G|].
      destruct (HD t th f Ht G) as [G1|G1]; [|right; auto].
      apply Em; [|exact G1]. apply (Ek t th f Ht). apply needs_uses. apply cand_needs. exact G.
    + destruct (HD t' x f Hx Hcd) as [G1|G1]; [|right; auto].
      apply Em; [|exact G1]. apply (Ek t' x f Hx). apply needs_uses. apply cand_needs. exact Hcd.
  - intros t1 t2 x1 x2 f H1 H2 C1 U2. rewrite nth_put in H1, H2.
    destruct (Nat.eqb_spec t1 t) as [->|N1]; destruct (Nat.eqb_spec t2 t) as [->|N2];
      rewrite ?Ht in H1; rewrite ?Ht in H2.
    + injection H1 as <-. injection H2 as <-. rewrite (closes_uses _ _ C1) in U2. discriminate.
    + injection H1 as <-. destruct (Hc f C1) as [G|G].
      * exact (HE t t2 th x2 f Ht H2 G U2).
      * exact (G t2 x2 H2 U2).
    + injection H2 as <-. destruct (Hus f U2) as [G|G].
      * exact (HE t1 t x1 th f H1 Ht C1 G).
      * exact (G t1 x1 H1 C1).
    + exact (HE t1 t2 x1 x2 f H1 H2 C1 U2).
Qed.

(** The same with the device untouched. *)
Lemma frame0 : forall s t th th' mx' wq', WInv s ->
  nth_error (s_ths s) t = Some th ->
  (forall t', t' <> t -> (mx' = Some t' <-> s_mx s = Some t')) ->
  (forall t' b, t' <> t -> in_wq t' b (s_wq s) = true -> in_wq t' b wq' = true) ->
  (holds (t_pc th') = true <-> mx' = Some t) ->
  (rqueued th' = true -> in_wq t false wq' = true) ->
  (pqueued (t_pc th') = true -> in_wq t true wq' = true) ->
  (forall f, needs_reader (t_pc th') = Some f -> needs_reader (t_pc th) = Some f) ->
  (needs_file (t_pc th') = None) ->
  (good_iter (t_pc th) -> good_iter (t_pc th')) ->
  (wakes (t_pc th) = true -> wakes (t_pc th') = true) ->
  (forall f, cand th' = Some f -> cand th = Some f) ->
  (closes (t_pc th') = None \/ closes (t_pc th') = closes (t_pc th)) ->
  (uses (t_pc th') = None \/ uses (t_pc th') = uses (t_pc th)) ->
  WInv (mkS (s_dev s) mx' wq' (put t th' (s_ths s))).
Proof.
  intros s t th th' mx' wq' (a & HR & Hv & HL & HD & HE) Ht Hmx Hwq Hh Hr Hp Hn Hnf Hg Hw Hcd Hc Hu.
  pose proof (HL t th Ht) as (A & B & C & D & E & F).
  eapply (frame s a t th th' (s_dev s) a mx' wq' true); try eassumption.
  - repeat split; try assumption; try apply Hh; auto. intros f H. rewrite Hnf in H. discriminate.
  - intros; apply keeps_refl.
  - discriminate.
  - intros f H. right. auto.
  - intros f H. left. destruct Hc as [Hc|Hc]; congruence.
  - intros f H. left. destruct Hu as [Hu|Hu]; congruence.
Qed.

Lemma none_mx : forall (t : nat) (mx : option nat), mx = None ->
  forall t', t' <> t -> (Some t = Some t' <-> mx = Some t').
Proof. intros t mx -> t' N. split; [intros E; congruence|discriminate]. Qed.
Lemma own_mx : forall (t : nat) (mx : option nat), mx = Some t ->
  forall t', t' <> t -> (None = Some t' <-> mx = Some t').
Proof. intros t mx -> t' N. split; [discriminate|intros E; congruence]. Qed.

Lemma put_same : forall {A} n (x : A) l, nth_error l n = Some x -> put n x l = l.
Proof. induction n as [|n IH]; intros x [|y l] H; cbn in *; try discriminate; [congruence|]. rewrite IH; auto. Qed.

Lemma local_of : forall s t th, WInv s -> nth_error (s_ths s) t = Some th ->
  (holds (t_pc th) = true <-> s_mx s = Some t) /\
  (rqueued th = true -> in_wq t false (s_wq s) = true) /\
  (pqueued (t_pc th) = true -> in_wq t true (s_wq s) = true).
Proof. intros s t th (a & _ & _ & HL & _) Ht. destruct (HL t th Ht) as (A & B & C & _). auto. Qed.

Ltac thread_cases th :=
  let p := fresh "p" in let rn := fresh "rn" in let sg := fresh "sg" in let tg := fresh "tg" in
  let rs := fresh "rs" in destruct th as [p rn sg tg rs]; cbn [t_pc] in *; subst p.

Ltac simp := cbn [t_pc t_run t_sig t_trig t_rets set_pc set_run set_trig ret_user holds wakes cand rqueued
  pqueued needs_reader needs_file closes uses good_iter s_mx s_wq s_ths s_dev] in *.

Ltac fin := simp; auto; try discriminate; try tauto;
  try (let H := fresh in intros H; discriminate H).

Lemma lock_inv : forall s t th p, WInv s -> nth_error (s_ths s) t = Some th -> 
  holds p = true -> rqueued (set_run (set_pc th p) true) = false -> 
  (pqueued p = true -> pqueued (t_pc th) = true) -> needs_reader p = needs_reader (t_pc th) \/ needs_reader p = None ->
  needs_file p = None -> (good_iter (t_pc th) -> good_iter p) -> wakes (t_pc th) = false ->
  cand (set_run (set_pc th p) true) = None -> closes p = closes (t_pc th) -> uses p = uses (t_pc th) ->
  WInv (lock s t th p).
Proof.
  intros s t th p HI Ht Hh Hr Hp Hn Hf Hg Hw Hc Hcl Hu. unfold lock.
  destruct (s_mx s) as [o|] eqn:Em; [exact HI|].
  destruct (local_of s t th HI Ht) as (A & B & C).
  eapply frame0; try eassumption; cbn [t_pc set_run set_pc]; auto.
  - apply none_mx. exact Em.
  - tauto.
  - rewrite Hr. discriminate.
  - intros f H. destruct Hn; congruence.
  - rewrite Hw. discriminate.
  - intros f H. unfold set_pc, set_run in *. simp. congruence.
Qed.

Lemma goto_inv : forall s t th th', WInv s -> nth_error (s_ths s) t = Some th ->
  holds (t_pc th') = holds (t_pc th) -> (rqueued th' = true -> rqueued th = true) ->
  (pqueued (t_pc th') = true -> pqueued (t_pc th) = true) ->
  needs_reader (t_pc th') = needs_reader (t_pc th) \/ needs_reader (t_pc th') = None ->
  needs_file (t_pc th') = None -> (good_iter (t_pc th) -> good_iter (t_pc th')) -> wakes (t_pc th) = false ->
  (forall f, cand th' = Some f -> cand th = Some f) ->
  closes (t_pc th') = None -> uses (t_pc th') = None \/ uses (t_pc th') = uses (t_pc th) ->
  WInv (mkS (s_dev s) (s_mx s) (s_wq s) (put t th' (s_ths s))).
Proof.
  intros s t th th' HI Ht Hh Hr Hp Hn Hf Hg Hw Hc Hcl Hu.
  destruct (local_of s t th HI Ht) as (A & B & C).
  eapply frame0; try eassumption; auto.
  - intros; reflexivity.
  - rewrite Hh. exact A.
  - intros f H. destruct Hn; congruence.
  - rewrite Hw. discriminate.
Qed.

Lemma unlock_inv : forall s t th th', WInv s -> nth_error (s_ths s) t = Some th ->
  holds (t_pc th) = true -> holds (t_pc th') = false -> (rqueued th' = true -> rqueued th = true) ->
  (pqueued (t_pc th') = true -> pqueued (t_pc th) = true) ->
  needs_reader (t_pc th') = needs_reader (t_pc th) \/ needs_reader (t_pc th') = None ->
  needs_file (t_pc th') = None -> (good_iter (t_pc th) -> good_iter (t_pc th')) ->
  (wakes (t_pc th) = true -> wakes (t_pc th') = true) ->
  (forall f, cand th' = Some f -> cand th = Some f) ->
  closes (t_pc th') = None -> uses (t_pc th') = None \/ uses (t_pc th') = uses (t_pc th) ->
  WInv (unlock s t th').
Proof.
  intros s t th th' HI Ht Hh Hh' Hr Hp Hn Hf Hg Hw Hc Hcl Hu. unfold unlock.
  destruct (local_of s t th HI Ht) as (A & B & C).
  eapply frame0; try eassumption; auto.
  - apply own_mx. apply A. exact Hh.
  - rewrite Hh'. split; discriminate.
  - intros f H. destruct Hn; congruence.
Qed.

(** A critical section other than a write. *)
Lemma body_inv : forall s t th o (k : out -> pc), WInv s -> nth_error (s_ths s) t = Some th ->
  (forall f t x y it, o <> OpWrite f t x y it) -> (forall f, o = OpClose f -> closes (t_pc th) = Some f) ->
  holds (t_pc th) = true -> wakes (t_pc th) = false ->
  (forall x, holds (k x) = true) -> (forall x, rqueued (set_pc th (k x)) = false) ->
  (forall x, pqueued (k x) = true -> pqueued (t_pc th) = true) ->
  (forall x, needs_reader (k x) = needs_reader (t_pc th)) ->
  (forall x, needs_file (k x) = None) -> (forall x, good_iter (k x)) ->
  (forall a f, vers_ok a -> (forall g, needs_reader (t_pc th) = Some g -> has_reader a g) ->
     cand (set_pc th (k (render (snd (astep a o))))) = Some f -> empty (fst (astep a o)) f) ->
  (forall x, closes (k x) = None) -> (forall x, uses (k x) = None \/ uses (k x) = uses (t_pc th)) ->
  exists d' a, R (s_dev s) a /\ (forall g, needs_reader (t_pc th) = Some g -> has_reader a g) /\
    step (s_dev s) o = Ok (d', render (snd (astep a o))) /\
    WInv (mkS d' (s_mx s) (s_wq s) (put t (set_pc th (k (render (snd (astep a o))))) (s_ths s))).
Proof.
  intros s t th o k HI Ht No Nc Hh Hw Kh Kr Kp Kn Kf Kg Kc Kcl Ku.
  pose proof HI as (a & HR & Hv & HL & HD & HE).
  destruct (HL t th Ht) as (A & B & C & D & E & F).
  assert (Huo : user_op o) by (destruct o; try exact I; exfalso; eapply No; reflexivity).
  destruct (step_R (s_dev s) a o Huo HR Hv) as (d' & Es & HR').
  exists d', a. split; [exact HR|]. split; [exact D|]. split; [exact Es|].
  set (x := render _) in *.
  eapply (frame s a t th _ d' (fst (astep a o)) _ _ true); try eassumption; cbn [t_pc set_pc].
  - apply vers_step. exact Hv.
  - reflexivity.
  - auto.
  - assert (Kp' : forall f, closes (t_pc th) <> Some f -> keeps true a (fst (astep a o)) f).
    { intros f N. apply keeps_step; [exact No|]. intros ->. apply N. apply Nc. reflexivity. }
    repeat split.
    + intros _. apply A. exact Hh.
    + intros _. apply Kh.
    + rewrite Kr. discriminate.
    + intros H. apply C. apply (Kp x). exact H.
    + intros f H. cbn [t_pc set_pc] in H. rewrite Kn in H. apply Kp'; [|auto].
      intros Hcl. apply (HE t t th th f Ht Ht Hcl). apply needs_uses. exact H.
    + intros f H. cbn [t_pc set_pc] in H. rewrite Kf in H. discriminate.
    + apply Kg.
  - intros f N. apply keeps_step; [exact No|]. intros ->. apply N. apply Nc. reflexivity.
  - discriminate.
  - rewrite Hw. discriminate.
  - intros f H. left. apply (Kc a f Hv D). exact H.
  - intros f H. rewrite Kcl in H. discriminate.
  - intros f H. left. destruct (Ku x); congruence.
Qed.

(** The critical section of a write. *)
Lemma write_body_inv : forall s t th w raw, WInv s -> nth_error (s_ths s) t = Some th ->
  t_pc th = WBody w raw ->
  exists d' v, ulogger_write_iter (s_dev s) raw (wa_task w) (wa_sec w) (wa_nsec w) (wa_it w) = Ok (d', v) /\
    WInv (mkS d' (s_mx s) (s_wq s) (put t (set_pc th (WUnlock v)) (s_ths s))).
Proof.
  intros s t th w raw HI Ht Ep. pose proof HI as (a & HR & Hv & HL & HD & HE).
  destruct (HL t th Ht) as (A & B & C & D & E & F).
  rewrite Ep in *. simp.
  destruct (write_R (s_dev s) a raw (wa_task w) (wa_sec w) (wa_nsec w) (wa_it w) F HR) as (d' & v & Ew & HR' & Ev).
  exists d', v. split; [exact Ew|].
  set (e := match snd (awrite a raw (wa_task w) (wa_sec w) (wa_nsec w) (wa_it w)) with AErr _ => true | _ => false end).
  eapply (frame s a t th _ d' _ _ _ e); try eassumption; cbn [t_pc set_pc]; rewrite ?Ep.
  - clear - Hv. unfold awrite. destruct (raw && _); [exact Hv|]. destruct (zlen _ =? 0); [exact Hv|].
    destruct (make_room _ _ _) as [kp n].
    assert (G : forall x, ver_ok x -> ver_ok (amake_room (a_cap a) (esize (requested raw (wa_task w) (wa_sec w) (wa_nsec w) (wa_it w))) x)).
    { intros x. unfold ver_ok, amake_room. destruct (a_rd x) as [r|] eqn:Er; [|rewrite Er; auto].
      destruct (make_room _ _ _). auto. }
    destruct (iter_fault _ _); unfold vers_ok; cbn [fst a_files].
    + apply vers_on_files; assumption.
    + apply vers_on_files; [|apply vers_on_files; assumption].
      intros x. unfold ver_ok, aappend. destruct (a_rd x) as [r|] eqn:Er; [|rewrite Er]; auto.
  - reflexivity.
  - auto.
  - repeat split; cbn [t_pc set_pc]; simp; try discriminate.
    intros _. apply A. reflexivity.
  - intros f _. apply keeps_write.
  - intros He. unfold e in He. simp.
    destruct (snd (awrite a raw (wa_task w) (wa_sec w) (wa_nsec w) (wa_it w))) eqn:Eo; try discriminate He;
      unfold ret_out in Ev; destruct (v <? 0); try discriminate Ev; reflexivity.
  - discriminate.
  - intros f H. discriminate H.
  - intros f H. discriminate H.
  - intros f H. discriminate H.
Qed.

Lemma wake_one_pc : forall wq t th, t_pc (wake_one wq t th) = t_pc th.
Proof. intros. unfold wake_one. destruct (in_wq t true wq), (in_wq t false wq); reflexivity. Qed.

(** After the wake-up nobody is about to sleep with a stale test. *)
Lemma wake_cand : forall s t th, WInv s -> nth_error (s_ths s) t = Some th -> cand (wake_one (s_wq s) t th) = None.
Proof.
  intros s t th HI Ht. destruct (local_of s t th HI Ht) as (_ & B & C).
  destruct (cand (wake_one (s_wq s) t th)) as [f|] eqn:E; [exfalso|reflexivity].
  unfold cand in E. rewrite wake_one_pc in E. unfold wake_one in E.
  destruct th as [p rn sg tg rs]. unfold rqueued in B. cbn [t_pc t_run] in *.
  destruct p; try discriminate E; cbn [pqueued] in C;
    try (destruct e; [|discriminate E]); try (destruct b; [discriminate E|]);
    destruct rn; cbn [negb] in B; try (rewrite B in E by reflexivity); try (rewrite C in E by reflexivity);
    destruct (in_wq t true (s_wq s)); try destruct (in_wq t false (s_wq s)); discriminate E.
Qed.

Lemma wake_queue_keep : forall s t th b, nth_error (s_ths s) t = Some th -> in_wq t b (s_wq s) = true ->
  (b = true \/ t_run th = true) -> in_wq t b (wake_queue (s_ths s) (s_wq s)) = true.
Proof.
  intros s t th b Ht Hi Hb. unfold in_wq, wake_queue in *. apply existsb_exists in Hi. destruct Hi as (p & Hi & Hp).
  apply existsb_exists. exists p. split; [|exact Hp]. apply filter_In. split; [exact Hi|].
  apply andb_true_iff in Hp. destruct Hp as [H1 H2]. apply Nat.eqb_eq in H1. apply eqb_prop in H2. subst.
  rewrite Ht. destruct Hb as [->| ->]; [reflexivity|apply orb_true_r].
Qed.

Lemma wake_inv : forall s t th v, WInv s -> nth_error (s_ths s) t = Some th -> t_pc th = WWake v ->
  WInv (mkS (s_dev s) (s_mx s) (wake_queue (s_ths s) (s_wq s))
         (put t (ret_user th (ret_out v)) (wake_all (s_wq s) O (s_ths s)))).
Proof.
  intros s t th v HI Ht Ep. pose proof HI as (a & HR & Hv & HL & HD & HE).
  assert (N : forall t' x, nth_error (put t (ret_user th (ret_out v)) (wake_all (s_wq s) 0 (s_ths s))) t' = Some x ->
    (t' = t /\ x = ret_user th (ret_out v)) \/
    (t' <> t /\ exists y, nth_error (s_ths s) t' = Some y /\ x = wake_one (s_wq s) t' y)).
  { intros t' x Hx. rewrite nth_put, !nth_wake in Hx. cbn [Nat.add] in Hx.
    destruct (Nat.eqb_spec t' t) as [->|Ne].
    - rewrite Ht in Hx. cbn in Hx. left. split; congruence.
    - right. split; [exact Ne|]. destruct (nth_error (s_ths s) t') as [y|]; [|discriminate]. cbn in Hx. exists y. split; congruence. }
  exists a. simp. split; [exact HR|]. split; [exact Hv|]. split; [|split].
  - intros t' x Hx. destruct (N t' x Hx) as [[-> ->]|(Ne & y & Hy & ->)].
    + destruct (HL t th Ht) as (A & _). rewrite Ep in A. repeat split; simp; try discriminate.
      intros H. apply A. exact H.
    + destruct (HL t' y Hy) as (A & B & C & D & E & F). unfold local. rewrite wake_one_pc.
      split; [exact A|]. split; [|split; [|split; [exact D|split; [exact E|exact F]]]].
      * intros H. exfalso. unfold rqueued in *. rewrite wake_one_pc in H.
        assert (Q : t_run y = true \/ in_wq t' false (s_wq s) = true).
        { destruct (t_run y); [left; reflexivity|right]. apply B. destruct (t_pc y); try discriminate H; reflexivity. }
        assert (Q' : t_run (wake_one (s_wq s) t' y) = true).
        { unfold wake_one. destruct Q as [Q|Q].
          - destruct (in_wq t' true (s_wq s)), (in_wq t' false (s_wq s)); try reflexivity; exact Q.
          - rewrite Q. reflexivity. }
        rewrite Q' in H. destruct (t_pc y); discriminate H.
      * intros H. eapply wake_queue_keep; [exact Hy|auto|left; reflexivity].
  - intros t' x f Hx Hc. exfalso. destruct (N t' x Hx) as [[-> ->]|(Ne & y & Hy & ->)].
    + discriminate Hc.
    + rewrite (wake_cand s t' y HI Hy) in Hc. discriminate.
  - intros t1 t2 x1 x2 f H1 H2 C1 U2.
    destruct (N t1 x1 H1) as [[-> ->]|(N1 & y1 & Y1 & ->)]; [discriminate C1|].
    destruct (N t2 x2 H2) as [[-> ->]|(N2 & y2 & Y2 & ->)]; [discriminate U2|].
    rewrite wake_one_pc in *. exact (HE t1 t2 y1 y2 f Y1 Y2 C1 U2).
Qed.

Lemma reader_R : forall d a f, R d a -> has_reader a f ->
  exists r ar g, the_reader d f = Some r /\ alookup f (a_files a) = Some g /\ a_rd g = Some ar /\ R_reader (d_log d) r ar.
Proof.
  intros d a f HR (g & ar & El & Er). destruct (R_reader_back d a f g ar HR El Er) as (r & Hr & HRr).
  exists r, ar, g. auto.
Qed.

Lemma reader_R' : forall d a f r, R d a -> the_reader d f = Some r ->
  exists ar g, alookup f (a_files a) = Some g /\ a_rd g = Some ar /\ R_reader (d_log d) r ar.
Proof. intros d a f r HR Hr. destruct (R_reader_of d a f r HR Hr) as (g & ar & A & B & C). eauto. Qed.

Lemma go_inv : forall s t th, WInv s -> nth_error (s_ths s) t = Some th ->
  exists s', go s t th = Ok s' /\ WInv s'.
Proof.
  intros s t th HI Ht. unfold go. destruct (t_pc th) as [| c | c | c | c e | c e | c | c ret | c | c | c x
    | w | w raw | w raw | v | v | f u | f u | f u | f u b | f u b | f u | f u | f u | f u | x | o | o | x] eqn:Ep.
  - exists s. auto.
  - eexists. split; [reflexivity|]. apply lock_inv; rewrite ?Ep; try reflexivity; try assumption; auto; discriminate.
  - (* prepare_to_wait *)
    eexists. split; [reflexivity|]. destruct (local_of s t th HI Ht) as (A & B & C). rewrite Ep in *. simp.
    assert (Hq : in_wq t false (if in_wq t false (s_wq s) then s_wq s else (t, false) :: s_wq s) = true).
    { destruct (in_wq t false (s_wq s)) eqn:E; [exact E|apply in_wq_here]. }
    eapply frame0; try eassumption; simp; rewrite ?Ep; simp; auto; try discriminate; try reflexivity; try tauto.
    intros t' b N H. destruct (in_wq t false (s_wq s)); [exact H|apply in_wq_cons; exact H].
  - (* the test *)
    pose proof HI as (a & HR & Hv & HL & HD & HE).
    destruct (HL t th Ht) as (A & B & C & D & E & F). rewrite Ep in *. simp.
    destruct (reader_R _ _ _ HR (D _ eq_refl)) as (r & ar & g & Hr & El & Er & HRr).
    rewrite Hr. eexists. split; [reflexivity|]. unfold goto.
    eapply (frame s a t th _ _ a _ _ true); try eassumption; simp; rewrite ?Ep.
    + reflexivity.
    + auto.
    + unfold local, rqueued in *. rewrite Ep in *. simp. repeat split; auto; try discriminate. intros _. apply A; reflexivity.
    + intros; apply keeps_refl.
    + discriminate.
    + discriminate.
    + intros f H. left. destruct HRr as (Hrep & _). rewrite (repr_eqb _ _ _ Hrep) in H.
      destruct (a_q ar) eqn:Eq; [|discriminate]. destruct (t_run th); [discriminate|].
      injection H as <-. exists g, ar. auto.
    + discriminate.
    + auto.
  - eexists. split; [reflexivity|]. eapply unlock_inv; try eassumption; simp; rewrite ?Ep; auto.
    + unfold rqueued. rewrite Ep. auto.
    + unfold cand. rewrite Ep. auto.
  - assert (Q : forall p, p = RSched c /\ e = true \/ (exists z, p = RFinish c z) -> WInv (goto s t th p)).
    { intros p Hp. unfold goto. destruct Hp as [[-> ->]|(z & ->)];
        (eapply goto_inv; try eassumption; simp; rewrite ?Ep; auto; try discriminate; try reflexivity;
         unfold rqueued, cand; rewrite ?Ep; auto). }
    destruct (negb e) eqn:Ee; [|destruct (ra_nb c); [|destruct (t_sig th)]]; (eexists; split; [reflexivity|]); apply Q; eauto.
    left. split; [reflexivity|]. destruct e; [reflexivity|discriminate].
  - destruct (t_run th); [|exists s; auto]. eexists; split; [reflexivity|].
    unfold goto. eapply goto_inv; try eassumption; simp; rewrite ?Ep; auto; try discriminate; try reflexivity.
  - (* finish_wait *)
    eexists. split; [reflexivity|]. destruct (local_of s t th HI Ht) as (A & B & C). rewrite Ep in *. simp.
    destruct (ret =? 0);
    (eapply frame0; try eassumption; simp; rewrite ?Ep; simp; auto; try discriminate; try reflexivity; try tauto;
     try (intros; apply in_wq_leave; auto; fail)).
  - eexists. split; [reflexivity|]. apply lock_inv; rewrite ?Ep; try reflexivity; try assumption; auto; discriminate.
  - (* body of read *)
    destruct (body_inv s t th (OpReadBody (ra_fid c) (ra_euid c) (ra_count c) (ra_valid c)) (RUnlock2 c) HI Ht)
      as (d' & a & HR & Hn & Es & HI'); rewrite ?Ep; try reflexivity; try discriminate; auto.
    rewrite Es. cbn [bind]. eexists. split; [reflexivity|]. exact HI'.
  - eexists. split; [reflexivity|].
    destruct x; (eapply unlock_inv; try eassumption; simp; rewrite ?Ep; auto; try discriminate; try reflexivity).
  - (* write, before the lock *)
    pose proof HI as (a & HR & Hv & HL & HD & HE).
    destruct (HL t th Ht) as (A & B & C & D & E & F). rewrite Ep in *. simp.
    destruct (E _ eq_refl) as (g & El). pose proof HR as (_ & _ & _ & _ & _ & _ & Hf).
    pose proof (R_lookup _ _ _ (wa_fid w) Hf) as HLk. rewrite El in HLk.
    destruct (lookup (wa_fid w) (d_files (s_dev s))) as [f|]; [|contradiction].
    destruct (write_locks (f_raw f) (wa_task w) (wa_it w)).
    + eexists. split; [reflexivity|]. unfold goto. eapply goto_inv; try eassumption; simp; rewrite ?Ep; auto; try discriminate; try reflexivity.
    + destruct (write_R (s_dev s) a (f_raw f) (wa_task w) (wa_sec w) (wa_nsec w) (wa_it w) F HR) as (d' & v & Ew & _).
      rewrite Ew. cbn [bind]. eexists. split; [reflexivity|]. unfold leave_user.
      eapply goto_inv; try eassumption; simp; rewrite ?Ep; auto; try discriminate; try reflexivity.
  - eexists. split; [reflexivity|]. apply lock_inv; rewrite ?Ep; try reflexivity; try assumption; auto; discriminate.
  - destruct (write_body_inv s t th w raw HI Ht Ep) as (d' & v & Ew & HI'). rewrite Ew. cbn [bind].
    eexists. split; [reflexivity|]. exact HI'.
  - eexists. split; [reflexivity|].
    destruct (v <? 0) eqn:Ev; (eapply unlock_inv; try eassumption; simp; rewrite ?Ep; auto; try discriminate; try reflexivity).
    simp. rewrite Ev. discriminate.
  - eexists. split; [reflexivity|]. eapply wake_inv; eassumption.
  - (* poll_wait *)
    eexists. split; [reflexivity|]. destruct (local_of s t th HI Ht) as (A & B & C). rewrite Ep in *. simp.
    eapply frame0; try eassumption; simp; rewrite ?Ep; simp; auto; try discriminate; try reflexivity; try tauto.
    + intros t' b N H. apply in_wq_cons; exact H.
    + intros _. apply in_wq_here.
  - eexists. split; [reflexivity|]. apply lock_inv; rewrite ?Ep; try reflexivity; try assumption; auto; discriminate.
  - (* body of poll *)
    destruct (body_inv s t th (OpPoll f u) (fun x => PUnlock f u (match x with OutPoll b => b | _ => true end)) HI Ht)
      as (d' & a & HR & Hn & Es & HI'); rewrite ?Ep; try reflexivity; try discriminate; auto.
    { intros a g Hv Hn Hc. destruct (Hn f eq_refl) as (y & r & El & Er).
      unfold cand in Hc. simp. cbn [astep] in *. rewrite El in *. destruct y as [yw ym yr]. cbn [a_rd] in Er. subst yr.
      cbn [fst snd render] in *. destruct (a_q (visible r u)) eqn:Eq; [|discriminate].
      destruct (t_trig th); [discriminate|]. injection Hc as <-.
      unfold empty. cbn [a_files]. rewrite alookup_update, Z.eqb_refl, El. eexists _, _. split; [reflexivity|]. split; [reflexivity|exact Eq]. }
    rewrite Es. cbn [bind]. rewrite Ep in Hn.
    destruct (Hn f eq_refl) as (y & r & El & Er).
    assert (exists b, render (snd (astep a (OpPoll f u))) = OutPoll b) as (b & Eb).
    { cbn [astep]. rewrite El. destruct y as [yw ym yr]. cbn [a_rd] in Er. subst yr. eexists. reflexivity. }
    rewrite Eb in *. eexists. split; [reflexivity|]. exact HI'.
  - eexists. split; [reflexivity|]. eapply unlock_inv; try eassumption; simp; rewrite ?Ep; auto; try discriminate; unfold cand; rewrite ?Ep; auto.
  - assert (Q : forall p, p = PSet f u /\ b = false \/ (exists z, p = PFree z) -> WInv (goto s t th p)).
    { intros p Hp. unfold goto. destruct Hp as [[-> ->]|(z & ->)];
        (eapply goto_inv; try eassumption; simp; rewrite ?Ep; auto; try discriminate; try reflexivity;
         unfold rqueued, cand; rewrite ?Ep; auto). }
    destruct b; [|destruct (t_sig th)]; (eexists; split; [reflexivity|]); apply Q; eauto.
  - eexists. split; [reflexivity|]. unfold goto. eapply goto_inv; try eassumption; simp; rewrite ?Ep; auto; try discriminate; try reflexivity.
    unfold cand; rewrite ?Ep; auto.
  - eexists. split; [reflexivity|]. unfold goto.
    destruct (t_trig th) eqn:Et; (eapply goto_inv; try eassumption; simp; rewrite ?Ep; auto; try discriminate; try reflexivity).
    unfold cand; rewrite ?Ep, ?Et; simp. intros g. destruct (t_run th); [discriminate|auto].
  - destruct (t_run th); [|exists s; auto]. eexists; split; [reflexivity|].
    unfold goto. eapply goto_inv; try eassumption; simp; rewrite ?Ep; auto; try discriminate; try reflexivity.
  - eexists. split; [reflexivity|]. unfold goto. eapply goto_inv; try eassumption; simp; rewrite ?Ep; auto; try discriminate; try reflexivity.
  - (* poll_freewait *)
    eexists. split; [reflexivity|]. destruct (local_of s t th HI Ht) as (A & B & C). rewrite Ep in *. simp.
    eapply frame0; try eassumption; simp; rewrite ?Ep; simp; auto; try discriminate; try reflexivity; try tauto.
    intros; apply in_wq_leave; auto.
  - eexists. split; [reflexivity|]. apply lock_inv; rewrite ?Ep; try reflexivity; try assumption; auto; try discriminate.
    all: destruct o; reflexivity.
  - (* other bodies *)
    pose proof HI as (a0 & _ & _ & HL & _). destruct (HL t th Ht) as (_ & _ & _ & _ & _ & F). rewrite Ep in F. simp.
    destruct (body_inv s t th o OUnlock HI Ht)
      as (d' & a & HR & Hn & Es & HI'); rewrite ?Ep; try reflexivity; try discriminate; auto.
    { intros; intros ->. exact F. }
    { intros f0 ->. reflexivity. }
    rewrite Es. cbn [bind]. eexists. split; [reflexivity|]. exact HI'.
  - eexists. split; [reflexivity|]. eapply unlock_inv; try eassumption; simp; rewrite ?Ep; auto; try discriminate; reflexivity.
Qed.

Lemma signal_inv : forall s t th, WInv s -> nth_error (s_ths s) t = Some th ->
  WInv (mkS (s_dev s) (s_mx s) (s_wq s) (put t (mkT (t_pc th) true true (t_trig th) (t_rets th)) (s_ths s))).
Proof.
  intros s t th (a & HR & Hv & HL & HD & HE) Ht.
  destruct (HL t th Ht) as (A & B & C & D & E & F).
  eapply (frame s a t th _ (s_dev s) a _ _ true); try eassumption; cbn [t_pc]; auto.
  - reflexivity.
  - unfold local. cbn [t_pc]. split; [exact A|]. split; [|auto].
    unfold rqueued. cbn [t_pc t_run]. destruct (t_pc th); discriminate.
  - intros; apply keeps_refl.
  - discriminate.
  - intros f H. right. unfold cand in *. cbn [t_pc t_run t_trig] in H.
    destruct (t_pc th); try discriminate H; try (destruct e; discriminate H); exact H.
Qed.

Lemma closing_false : forall s f, closing s f = false ->
  forall t th, nth_error (s_ths s) t = Some th -> closes (t_pc th) <> Some f.
Proof.
  intros s f H t th Ht Hc. unfold closing in H.
  assert (X : existsb (fun th => match t_pc th with
     | OLock (OpClose f0) | OBody (OpClose f0) => f0 =? f | _ => false end) (s_ths s) = true); [|congruence].
  apply existsb_exists. exists th. split; [eapply nth_error_In; exact Ht|].
  destruct (t_pc th); try discriminate Hc; destruct o; try discriminate Hc; injection Hc as ->; apply Z.eqb_refl.
Qed.

Lemma in_use_false : forall s f, in_use s f = false ->
  forall t th, nth_error (s_ths s) t = Some th -> uses (t_pc th) <> Some f.
Proof.
  intros s f H t th Ht Hc. unfold in_use in H.
  assert (X : existsb (fun th => match uses (t_pc th) with Some f0 => f0 =? f | None => false end) (s_ths s) = true); [|congruence].
  apply existsb_exists. exists th. split; [eapply nth_error_In; exact Ht|]. rewrite Hc. apply Z.eqb_refl.
Qed.

Lemma start_inv : forall s t th c, WInv s -> nth_error (s_ths s) t = Some th -> t_pc th = Idle ->
  user_event (t, Call c) ->
  WInv (mkS (s_dev s) (s_mx s) (s_wq s) (put t (start s th c) (s_ths s))).
Proof.
  intros s t th c HI Ht Ep Hu. pose proof HI as (a & HR & Hv & HL & HD & HE).
  destruct (HL t th Ht) as (A & B & C & D & E & F). rewrite Ep in *. simp.
  assert (Qr : forall x, WInv (mkS (s_dev s) (s_mx s) (s_wq s) (put t (ret_user th x) (s_ths s)))).
  { intros x. eapply goto_inv; try eassumption; simp; rewrite ?Ep; auto; try discriminate; reflexivity. }
  assert (Qp : forall p, holds p = false -> (forall r g, rqueued (mkT p r false g []) = false) -> pqueued p = false ->
    wakes p = false -> cand (set_pc th p) = None -> rqueued (set_pc th p) = false -> good_iter p ->
    (forall f, needs_reader p = Some f -> has_reader a f) -> (forall f, needs_file p = Some f -> has_file a f) ->
    (forall f, closes p = Some f -> forall t2 th2, nth_error (s_ths s) t2 = Some th2 -> uses (t_pc th2) <> Some f) ->
    (forall f, uses p = Some f -> forall t2 th2, nth_error (s_ths s) t2 = Some th2 -> closes (t_pc th2) <> Some f) ->
    WInv (mkS (s_dev s) (s_mx s) (s_wq s) (put t (set_pc th p) (s_ths s)))).
  { intros p H1 H2 H3 H4 H5 H6 H7 H8 H9 H10 H11.
    eapply (frame s a t th _ (s_dev s) a _ _ true); try eassumption; cbn [t_pc set_pc]; rewrite ?Ep; auto.
    - reflexivity.
    - unfold local. cbn [t_pc set_pc]. split; [|split; [|split; [|auto]]].
      + rewrite H1. exact A.
      + rewrite H6. discriminate.
      + rewrite H3. discriminate.
    - intros; apply keeps_refl.
    - discriminate.
    - discriminate.
    - rewrite H5. discriminate.
    - intros f H. right. exact (H10 f H).
    - intros f H. right. exact (H11 f H). }
  assert (Qsame : WInv (mkS (s_dev s) (s_mx s) (s_wq s) (put t th (s_ths s)))).
  { rewrite (put_same _ _ _ Ht). destruct s; exact HI. }
  destruct c as [c|w|f u|o]; cbn [start].
  - destruct (the_reader (s_dev s) (ra_fid c)) as [r|] eqn:Er; [|apply Qr].
    destruct (closing s (ra_fid c)) eqn:Ec; [apply Qr|].
    apply Qp; try reflexivity; try discriminate; try exact I.
    + intros f H. cbn in H. injection H as <-. destruct (reader_R' _ _ _ _ HR Er) as (ar & g & A1 & A2 & _). exists g, ar. auto.
    + intros f H. cbn in H. injection H as <-. apply closing_false. exact Ec.
  - destruct (lookup (wa_fid w) (d_files (s_dev s))) as [g|] eqn:El; [|apply Qr].
    destruct (f_write g && negb (closing s (wa_fid w))) eqn:Eb; [|apply Qr].
    apply andb_true_iff in Eb. destruct Eb as [_ Eb]. apply negb_true_iff in Eb.
    apply Qp; try reflexivity; try discriminate; try exact Hu.
    + intros f H. cbn in H. injection H as <-. pose proof HR as (_ & _ & _ & _ & _ & _ & Hf).
      pose proof (R_lookup _ _ _ (wa_fid w) Hf) as X. rewrite El in X.
      destruct (alookup (wa_fid w) (a_files a)) as [y|] eqn:Ey; [exists y; exact Ey|contradiction].
    + intros f H. cbn in H. injection H as <-. apply closing_false. exact Eb.
  - destruct (the_reader (s_dev s) f) as [r|] eqn:Er; [|apply Qr].
    destruct (closing s f) eqn:Ec; [apply Qr|].
    apply Qp; try reflexivity; try discriminate; try exact I.
    + intros f' H. cbn in H. injection H as <-. destruct (reader_R' _ _ _ _ HR Er) as (ar & g & A1 & A2 & _). exists g, ar. auto.
    + intros f' H. cbn in H. injection H as <-. apply closing_false. exact Ec.
  - destruct o as [f rd wr al nm|f|f nb sg|f eu ct vl|f tk x y it|f eu|f cm eu]; try exact Qsame.
    + apply Qp; try reflexivity; try discriminate; exact I.
    + destruct (in_use s f || closing s f) eqn:Eb; [apply Qr|]. apply orb_false_iff in Eb. destruct Eb as [E1 E2].
      apply Qp; try reflexivity; try discriminate; try exact I.
      intros f' H. cbn in H. injection H as <-. apply in_use_false. exact E1.
    + destruct (closing s f) eqn:Ec; [apply Qr|].
      apply Qp; try reflexivity; try discriminate; try exact I.
      intros f' H. cbn in H. injection H as <-. apply closing_false. exact Ec.
Qed.

Lemma wstep_inv : forall s e, WInv s -> user_event e -> exists s', wstep s e = Ok s' /\ WInv s'.
Proof.
  intros s [t ac] HI Hu. unfold wstep. destruct (nth_error (s_ths s) t) as [th|] eqn:Ht; [|exists s; auto].
  destruct ac as [c| |].
  - destruct (t_pc th) eqn:Ep; try (exists s; auto; fail).
    eexists. split; [reflexivity|]. apply start_inv; assumption.
  - apply go_inv; assumption.
  - eexists. split; [reflexivity|]. apply signal_inv; assumption.
Qed.

Lemma wrun_inv : forall l s, WInv s -> Forall user_event l -> exists s', wrun s l = Ok s' /\ WInv s'.
Proof.
  induction l as [|e l IH]; intros s HI Hu; cbn [wrun]; [exists s; auto|].
  inversion Hu; subst. destruct (wstep_inv s e HI H1) as (s1 & E1 & H). rewrite E1. cbn [bind]. auto.
Qed.

Lemma wstart_inv : forall nm mem pow2 n, init_ok nm mem pow2 -> WInv (wstart nm mem pow2 n).
Proof.
  intros nm mem pow2 n Hi. destruct (init_R nm mem pow2 Hi) as [HR Hv].
  exists (init_adev nm pow2). unfold wstart. simp. split; [exact HR|]. split; [exact Hv|].
  assert (Q : forall t th, nth_error (repeat (mkT Idle true false false []) n) t = Some th -> th = mkT Idle true false false []).
  { intros t th H. apply nth_error_In in H. apply repeat_spec in H. exact H. }
  split; [|split].
  - intros t th H. apply Q in H. subst. repeat split; simp; try discriminate.
  - intros t th f H. apply Q in H. subst. discriminate.
  - intros t1 t2 th1 th2 f H1 H2. apply Q in H1. subst. discriminate.
Qed.
