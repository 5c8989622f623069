(** Property C18: a blocked reader is never stranded. *)
From Coq Require Import ZArith String List Bool Lia ZifyBool Arith.
From Verif Require Import Bytes BytesProofs Ring RingSpec RingRefine RingHistory RingInv RingObs WaitQ WaitQProofs.
Import ListNotations.
Open Scope Z_scope.

(** ** Vocabulary *)

(** States met by some schedule of some number of tasks on a new device. *)
Definition reaches (s : state) : Prop :=
  exists nm mem pow2 n l, init_ok nm mem pow2 /\ Forall user_event l /\ wrun (wstart nm mem pow2 n) l = Ok s.

(** Task [t] is in schedule(), called by read(2) or poll(2) on file [fid], and not runnable. *)
Definition asleep (s : state) (t : nat) (fid : Z) : Prop :=
  exists th, nth_error (s_ths s) t = Some th /\ t_run th = false /\
  ((exists c, t_pc th = RSched c /\ ra_fid c = fid) \/ (exists u, t_pc th = PSched fid u)).

(** A non-blocking read of the file would not say that there is nothing. *)
Definition available (s : state) (fid : Z) : Prop :=
  step (s_dev s) (OpReadCheck fid true false) = Ok (s_dev s, OutCont).

(** Task [t] alone executes [k] statements. *)
Definition alone (t : nat) (k : nat) : list (nat * act) := repeat (t, Go) k.

(** ** Lemmas *)

Lemma reaches_inv : forall s, reaches s -> WInv s.
Proof.
  intros s (nm & mem & pow2 & n & l & Hi & Hu & E).
  destruct (wrun_inv l _ (wstart_inv nm mem pow2 n Hi) Hu) as (s' & E' & H). congruence.
Qed.

Lemma asleep_cand : forall s t fid, asleep s t fid ->
  exists th, nth_error (s_ths s) t = Some th /\ cand th = Some fid.
Proof.
  intros s t fid (th & Ht & Hr & Hp). exists th. split; [exact Ht|]. unfold cand.
  destruct Hp as [(c & -> & <-)|(u & ->)]; rewrite Hr; reflexivity.
Qed.

Lemma available_not_empty : forall s a fid, R (s_dev s) a -> available s fid -> ~ empty a fid.
Proof.
  intros s a fid HR Hav (g & r & El & Er & Eq). unfold available in Hav. cbn [step] in Hav.
  destruct (R_reader_back _ _ _ _ _ HR El Er) as (cr & Hc & (Hrep & _)). unfold reader_of in Hc.
  destruct (lookup fid (d_files (s_dev s))) as [[w m rd]|]; [|discriminate]. cbn [f_reader] in Hc. subst rd.
  unfold ulogger_read_check in Hav. rewrite (repr_eqb _ _ _ Hrep), Eq in Hav. discriminate.
Qed.

Lemma wake_step : forall s t th v, nth_error (s_ths s) t = Some th -> t_pc th = WWake v ->
  exists s', wstep s (t, Go) = Ok s' /\ s_dev s' = s_dev s /\ s_mx s' = s_mx s /\
  forall t' th', t' <> t -> nth_error (s_ths s) t' = Some th' ->
    nth_error (s_ths s') t' = Some (wake_one (s_wq s) t' th').
Proof.
  intros s t th v Ht Ep. unfold wstep. rewrite Ht. unfold go. rewrite Ep. eexists. split; [reflexivity|].
  split; [reflexivity|]. split; [reflexivity|]. intros t' th' N H. cbn [s_ths].
  rewrite nth_put, (proj2 (Nat.eqb_neq t' t) N), nth_wake, H. reflexivity.
Qed.

Lemma wake_nobody : forall s t th v, WInv s -> nth_error (s_ths s) t = Some th -> t_pc th = WWake v ->
  exists s', wstep s (t, Go) = Ok s' /\ forall t' fid, ~ asleep s' t' fid.
Proof.
  intros s t th v HI Ht Ep. destruct (wake_step s t th v Ht Ep) as (s' & E & _ & _ & _).
  exists s'. split; [exact E|]. intros t' fid Ha. apply asleep_cand in Ha. destruct Ha as (x & Hx & Hc).
  unfold wstep in E. rewrite Ht in E. unfold go in E. rewrite Ep in E. injection E as <-. cbn [s_ths] in Hx.
  rewrite nth_put, !nth_wake in Hx. destruct (Nat.eqb_spec t' t) as [->|N].
  - rewrite Ht in Hx. cbn in Hx. injection Hx as <-. discriminate Hc.
  - cbn [Nat.add] in Hx. destruct (nth_error (s_ths s) t') as [y|] eqn:Ey; [|discriminate]. cbn in Hx. injection Hx as <-.
    rewrite (wake_cand s t' y HI Ey) in Hc. discriminate.
Qed.

Lemma pending_of : forall s t fid, WInv s -> asleep s t fid -> available s fid -> pending (s_ths s).
Proof.
  intros s t fid HI Ha Hav. destruct (asleep_cand s t fid Ha) as (th & Ht & Hc).
  pose proof HI as (a & HR & _ & _ & HD & _). destruct (HD t th fid Ht Hc) as [H|H]; [|exact H].
  exfalso. exact (available_not_empty s a fid HR Hav H).
Qed.

(** The owner of the mutex is one of the tasks. *)
Lemma put_length : forall {A} n (x : A) l, length (put n x l) = length l.
Proof. induction n as [|n IH]; intros x [|y l]; cbn; try reflexivity. rewrite IH. reflexivity. Qed.
Lemma wake_length : forall wq l k, length (wake_all wq k l) = length l.
Proof. intros wq. induction l as [|y l IH]; intros k; cbn; [reflexivity|]. rewrite IH. reflexivity. Qed.

Lemma go_owner : forall s t th s', nth_error (s_ths s) t = Some th -> go s t th = Ok s' ->
  length (s_ths s') = length (s_ths s) /\ (s_mx s' = s_mx s \/ s_mx s' = None \/ s_mx s' = Some t).
Proof.
  intros s t th s' Ht E. unfold go, lock, unlock, goto, leave_user in E. cbn zeta in E.
  destruct (t_pc th); repeat match type of E with
    | bind ?x _ = _ => destruct x as [[? ?]|]; cbn [bind] in E; try discriminate E
    | context [match ?x with _ => _ end] => destruct x eqn:?; cbn [bind] in E; try discriminate E
    end; try discriminate E; injection E as <-; cbn [s_ths s_mx]; rewrite ?put_length, ?wake_length; auto.
Qed.

Lemma wrun_owner : forall l s s', wrun s l = Ok s' ->
  (forall t, s_mx s = Some t -> (t < length (s_ths s))%nat) -> (forall t, s_mx s' = Some t -> (t < length (s_ths s'))%nat).
Proof.
  induction l as [|[t ac] l IH]; intros s s' E H; cbn [wrun] in E; [injection E as <-; exact H|].
  destruct (wstep s (t, ac)) as [s1|] eqn:E1; cbn [bind] in E; [|discriminate].
  apply (IH s1 s' E). clear IH E. unfold wstep in E1.
  destruct (nth_error (s_ths s) t) as [th|] eqn:Ht; [|injection E1 as <-; exact H].
  assert (Hlt : (t < length (s_ths s))%nat) by (apply nth_error_Some; congruence).
  destruct ac as [c| |].
  - destruct (t_pc th); injection E1 as <-; cbn [s_ths s_mx]; rewrite ?put_length; exact H.
  - destruct (go_owner s t th s1 Ht E1) as (L & [M|[M|M]]); rewrite L, M; [exact H|discriminate|].
    intros t' Q. injection Q as <-. exact Hlt.
  - injection E1 as <-; cbn [s_ths s_mx]; rewrite ?put_length; exact H.
Qed.

Lemma reaches_owner : forall s t, reaches s -> s_mx s = Some t -> (t < length (s_ths s))%nat.
Proof.
  intros s t (nm & mem & pow2 & n & l & Hi & Hu & E). revert t. apply (wrun_owner l _ s E).
  discriminate.
Qed.

(** ** C18 *)

(** Whenever a task sleeps in read or poll although an entry is available, some other task is
    about to wake it: that task's next one or two statements cannot block, and after them nobody
    sleeps. This holds in every state any schedule can reach, so also between those statements. *)
Theorem C18_no_lost_wakeup : forall s t fid, reaches s -> asleep s t fid -> available s fid ->
  exists t' k s', t' <> t /\ (k = 1 \/ k = 2)%nat /\ wrun s (alone t' k) = Ok s' /\
    forall t'' fid'', ~ asleep s' t'' fid''.
Proof.
  intros s t fid Hr Ha Hav. apply reaches_inv in Hr as HI.
  destruct (pending_of s t fid HI Ha Hav) as (t' & th' & Ht' & Hw).
  assert (N : t' <> t).
  { intros ->. destruct Ha as (th & Ht & _ & Hp). assert (th = th') by congruence. subst.
    destruct Hp as [(c & E & _)|(u & E)]; rewrite E in Hw; discriminate. }
  destruct (t_pc th') eqn:Ep; try discriminate Hw.
  - (* before the unlock *)
    destruct (wstep_inv s (t', Go) HI I) as (s1 & E1 & HI1).
    assert (X : nth_error (s_ths s1) t' = Some (set_pc th' (WWake v))).
    { unfold wstep in E1. rewrite Ht' in E1. unfold go in E1. rewrite Ep in E1. cbn in Hw.
      destruct (v <? 0); [discriminate Hw|]. injection E1 as <-. unfold unlock. cbn [s_ths].
      rewrite nth_put, Nat.eqb_refl, Ht'. reflexivity. }
    destruct (wake_nobody s1 t' _ v HI1 X eq_refl) as (s2 & E2 & H2).
    exists t', 2%nat, s2. split; [exact N|]. split; [auto|]. split; [|exact H2].
    cbn [alone repeat wrun]. rewrite E1. cbn [bind]. rewrite E2. reflexivity.
  - destruct (wake_nobody s t' _ v HI Ht' Ep) as (s2 & E2 & H2).
    exists t', 1%nat, s2. split; [exact N|]. split; [auto|]. split; [|exact H2].
    cbn [alone repeat wrun]. rewrite E2. reflexivity.
Qed.

(** No schedule makes the driver misbehave. *)
Theorem C18_safe : forall nm mem pow2 n l, init_ok nm mem pow2 -> Forall user_event l ->
  exists s, wrun (wstart nm mem pow2 n) l = Ok s.
Proof.
  intros nm mem pow2 n l Hi Hu.
  destruct (wrun_inv l _ (wstart_inv nm mem pow2 n Hi) Hu) as (s' & E' & H). eauto.
Qed.

(** The mutex is never held by a task that sleeps: its owner releases it by at most three
    statements of its own, none of which can block. *)
Theorem C18_mutex_released : forall s t, reaches s -> s_mx s = Some t ->
  exists k s', (k <= 3)%nat /\ wrun s (alone t k) = Ok s' /\ s_mx s' = None.
Proof.
  intros s t Hr Hm. pose proof (reaches_owner s t Hr Hm) as Hlt. apply reaches_inv in Hr as HI.
  destruct (nth_error (s_ths s) t) as [th|] eqn:Ht; [|apply nth_error_None in Ht; lia].
  assert (Step : forall s th, WInv s -> nth_error (s_ths s) t = Some th -> 
     exists s', wrun s (alone t 1) = Ok s' /\ WInv s' /\ go s t th = Ok s').
  { intros x y HI' Hy. destruct (go_inv x t y HI' Hy) as (x' & E & H). exists x'. cbn [alone repeat wrun wstep].
    rewrite Hy, E. auto. }
  assert (App : forall k1 k2 x x' x'', wrun x (alone t k1) = Ok x' -> wrun x' (alone t k2) = Ok x'' ->
     wrun x (alone t (k1 + k2)) = Ok x'').
  { induction k1 as [|k1 IH]; intros k2 x x' x'' E1 E2; cbn [alone repeat wrun Nat.add] in *.
    - injection E1 as <-. exact E2.
    - destruct (wstep x (t, Go)) as [x1|] eqn:E; cbn [bind] in *; [|discriminate].
      eapply IH; eassumption. }
  (* statements that release *)
  assert (Rel : forall s th, WInv s -> nth_error (s_ths s) t = Some th ->
     match t_pc th with RUnlock _ _ | RUnlock2 _ _ | WUnlock _ | PUnlock _ _ _ | OUnlock _ => True | _ => False end ->
     exists s', wrun s (alone t 1) = Ok s' /\ s_mx s' = None).
  { intros x y HI' Hy Hp. destruct (Step x y HI' Hy) as (x' & E & _ & G). exists x'. split; [exact E|].
    unfold go in G. destruct (t_pc y); try contradiction; injection G as <-; reflexivity. }
  assert (Rel2 : forall s th, WInv s -> nth_error (s_ths s) t = Some th ->
     match t_pc th with RTest _ | RBody _ | WBody _ _ | PBody _ _ | OBody _ => True | _ => False end ->
     exists s', wrun s (alone t 2) = Ok s' /\ s_mx s' = None).
  { intros x y HI' Hy Hp. destruct (Step x y HI' Hy) as (x' & E & HI2 & G).
    assert (exists y', nth_error (s_ths x') t = Some y' /\
      match t_pc y' with RUnlock _ _ | RUnlock2 _ _ | WUnlock _ | PUnlock _ _ _ | OUnlock _ => True | _ => False end)
      as (y' & Hy' & Hp').
    { unfold go in G. destruct (t_pc y); try contradiction; cbn [bind] in G.
      - destruct (the_reader _ _); [|discriminate]. injection G as <-. unfold goto. cbn [s_ths].
        rewrite nth_put, Nat.eqb_refl, Hy. eexists. split; [reflexivity|exact I].
      - destruct (step _ _) as [[d' o]|]; [|discriminate]. injection G as <-. cbn [s_ths].
        rewrite nth_put, Nat.eqb_refl, Hy. eexists. split; [reflexivity|exact I].
      - destruct (ulogger_write_iter _ _ _ _ _ _) as [[d' o]|]; [|discriminate]. injection G as <-. cbn [s_ths].
        rewrite nth_put, Nat.eqb_refl, Hy. eexists. split; [reflexivity|exact I].
      - destruct (step _ _) as [[d' o]|]; [|discriminate]. cbn [bind] in G. destruct o; try discriminate.
        injection G as <-. cbn [s_ths].
        rewrite nth_put, Nat.eqb_refl, Hy. eexists. split; [reflexivity|exact I].
      - destruct (step _ _) as [[d' o']|]; [|discriminate]. injection G as <-. cbn [s_ths].
        rewrite nth_put, Nat.eqb_refl, Hy. eexists. split; [reflexivity|exact I]. }
    destruct (Rel x' y' HI2 Hy' Hp') as (x'' & E2 & M). exists x''. split; [|exact M].
    exact (App 1%nat 1%nat x x' x'' E E2). }
  destruct (local_of s t th HI Ht) as (A & _). apply A in Hm as Hh.
  destruct (t_pc th) eqn:Ep; try discriminate Hh.
  - destruct (Step s th HI Ht) as (x' & E & HI2 & G).
    unfold go in G. rewrite Ep in G. assert (Hx : s_ths x' = put t (set_run (set_pc th (RTest c)) false) (s_ths s)).
    { injection G as <-. reflexivity. }
    destruct (Rel2 x' (set_run (set_pc th (RTest c)) false) HI2) as (x'' & E2 & M).
    { rewrite Hx, nth_put, Nat.eqb_refl, Ht. reflexivity. }
    { exact I. }
    exists 3%nat, x''. split; [lia|]. split; [|exact M]. exact (App 1%nat 2%nat s x' x'' E E2).
  - destruct (Rel2 s th HI Ht) as (xx & E & M); [rewrite Ep; exact I|]. exists 2%nat, xx. auto.
  - destruct (Rel s th HI Ht) as (xx & E & M); [rewrite Ep; exact I|]. exists 1%nat, xx. auto.
  - destruct (Rel2 s th HI Ht) as (xx & E & M); [rewrite Ep; exact I|]. exists 2%nat, xx. auto.
  - destruct (Rel s th HI Ht) as (xx & E & M); [rewrite Ep; exact I|]. exists 1%nat, xx. auto.
  - destruct (Rel2 s th HI Ht) as (xx & E & M); [rewrite Ep; exact I|]. exists 2%nat, xx. auto.
  - destruct (Rel s th HI Ht) as (x0 & E & M); [rewrite Ep; exact I|]. exists 1%nat, x0. auto.
  - destruct (Rel2 s th HI Ht) as (xx & E & M); [rewrite Ep; exact I|]. exists 2%nat, xx. auto.
  - destruct (Rel s th HI Ht) as (xx & E & M); [rewrite Ep; exact I|]. exists 1%nat, xx. auto.
  - destruct (Rel2 s th HI Ht) as (xx & E & M); [rewrite Ep; exact I|]. exists 2%nat, xx. auto.
  - destruct (Rel s th HI Ht) as (x0 & E & M); [rewrite Ep; exact I|]. exists 1%nat, x0. auto.
Qed.

(** ** The woken reader gets its data *)

Lemma put_put : forall {A} n (x y : A) l, put n x (put n y l) = put n x l.
Proof. induction n as [|n IH]; intros x y [|z l]; cbn; try reflexivity. rewrite IH. reflexivity. Qed.

Lemma step_go : forall d mx wq t th ths, (t < length ths)%nat ->
  wstep (mkS d mx wq (put t th ths)) (t, Go) = go (mkS d mx wq (put t th ths)) t th.
Proof.
  intros. unfold wstep. cbn [s_ths]. rewrite nth_put, Nat.eqb_refl.
  destruct (nth_error ths t) eqn:E; [reflexivity|]. apply nth_error_None in E. lia.
Qed.

Ltac tidy := unfold goto, lock, unlock;
  cbn [t_pc t_run t_sig t_trig set_pc set_run set_trig ret_user s_dev s_mx s_wq s_ths negb Z.eqb t_rets bind];
  rewrite ?put_put.
Ltac one_step := cbn [alone repeat wrun]; tidy; rewrite step_go by assumption; unfold go at 1; tidy.

(** A task that sleeps in read() on an unrestricted file with an entry available, with a buffer
    large enough and the mutex free: the waker wakes it and ten statements later it has returned
    data. *)
Theorem C18_delivers : forall s t c th, reaches s -> s_mx s = None ->
  nth_error (s_ths s) t = Some th -> t_pc th = RSched c -> t_run th = false ->
  available s (ra_fid c) -> (exists r, reader_of (s_dev s) (ra_fid c) = Some r /\ r_all r = true) ->
  8192 <= ra_count c -> ra_count c <= ra_valid c ->
  exists t' s' th' bs, wrun s ((t', Go) :: alone t 10) = Ok s' /\
    nth_error (s_ths s') t = Some th' /\ t_pc th' = Idle /\ t_rets th' = OutData bs :: t_rets th.
Proof.
  intros s t c th Hr Hm Ht Ep Hrun Hav (r & Hrd & Hall) Hct Hvl. apply reaches_inv in Hr as HI.
  assert (Ha : asleep s t (ra_fid c)).
  { exists th. split; [exact Ht|]. split; [exact Hrun|]. left. eauto. }
  destruct (pending_of s t _ HI Ha Hav) as (t' & thw & Htw & Hw).
  assert (exists v, t_pc thw = WWake v) as (v & Epw).
  { destruct (local_of s t' thw HI Htw) as (A & _). rewrite Hm in A.
    destruct (t_pc thw); try discriminate Hw; [|eauto]. exfalso. destruct A as [A _]. discriminate (A eq_refl). }
  assert (N : t <> t') by congruence.
  destruct (wake_step s t' thw v Htw Epw) as (s1 & E1 & Ed & Em & Eo).
  pose proof (Eo t th N Ht) as Ht1.
  destruct (local_of s t th HI Ht) as (_ & B & _).
  assert (Hq : in_wq t false (s_wq s) = true) by (apply B; unfold rqueued; rewrite Ep, Hrun; reflexivity).
  assert (Hth1 : t_pc (wake_one (s_wq s) t th) = RSched c /\ t_run (wake_one (s_wq s) t th) = true /\
                 t_rets (wake_one (s_wq s) t th) = t_rets th).
  { unfold wake_one. rewrite Hq. destruct (in_wq t true (s_wq s)); cbn; auto. }
  destruct Hth1 as (P1 & P2 & P3). set (th1 := wake_one (s_wq s) t th) in *. clearbody th1.
  exists t'. cbn [wrun]. rewrite E1. cbn [bind].
  assert (Hlt : (t < length (s_ths s1))%nat) by (apply nth_error_Some; congruence).
  destruct s1 as [d1 mx1 wq1 ths1]. cbn [s_dev s_mx s_ths] in *. subst d1 mx1.
  rewrite <- (put_same t th1 ths1 Ht1). rewrite Hm. destruct th1 as [p1 r1 g1 tg1 rets1]. cbn [t_pc t_run t_rets] in *. subst p1 r1 rets1.
  one_step. one_step. one_step. one_step.
  assert (Hr' : the_reader (s_dev s) (ra_fid c) = Some r) by exact Hrd.
  rewrite Hr'. cbn [bind].
  assert (Hne : (w_off (d_log (s_dev s)) =? r_off r) = false).
  { unfold available in Hav. cbn [step] in Hav. unfold reader_of in Hrd.
    destruct (lookup (ra_fid c) (d_files (s_dev s))) as [[w m rd]|]; [|discriminate]. cbn [f_reader] in Hrd. subst rd.
    unfold ulogger_read_check in Hav. destruct (w_off (d_log (s_dev s)) =? r_off r); [discriminate|reflexivity]. }
  rewrite Hne. idtac.
  one_step. one_step. one_step. one_step. one_step.
  pose proof HI as (a & HR & Hv & _).
  destruct (step_R (s_dev s) a (OpReadBody (ra_fid c) (ra_euid c) (ra_count c) (ra_valid c)) I HR Hv) as (d' & Es & _).
  rewrite Es. cbn [bind].
  assert (exists bs, render (snd (astep a (OpReadBody (ra_fid c) (ra_euid c) (ra_count c) (ra_valid c)))) = OutData bs) as (bs & Ebs).
  { destruct (R_reader_of _ _ _ _ HR Hrd) as (g & ar & El & Er & HRr).
    pose proof (R_reader_wf _ _ _ _ _ HR El Er) as Hwf.
    destruct HRr as (Hrep & _ & _ & Hal & _).
    cbn [astep]. rewrite El. destruct g as [gw gm gr]. cbn [a_rd] in Er. subst gr.
    unfold aread. rewrite visible_all by congruence. rewrite (repr_eqb _ _ _ Hrep) in Hne.
    destruct (a_q ar) as [|e rest] eqn:Eq; [discriminate|].
    inversion Hwf as [|? ? We Wr]; subst.
    destruct (a_lost ar >? 0).
    - pose proof (enc_len_small (a_ver ar) (report (a_name a) (a_lost ar) e)) as L.
      assert (Wr' : wf_entry (report (a_name a) (a_lost ar) e)).
      { apply wf_report; [exact We|]. destruct HR as ((_ & _ & _ & Hnm) & _ & E & _). rewrite <- E. lia. }
      specialize (L Wr'). destruct (Z.ltb_spec (ra_count c) (enc_len (a_ver ar) (report (a_name a) (a_lost ar) e))); [lia|].
      destruct (Z.ltb_spec (ra_valid c) (enc_len (a_ver ar) (report (a_name a) (a_lost ar) e))); [lia|]. cbn [snd render]. eauto.
    - pose proof (enc_len_small (a_ver ar) e We) as L.
      destruct (Z.ltb_spec (ra_count c) (enc_len (a_ver ar) e)); [lia|].
      destruct (Z.ltb_spec (ra_valid c) (enc_len (a_ver ar) e)); [lia|]. cbn [snd render]. eauto. }
  rewrite Ebs. one_step. 
  eexists _, _, bs. split; [reflexivity|]. cbn [s_ths]. rewrite nth_put, Nat.eqb_refl.
  destruct (nth_error ths1 t) eqn:Q; [|apply nth_error_None in Q; lia].
  split; [reflexivity|]. split; reflexivity.
Qed.

(** ** Example: task 0 reads an empty log and sleeps, task 1 writes and is about to wake it. *)

Definition exq_task : task := mkTask 100 100 (bytes_of_string "prog") (bytes_of_string "prog") 1000.
Definition exq_read : rargs := mkR 1 false 0 9000 9000.
Definition exq_sched : list (nat * act) :=
  [(0%nat, Call (COther (OpOpen 1 true false true false)))] ++ alone 0 3 ++
  [(1%nat, Call (COther (OpOpen 2 false true false false)))] ++ alone 1 3 ++
  [(0%nat, Call (CRead exq_read))] ++ alone 0 5 ++
  [(1%nat, Call (CWrite (mkW 2 exq_task 1 2 (IterUbuf (mkSeg [72; 105] 2)))))] ++ alone 1 4.
Definition exq_run (l : list (nat * act)) : state :=
  match wrun (wstart (bytes_of_string "ulog_main") (zrepeat 170 16384) 14 2) l with
  | Ok s => s | Bug _ => wstart [] [] 14 0 end.
Definition exq_state : state := exq_run exq_sched.

Lemma exq_ok : forall l, Forall user_event l -> reaches (exq_run l).
Proof.
  intros l Hu.
  assert (Hi : init_ok (bytes_of_string "ulog_main") (zrepeat 170 16384) 14).
  { split; [lia|]. split; [vm_compute; reflexivity|]. vm_compute. discriminate. }
  destruct (C18_safe _ _ _ 2%nat l Hi Hu) as (s & E). unfold exq_run. rewrite E.
  exists (bytes_of_string "ulog_main"), (zrepeat 170 16384), 14, 2%nat, l. auto.
Qed.

Definition exq_view (s : state) :=
  (map (fun th => (t_run th, match t_pc th with RSched c => Some (ra_fid c) | WWake _ => Some (-1) | _ => None end)) (s_ths s),
   s_mx s,
   match step (s_dev s) (OpReadCheck 1 true false) with Ok (_, OutCont) => true | _ => false end,
   match the_reader (s_dev s) 1 with Some r => r_all r | None => false end).

Example exq_view_eq : exq_view exq_state =
  ([(false, Some 1); (true, Some (-1))], None, true, true).
Proof. vm_compute. reflexivity. Qed.

Example C18_ex : reaches exq_state /\ asleep exq_state 0 1 /\ available exq_state 1.
Proof.
  pose proof exq_view_eq as V. split; [apply exq_ok; repeat constructor|].
  set (s := exq_state) in *. clearbody s. unfold exq_view in V.
  destruct s as [d mx wq ths]. cbn [s_ths s_dev s_mx] in *.
  destruct ths as [|th0 ths]; [discriminate V|]. cbn [map] in V. inversion V as [[A B C D E F]]. clear V F. rewrite ?A in E.
  split.
  - exists th0. split; [reflexivity|]. split; [exact A|]. left. destruct (t_pc th0); try discriminate B.
    exists c. split; [reflexivity|congruence].
  - unfold available. cbn [s_dev] in *. cbn [step] in *.
    destruct (lookup 1 (d_files d)) as [[w m [r|]]|]; try discriminate E.
    destruct (ulogger_read_check (d_log d) r true false); try discriminate E. reflexivity.
Qed.

(** While task 1 still holds the mutex. *)
Example C18_mutex_ex : exists s, reaches s /\ s_mx s = Some 1%nat.
Proof.
  exists (exq_run (removelast exq_sched)). split; [apply exq_ok; repeat constructor|].
  vm_compute. reflexivity.
Qed.

Print Assumptions C18_no_lost_wakeup.
Print Assumptions C18_safe.
Print Assumptions C18_mutex_released.
Print Assumptions C18_delivers.
