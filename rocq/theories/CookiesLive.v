(** Events and steps of executions; calls can always complete. *)
From Coq Require Import ZArith String List Bool Lia ZifyBool ZifyNat Arith.
From Verif Require Import Bytes BytesProofs Parse Cookies CookiesSpec CookiesProofs.
Import ListNotations.
Open Scope Z_scope.

Lemma run_app : forall cf a b s, run cf s (a ++ b) =
  let '(s1, e1) := run cf s a in let '(s2, e2) := run cf s1 b in (s2, e1 ++ e2).
Proof.
  intros cf. induction a as [|(t & o) a IH]; intros b s; cbn [run app].
  - destruct (run cf s b). reflexivity.
  - destruct (step cf s t o) as [s1 e1]. rewrite IH. destruct (run cf s1 a) as [s2 e2]. destruct (run cf s2 b) as [s3 e3].
    rewrite app_assoc. reflexivity.
Qed.

Lemma reaches_run : forall cf s tr sched s' e, reaches cf s tr -> run cf s sched = (s', e) -> reaches cf s' (tr ++ e).
Proof. intros cf s tr sched s' e (a & H) R. exists (a ++ sched). rewrite run_app, H, R. reflexivity. Qed.

Lemma reaches_step : forall cf s tr t o s' e, reaches cf s tr -> step cf s t o = (s', e) -> reaches cf s' (tr ++ e).
Proof.
  intros cf s tr t o s' e H E. apply (reaches_run cf s tr [(t, o)] s' e H). cbn [run]. rewrite E. rewrite app_nil_r. reflexivity.
Qed.

(** The step an event comes from. *)
Lemma event_step : forall cf s tra x trb, reaches cf s (tra ++ x :: trb) ->
  exists s1 tr1 t o s2 e1 e2, reaches cf s1 tr1 /\ step cf s1 t o = (s2, e1 ++ x :: e2) /\ tra = tr1 ++ e1.
Proof.
  intros cf s tra x trb (sched & H).
  assert (G : forall sched s0 tr0 s tra, reaches cf s0 tr0 -> run cf s0 sched = (s, tra ++ x :: trb) ->
    exists s1 tr1 t o s2 e1 e2, reaches cf s1 tr1 /\ step cf s1 t o = (s2, e1 ++ x :: e2) /\ tr0 ++ tra = tr1 ++ e1).
  { clear. induction sched as [|(t & o) sched IH]; intros s0 tr0 s tra R H; cbn [run] in H.
    - inversion H as [[H1 H2]]. destruct tra; discriminate.
    - destruct (step cf s0 t o) as [s1 e1] eqn:E1. destruct (run cf s1 sched) as [s2 e2] eqn:E2. inversion H as [[H1 H2]].
      apply app_eq_app in H2. destruct H2 as (l & [(Ha & Hb)|(Ha & Hb)]).
      + destruct l as [|y l].
        * cbn in Hb. rewrite app_nil_r in Ha. subst e1. rewrite <- Hb in E2.
          destruct (IH s1 (tr0 ++ tra) s2 []) as (s3 & tr1 & t' & o' & s4 & e3 & e4 & A & B & C).
          -- apply (reaches_step cf s0 tr0 t o); assumption.
          -- exact E2.
          -- exists s3, tr1, t', o', s4, e3, e4. split; [exact A|]. split; [exact B|]. rewrite app_nil_r in C. exact C.
        * cbn in Hb. inversion Hb. subst y e1. exists s0, tr0, t, o, s1, tra, l. split; [exact R|]. split; [exact E1|reflexivity].
      + subst tra. destruct (IH s1 (tr0 ++ e1) s2 l) as (s3 & tr1 & t' & o' & s4 & e3 & e4 & A & B & C).
        * apply (reaches_step cf s0 tr0 t o); assumption.
        * rewrite <- Hb. exact E2.
        * exists s3, tr1, t', o', s4, e3, e4. split; [exact A|]. split; [exact B|]. rewrite <- app_assoc in C. exact C. }
  destruct (G sched init [] s tra) as (s1 & tr1 & R); [exists []; reflexivity|exact H|].
  exists s1, tr1. exact R.
Qed.

(** ** Calls can complete *)
Section Live.
Variable cf : cfg.
Definition go (s : state) (sched : list (nat * call)) : state := fst (run cf s sched).

Lemma go_inv : forall s tr sched, Inv cf s tr -> exists tr', Inv cf (go s sched) tr'.
Proof.
  intros s tr sched I. unfold go. destruct (run cf s sched) as [s' e] eqn:E. exists (tr ++ e). apply (run_inv cf sched s tr); assumption.
Qed.
Lemma go_app : forall s a b, go s (a ++ b) = go (go s a) b.
Proof.
  intros s a b. unfold go. rewrite run_app. destruct (run cf s a) as [s1 e1]. cbn [fst]. destruct (run cf s1 b). reflexivity.
Qed.
Lemma go_cons : forall s t o b, go s ((t, o) :: b) = go (fst (step cf s t o)) b.
Proof. intros s t o b. unfold go. cbn [run]. destruct (step cf s t o) as [s1 e1]. cbn [fst]. destruct (run cf s1 b). reflexivity. Qed.

(** A step of a thread does not touch the program counter of the others. *)
Lemma step_other : forall s t o t', t' <> t -> s_th (fst (step cf s t o)) t' = s_th s t'.
Proof.
  intros s t o t' Hne. unfold step, start, after, goto, acquire, release. destruct (s_th s t);
    repeat match goal with |- context [match ?x with _ => _ end] => destruct x end; cbn; try reflexivity; apply upd_other; exact Hne.
Qed.

(** [P] can be made true by steps of [t] alone. *)
Definition alone (t : nat) (P : state -> Prop) (s : state) : Prop := exists n, P (go s (repeat (t, CForeach) n)).

Lemma alone_now : forall t (P : state -> Prop) s, P s -> alone t P s.
Proof. intros t P s H. exists 0%nat. exact H. Qed.
Lemma alone_step : forall t P s, alone t P (fst (step cf s t CForeach)) -> alone t P s.
Proof. intros t P s (n & H). exists (S n). cbn [repeat]. rewrite go_cons. exact H. Qed.

Lemma inv_step : forall s tr t o, Inv cf s tr -> exists tr', Inv cf (fst (step cf s t o)) tr'.
Proof. intros s tr t o I. destruct (step cf s t o) as [s' e] eqn:E. exists (tr ++ e). apply (step_inv cf s tr t o); assumption. Qed.

(** Walks are finite. *)
Lemma walk_len : forall s tr t, Inv cf s tr ->
  match s_th s t with
  | TWalk _ _ p | NWalk _ p _ | FWalk p => exists l, chain (s_next s) p l
  | _ => True
  end.
Proof.
  intros s tr t I. destruct (i_pc _ _ _ I t) as [E|(tr1 & o & tr2 & E & _ & C)]; [rewrite E; exact Logic.I|].
  destruct (s_th s t); try exact Logic.I; cbn [cond] in C; firstorder.
Qed.

Ltac one := apply alone_step; unfold step; match goal with E : s_th ?s ?t = _ |- context [s_th ?s ?t] => rewrite E end.

(** Progress of a call: decreases on the way to completion. *)
Definition rank (p : pc) : nat :=
  match p with
  | Idle => 0
  | After _ _ => 1
  | Hook _ _ _ => 2
  | Unlock _ _ _ | RdHook _ _ | SetLvl _ _ _ | SetHead _ _ _ | SetNext _ _ _ | Test _ _ _ => 3
  | Lock _ _ _ => 4 | Env2 _ _ => 5 | Env _ _ => 6 | Check _ _ => 7
  | TUnlock _ _ _ | TWalk _ _ _ | TRead _ _ => 8 | TLock _ _ => 9
  | NUnlock _ _ | NWalk _ _ _ | NRead _ => 1 | NLock _ => 2
  | FWalk _ => 1 | FUnlock _ | FRead => 2 | FLock => 3
  | HUnlock | HSet _ => 1 | HLock _ => 2
  end%nat.

(** The owner of the mutex can release it. *)
Definition freed (r t : nat) (s : state) : Prop := cs (s_th s t) = false /\ (rank (s_th s t) < r)%nat.

Lemma cs_release : forall s tr t, Inv cf s tr -> cs (s_th s t) = true -> alone t (freed (rank (s_th s t)) t) s.
Proof.
  assert (R : forall r s t p, cs p = false -> (rank p < r)%nat -> freed r t (release s t p)).
  { intros r s t p H1 H2. unfold freed, release. cbn. rewrite upd_same. split; assumption. }
  assert (Un : forall s t c h k, s_th s t = Unlock c h k -> alone t (freed 3 t) s).
  { intros s t c h k E. one. apply alone_now. cbn [fst]. apply R; cbn; [reflexivity|lia]. }
  assert (Rd : forall s t c k, s_th s t = RdHook c k -> alone t (freed 3 t) s).
  { intros s t c k E. one. cbn [fst]. apply (Un _ _ c (s_hook s) k). cbn. apply upd_same. }
  assert (Sl : forall s t c v k, s_th s t = SetLvl c v k -> alone t (freed 3 t) s).
  { intros s t c v k E. one. cbn [fst]. apply (Rd _ _ c k). cbn. apply upd_same. }
  assert (Sh : forall s t c v k, s_th s t = SetHead c v k -> alone t (freed 3 t) s).
  { intros s t c v k E. one. cbn [fst]. apply (Sl _ _ c v k). cbn. apply upd_same. }
  assert (Sn : forall s t c v k, s_th s t = SetNext c v k -> alone t (freed 3 t) s).
  { intros s t c v k E. one. cbn [fst]. apply (Sh _ _ c v k). cbn. apply upd_same. }
  assert (Te : forall s t c v k, s_th s t = Test c v k -> alone t (freed 3 t) s).
  { intros s t c v k E. one. cbn [fst]. destruct (s_level s c <? 0); [apply (Sn _ _ c v k)|apply (Un _ _ c None k)]; cbn; apply upd_same. }
  assert (Tu : forall s t n l f, s_th s t = TUnlock n l f -> alone t (freed 8 t) s).
  { intros s t n l f E. one. destruct f; cbn [fst]; apply alone_now; apply R; cbn; try reflexivity; lia. }
  assert (Tw : forall lst s t n l p, chain (s_next s) p lst -> s_th s t = TWalk n l p -> alone t (freed 8 t) s).
  { induction lst as [|q lst IH]; intros s t n l p Hc E; one; cbn [fst].
    - cbn in Hc. subst p. apply (Tu _ _ n l None). cbn. apply upd_same.
    - destruct Hc as (-> & Hc). destruct (bytes_eqb (c_name cf q) n).
      + apply (Tu _ _ n l (Some q)). cbn. apply upd_same.
      + apply (IH _ _ n l (s_next s q)); cbn; [exact Hc|apply upd_same]. }
  assert (Nu : forall s t m acc, s_th s t = NUnlock m acc -> alone t (freed 1 t) s).
  { intros s t m acc E. one. cbn [fst]. apply alone_now. apply R; cbn; [reflexivity|lia]. }
  assert (Nw : forall lst s t m p acc, chain (s_next s) p lst -> s_th s t = NWalk m p acc -> alone t (freed 1 t) s).
  { induction lst as [|q lst IH]; intros s t m p acc Hc E; one.
    - cbn in Hc. subst p. cbn [fst]. apply (Nu _ _ m acc). cbn. apply upd_same.
    - destruct Hc as (-> & Hc). destruct (zlen acc <? m); cbn [fst].
      + apply (IH _ _ m (s_next s q) (acc ++ [c_name cf q])); cbn; [exact Hc|apply upd_same].
      + apply (Nu _ _ m acc). cbn. apply upd_same. }
  assert (Fu : forall s t p, s_th s t = FUnlock p -> alone t (freed 2 t) s).
  { intros s t p E. one. cbn [fst]. apply alone_now. apply R; cbn; [reflexivity|lia]. }
  assert (Hu : forall s t, s_th s t = HUnlock -> alone t (freed 1 t) s).
  { intros s t E. one. cbn [fst]. apply alone_now. apply R; cbn; [reflexivity|lia]. }
  intros s tr t I H. pose proof (walk_len s tr t I) as W. destruct (s_th s t) eqn:E; try discriminate H; cbn [rank].
  - eapply Te; exact E.
  - eapply Sn; exact E.
  - eapply Sh; exact E.
  - eapply Sl; exact E.
  - eapply Rd; exact E.
  - eapply Un; exact E.
  - pose proof (inv_step s tr t CForeach I) as (tr' & I'). unfold step in I'. rewrite E in I'. cbn [fst] in I'.
    pose proof (walk_len _ _ t I') as W'. cbn in W'. rewrite upd_same in W'. destruct W' as (lst & W').
    one. cbn [fst]. apply (Tw lst _ _ n l (s_head s)); cbn; [exact W'|apply upd_same].
  - destruct W as (lst & W). eapply Tw; eassumption.
  - eapply Tu; exact E.
  - pose proof (inv_step s tr t CForeach I) as (tr' & I'). unfold step in I'. rewrite E in I'. cbn [fst] in I'.
    pose proof (walk_len _ _ t I') as W'. cbn in W'. rewrite upd_same in W'. destruct W' as (lst & W').
    one. cbn [fst]. apply (Nw lst _ _ m (s_head s) []); cbn; [exact W'|apply upd_same].
  - destruct W as (lst & W). eapply Nw; eassumption.
  - eapply Nu; exact E.
  - one. cbn [fst]. apply (Fu _ _ (s_head s)). cbn. apply upd_same.
  - eapply Fu; exact E.
  - one. cbn [fst]. apply Hu. cbn. apply upd_same.
  - eapply Hu; exact E.
Qed.

Lemma go_other : forall n s h t, t <> h -> s_th (go s (repeat (h, CForeach) n)) t = s_th s t.
Proof.
  induction n as [|n IH]; intros s h t Hne; [reflexivity|]. cbn [repeat]. rewrite go_cons, IH by exact Hne. apply step_other. exact Hne.
Qed.

(** The mutex can be freed without moving a thread that does not own it. *)
Lemma free_lock : forall s tr t, Inv cf s tr -> cs (s_th s t) = false ->
  exists sched, s_lock (go s sched) = None /\ s_th (go s sched) t = s_th s t.
Proof.
  intros s tr t I Hc. destruct (s_lock s) as [h|] eqn:El; [|exists []; split; [exact El|reflexivity]].
  assert (Hh : cs (s_th s h) = true) by (apply (i_lock _ _ _ I); exact El).
  assert (Hne : t <> h) by (intros ->; congruence).
  destruct (cs_release s tr h I Hh) as (n & F & _). exists (repeat (h, CForeach) n). split; [|apply go_other; exact Hne].
  destruct (go_inv s tr (repeat (h, CForeach) n) I) as (tr' & I'). destruct (s_lock (go s (repeat (h, CForeach) n))) as [h'|] eqn:El'; [|reflexivity].
  exfalso. apply (i_lock _ _ _ I') in El'. destruct (Nat.eq_dec h' h) as [->|Hne']; [congruence|].
  rewrite go_other in El' by exact Hne'. apply (i_lock _ _ _ I) in El'. congruence.
Qed.

Definition finishes (s : state) (t : nat) : Prop := exists sched, s_th (go s sched) t = Idle.

Lemma finishes_go : forall s t sched, finishes (go s sched) t -> finishes s t.
Proof. intros s t sched (x & H). exists (sched ++ x). rewrite go_app. exact H. Qed.
Lemma finishes_step : forall s t, finishes (fst (step cf s t CForeach)) t -> finishes s t.
Proof. intros s t (x & H). exists ((t, CForeach) :: x). rewrite go_cons. exact H. Qed.

Lemma can_finish : forall r s tr t, (rank (s_th s t) <= r)%nat -> Inv cf s tr -> finishes s t.
Proof.
  assert (Fw : forall lst s t p, chain (s_next s) p lst -> s_th s t = FWalk p -> finishes s t).
  { induction lst as [|q lst IH]; intros s t p Hc E; apply finishes_step; unfold step; rewrite E.
    - cbn in Hc. subst p. exists []. cbn. apply upd_same.
    - destruct Hc as (-> & Hc). cbn [fst]. apply (IH _ _ (s_next s q)); cbn; [exact Hc|apply upd_same]. }
  induction r as [|r IH]; intros s tr t Hr I.
  { exists []. destruct (s_th s t) eqn:E; cbn in Hr; try lia. exact E. }
  assert (Hcs : forall s tr, Inv cf s tr -> cs (s_th s t) = true -> (rank (s_th s t) <= S r)%nat -> finishes s t).
  { intros s0 tr0 I0 Hc Hr0. destruct (cs_release s0 tr0 t I0 Hc) as (n & _ & F).
    destruct (go_inv s0 tr0 (repeat (t, CForeach) n) I0) as (tr' & I'). apply (finishes_go s0 t (repeat (t, CForeach) n)).
    apply (IH _ tr' t); [lia|exact I']. }
  assert (Hlock : forall p', cs (s_th s t) = false -> cs p' = true -> (rank p' <= S r)%nat ->
    (forall s0, s_th s0 t = s_th s t -> fst (step cf s0 t CForeach) = acquire s0 t p') -> finishes s t).
  { intros p' Hc Hc' Hr' Hst. destruct (free_lock s tr t I Hc) as (sched & L & T).
    apply (finishes_go s t sched). apply finishes_step. destruct (go_inv s tr sched I) as (tr' & I').
    destruct (inv_step (go s sched) tr' t CForeach I') as (tr2 & I2). rewrite (Hst _ T) in *. unfold acquire in *. rewrite L in *.
    apply (Hcs _ tr2 I2); cbn; rewrite upd_same; assumption. }
  assert (Hstep : forall p', fst (step cf s t CForeach) = goto s t p' -> (rank p' <= r)%nat -> finishes s t).
  { intros p' Hst Hr'. apply finishes_step. destruct (inv_step s tr t CForeach I) as (tr2 & I2). rewrite Hst in *.
    apply (IH _ tr2 t); [cbn; rewrite upd_same; exact Hr'|exact I2]. }
  pose proof (walk_len s tr t I) as W.
  destruct (s_th s t) eqn:E; cbn [rank] in Hr; try (apply (Hcs s tr I); rewrite E; [reflexivity|cbn; lia]).
  - exists []. exact E.
  - eapply Hstep; [unfold step; rewrite E; reflexivity|]. destruct (s_level s c <? 0); cbn; lia.
  - eapply Hstep; [unfold step; rewrite E; reflexivity|]. destruct (env_level cf c <? 0); [destruct (s_level s 0%nat >=? 0)|]; cbn; lia.
  - eapply Hstep; [unfold step; rewrite E; reflexivity|]. cbn. lia.
  - apply (Hlock (Test c v k)); [reflexivity|reflexivity|cbn; lia|]. intros s0 E0. unfold step. rewrite E0. reflexivity.
  - eapply Hstep; [unfold step; rewrite E; reflexivity|]. cbn. lia.
  - apply finishes_step. exists []. unfold step. rewrite E. cbn. destruct k; cbn; apply upd_same.
  - apply (Hlock (TRead n l)); [reflexivity|reflexivity|cbn; lia|]. intros s0 E0. unfold step. rewrite E0. reflexivity.
  - apply (Hlock (NRead m)); [reflexivity|reflexivity|cbn; lia|]. intros s0 E0. unfold step. rewrite E0. reflexivity.
  - apply (Hlock FRead); [reflexivity|reflexivity|cbn; lia|]. intros s0 E0. unfold step. rewrite E0. reflexivity.
  - destruct W as (lst & W). apply (Fw lst s t p W E).
  - apply (Hlock (HSet f)); [reflexivity|reflexivity|cbn; lia|]. intros s0 E0. unfold step. rewrite E0. reflexivity.
Qed.
End Live.
