(** Threads that log to shared memory, and ulog_shd_init. *)
From Coq Require Import ZArith List Bool Arith Lia ZifyBool ZifyNat.
From Verif Require Import Bytes ShdLock ShdLockProofs.
Import ListNotations.
Open Scope Z_scope.

(** The texts a thread stored, oldest first. *)
Definition stored (w : ctrl * list thread) (i : nat) : list (list Z) :=
  map snd (filter (fun x => Nat.eqb (fst (fst x)) i) (g_samples (fst w))).
(** Nothing left to log and in no call. *)
Definition ended (w : ctrl * list thread) (i : nat) : Prop := exists h, nth_error (snd w) i = Some h /\ h_calls h = [] /\ h_todo h = [].

(** C114: whatever the order in which the threads run: the samples are numbered one by one modulo 2^16;
    each was logged by a thread, and each thread's are what it logged itself, in order, nothing left out
    or repeated, without what libshdata logs meanwhile; all of it once the thread ended. *)
Theorem C114_order : forall k progs sched, 0 <= k < 65536 -> let w := runs (begin k progs) sched in
  (forall n i k' t, nth_error (g_samples (fst w)) n = Some (i, k', t) -> k' = (k + Z.of_nat n) mod 2 ^ 16 /\ (i < length progs)%nat) /\
  (forall i p, nth_error progs i = Some p -> exists rest, map text p = stored w i ++ rest) /\
  (forall i p, nth_error progs i = Some p -> ended w i -> stored w i = map text p).
Proof.
  intros k progs sched K w. pose proof (runs_inv k progs sched _ (begin_inv k progs K)) as V. fold w in V.
  split; [exact (i_index _ _ _ V)|]. split.
  - intros i p P. destruct (nth_error (snd w) i) as [h|] eqn:H.
    + exists (pend h). symmetry. exact (i_pend _ _ _ V _ _ _ H P).
    + apply nth_error_None in H. rewrite (i_len _ _ _ V) in H. apply nth_error_None in H. congruence.
  - intros i p P (h & H & C & T). pose proof (i_pend _ _ _ V _ _ _ H P) as E. unfold pend in E. rewrite C, T in E. cbn in E. rewrite app_nil_r in E. exact E.
Qed.

(** No deadlock, also when libshdata logs while it is called: if every thread gets a turn in each round,
    all end. *)
Definition total (w : ctrl * list thread) : nat := list_sum (map togo (snd w)).
Lemma upd_sum {A} (f : A -> nat) : forall l n a b, nth_error l n = Some a -> (f b < f a)%nat -> (list_sum (map f (upd n b l)) < list_sum (map f l))%nat.
Proof. induction l; intros [|n] x y H L; cbn in *; try discriminate. - injection H as ->. lia. - specialize (IHl _ _ _ H L). unfold list_sum in *. lia. Qed.
Lemma turn_less w i : turn w i = w \/ (total (turn w i) < total w)%nat.
Proof.
  destruct w as (g, hs). unfold turn, total. cbn [fst snd]. destruct (nth_error hs i) as [h|] eqn:N; [|auto].
  destruct (step i g h) as [(g', h')|] eqn:E; [|auto]. right. cbn [snd]. eapply upd_sum; [exact N|]. eapply step_less. exact E.
Qed.
Lemma runs_le : forall r w, (total (runs w r) <= total w)%nat.
Proof. induction r as [|i r IH]; intros w; cbn; [lia|]. specialize (IH (turn w i)). destruct (turn_less w i) as [E|E]; [rewrite E in IH |- *|]; unfold runs in *; lia. Qed.
Lemma round_less k progs r w : inv k progs w -> forallb finished (snd w) = false -> (forall i, (i < length progs)%nat -> In i r) -> (total (runs w r) < total w)%nat.
Proof.
  intros V N R. destruct (some_step k progs w V N) as (i & h & H & S).
  assert (I : In i r). { apply R. rewrite <- (i_len _ _ _ V). apply nth_error_Some. congruence. }
  clear R. induction r as [|j r IH]; [destruct I|]. cbn. fold (runs (turn w j) r).
  destruct (turn_less w j) as [E|E]; [|pose proof (runs_le r (turn w j)); lia].
  rewrite E. destruct I as [<-|I]; [|apply IH; exact I]. exfalso.
  unfold turn in E. rewrite H in E. destruct (step j (fst w) h) as [(g', h')|] eqn:Es; [|contradiction].
  pose proof (step_less _ _ _ _ _ Es) as L. pose proof (upd_sum togo _ _ _ h' H L) as U. rewrite <- E in U at 2. cbn [snd] in U. lia.
Qed.
Lemma runs_app w a b : runs w (a ++ b) = runs (runs w a) b.
Proof. unfold runs. apply fold_left_app. Qed.
Lemma rounds_end k progs : forall rounds w, inv k progs w -> Forall (fun r => forall i, (i < length progs)%nat -> In i r) rounds ->
  (total w <= length rounds)%nat -> forallb finished (snd (runs w (concat rounds))) = true.
Proof.
  induction rounds as [|r rounds IH]; intros w V R L; cbn [concat].
  - destruct (forallb finished (snd w)) eqn:F; [exact F|]. exfalso.
    pose proof (round_less k progs (seq 0 (length progs)) w V F) as K. cbn in L. assert (X : (total w < 0)%nat); [|lia].
    eapply Nat.le_lt_trans; [|eapply Nat.lt_le_trans; [apply K; intros; apply in_seq; lia|lia]]. lia.
  - inversion R; subst. rewrite runs_app. pose proof (runs_inv k progs r w V) as V'.
    destruct (forallb finished (snd w)) eqn:F.
    + apply IH; [exact V'|assumption|]. cbn in L.
      assert (Z0 : total w = 0%nat).
      { unfold total. clear - F. induction (snd w) as [|h l IHl]; [reflexivity|]. cbn in F. apply andb_prop in F. destruct F as (F1 & F2).
        change (list_sum (map togo (h :: l))) with (togo h + list_sum (map togo l))%nat. rewrite IHl by exact F2. unfold finished in F1. unfold togo. destruct (h_calls h); [|discriminate]. destruct (h_todo h); [reflexivity|discriminate]. }
      pose proof (runs_le r w). lia.
    + apply IH; [exact V'|assumption|]. cbn in L. pose proof (round_less k progs r w V F H1). lia.
Qed.
Theorem C114_ends : forall k progs rounds, 0 <= k < 65536 ->
  Forall (fun r => forall i, (i < length progs)%nat -> In i r) rounds -> (total (begin k progs) <= length rounds)%nat ->
  forall i p, nth_error progs i = Some p -> ended (runs (begin k progs) (concat rounds)) i /\ stored (runs (begin k progs) (concat rounds)) i = map text p.
Proof.
  intros k progs rounds K R L i p P. pose proof (begin_inv k progs K) as V.
  pose proof (rounds_end k progs rounds _ V R L) as F. pose proof (runs_inv k progs (concat rounds) _ V) as V'.
  assert (E : ended (runs (begin k progs) (concat rounds)) i).
  { destruct (nth_error (snd (runs (begin k progs) (concat rounds))) i) as [h|] eqn:H.
    - exists h. split; [exact H|]. rewrite forallb_forall in F. specialize (F h (nth_error_In _ _ H)). unfold finished in F.
      destruct (h_calls h); [|discriminate]. destruct (h_todo h); [auto|discriminate].
    - apply nth_error_None in H. rewrite (i_len _ _ _ V') in H. apply nth_error_None in H. congruence. }
  split; [exact E|]. apply (C114_order k progs (concat rounds) K); assumption.
Qed.

(** Two threads, with messages of libshdata in between, the number wraps. *)
Definition progs1 : list (list msg) := [[Msg [1] [Msg [91] [] []] []; Msg [2] [] []]; [Msg [3] [] [Msg [92] [Msg [93] [] []] []]]].
Example C114_ex : let w := runs (begin 65534 progs1) (concat (repeat [0; 1; 0]%nat 40)) in
  g_samples (fst w) = [(0%nat, 65534, [1]); (1%nat, 65535, [3]); (0%nat, 0, [2])] /\ ended w 0 /\ ended w 1.
Proof. vm_compute. split; [reflexivity|]. split; eexists; eauto. Qed.
Example C114_ends_ex : (total (begin 65534 progs1) <= length (repeat [0; 1; 0]%nat 60))%nat /\
  Forall (fun r => forall i, (i < length progs1)%nat -> In i r) (repeat [0; 1; 0]%nat 60).
Proof. split; [vm_compute; lia|]. apply Forall_forall. intros r I. apply repeat_spec in I. subst r. intros [|[|i]] H; cbn in *; auto. lia. Qed.
(** In the middle of a call: the lock is held, the other thread waits. *)
Example C114_waits : let w := runs (begin 1 progs1) [0; 0; 0; 1; 1; 1]%nat in
  g_owner (fst w) = Some (0%nat, 1%nat) /\ g_samples (fst w) = [] /\ ~ ended w 1.
Proof. vm_compute. split; [reflexivity|]. split; [reflexivity|]. intros (h & H & C & T). injection H as <-. discriminate. Qed.

(** C115: ulog_shd_init returns 0 exactly when each step worked; then the section exists with its size
    and messages go to it; otherwise the error of the step that failed, and the writer is as before. *)
Theorem C115_init : forall w name n u, 0 <= w_attr w -> 0 <= w_type w -> 0 <= w_mutex w ->
  let '(r, u') := ulog_shd_init w name n u in
  (r = 0 <-> 0 <= w_create w /\ w_attr w = 0 /\ w_type w = 0 /\ w_mutex w = 0) /\
  (r = 0 -> u' = mkSetup (u_sections u ++ [(name, n)]) true (Some true) true true) /\
  (r <> 0 -> r < 0 /\ (r = w_create w \/ r = - w_attr w \/ r = - w_type w \/ r = - w_mutex w) /\
     u_writer u' = u_writer u /\ u_enabled u' = u_enabled u /\ u_mutex u' = u_mutex u).
Proof.
  intros w name n u A B C. unfold ulog_shd_init.
  destruct (Z.ltb_spec (w_create w) 0). { repeat split; intros; try lia; auto. }
  destruct (Z.eqb_spec (w_attr w) 0); cbn [negb]. 2:{ repeat split; intros; try lia; auto. }
  destruct (Z.eqb_spec (w_type w) 0); cbn [negb]. 2:{ repeat split; intros; try lia; auto. }
  destruct (Z.eqb_spec (w_mutex w) 0); cbn [negb]; repeat split; intros; try lia; auto.
Qed.
(** Whatever it was called with before, messages only go to a section that exists, under a recursive mutex. *)
Theorem C115_safe : forall calls, let u := fold_left (fun u '(w, name, n) => snd (ulog_shd_init w name n u)) calls setup0 in
  u_writer u = true -> u_sections u <> [] /\ u_mutex u = Some true /\ u_enabled u = true.
Proof.
  intros calls. cbn zeta.
  assert (G : forall l u, (u_writer u = true -> u_sections u <> [] /\ u_mutex u = Some true /\ u_enabled u = true) ->
    let u' := fold_left (fun u '(w, name, n) => snd (ulog_shd_init w name n u)) l u in
    u_writer u' = true -> u_sections u' <> [] /\ u_mutex u' = Some true /\ u_enabled u' = true).
  { induction l as [|((w, name), n) l IH]; intros u H; cbn [fold_left]; [exact H|]. apply IH.
    unfold ulog_shd_init. destruct (w_create w <? 0); [exact H|].
    destruct (negb (w_attr w =? 0)); [|destruct (negb (w_type w =? 0)); [|destruct (negb (w_mutex w =? 0))]]; cbn; intros W;
      try (destruct (H W) as (_ & H2)); (split; [destruct (u_sections u); discriminate|]); auto. }
  apply G. discriminate.
Qed.
(** A failure leaves the section it created. *)
Theorem C115_failure_refuted : exists w name n, fst (ulog_shd_init w name n setup0) < 0 /\ u_sections (snd (ulog_shd_init w name n setup0)) <> [].
Proof. exists (mkAnswers 0 0 0 11), [117], 10. vm_compute. split; [reflexivity|discriminate]. Qed.
Example C115_ex : ulog_shd_init (mkAnswers 0 0 0 0) [117] 10 setup0 = (0, mkSetup [([117], 10)] true (Some true) true true).
Proof. reflexivity. Qed.

Print Assumptions C114_order.
Print Assumptions C114_ends.
Print Assumptions C115_init.
Print Assumptions C115_safe.
Print Assumptions C115_failure_refuted.
