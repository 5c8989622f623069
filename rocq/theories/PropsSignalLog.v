(** Property C125: messages logged by signal handlers. *)
From Coq Require Import ZArith String List Bool Lia ZifyBool ZifyNat Arith.
From Verif Require Import Bytes Parse BytesProofs.
From Verif Require Cookies Writer.
From Verif Require Import SignalLog SignalLogProofs.
Import ListNotations.
Open Scope Z_scope.

(** ** Specification *)

Notation entry := (nat * call * Writer.answer)%type.
Definition who (x : entry) : nat := fst (fst x).
Definition what (x : entry) : call := snd (fst x).

(** States of executions in which the application installs no function that copies to stderr itself. *)
Definition reaches (cf : Cookies.cfg) (e : Writer.env) (s : state) : Prop :=
  exists sched tr, Forall (fun x => allowed (what x)) sched /\ run cf e init sched = (s, tr).

Definition idle (s : state) (h : nat) : Prop :=
  Writer.s_th (wri s) h = Writer.Idle /\ Cookies.s_th (reg s) h = Cookies.Idle.
Definition level (s : state) (c : nat) : Z := Cookies.s_level (reg s) c.
Definition severity (prio : Z) : Z := Z.land prio 7.
Definition registered (s : state) (c : nat) : Prop := 0 <= level s c.
Definition initialised (s : state) : Prop := Writer.s_writer (wri s) <> Writer.Init.

(** The handler [h] logs a text: nothing else is called by [h], and writev is not interrupted again. *)
Definition text (m : Writer.msg) : Prop := In 0 (Writer.m_buf m).
Definition logs (h c : nat) (prio : Z) (m : Writer.msg) (sched : list entry) : Prop :=
  forall x, In x sched -> who x = h -> what x = Log c prio m /\ Writer.a_intr (snd x) = false.
Definition turns (h : nat) (sched : list entry) : nat := length (filter (fun x => Nat.eqb (who x) h) sched).
(** The message was filtered out or written: the call is over. *)
Definition ended (h : nat) (tr : list event) : Prop :=
  (exists c prio, In (inl (Cookies.EvLog h c prio false)) tr) \/ In (inr (Writer.EvRet h)) tr.

(** Inside ulog_set_log_device. *)
Definition changing (p : Writer.pc) : bool :=
  match p with
  | Writer.DLock _ | Writer.DDev _ | Writer.DTest | Writer.DClose | Writer.DFd | Writer.DWr | Writer.DUnlock _ => true
  | _ => false
  end.
(** None of the threads that move changes the device. *)
Definition calm (s : state) (sched : list entry) : Prop :=
  forall x, In x sched -> allowed (what x) /\ (forall n, what x <> Wri (Writer.WDev n)) /\ changing (Writer.s_th (wri s) (who x)) = false.

(** ** Lemmas *)

#[local] Arguments Writer.is_binary : simpl never.
#[local] Arguments Writer.stderr_text : simpl never.

Lemma turns_cons h t o a l : turns h ((t, o, a) :: l) = ((if Nat.eqb t h then 1 else 0) + turns h l)%nat.
Proof. unfold turns. cbn [filter]. change (who (t, o, a)) with t. now destruct (Nat.eqb t h). Qed.

Lemma inv_init : Inv init.
Proof. constructor; cbn; intros; try discriminate; try reflexivity; auto. Qed.

Lemma run_inv cf e : forall sched s s' tr, Inv s -> Forall (fun x => allowed (what x)) sched -> run cf e s sched = (s', tr) -> Inv s'.
Proof.
  induction sched as [|[[t o] a] l IH]; cbn; intros s s' tr I F E; [now injection E as <- <-|].
  inversion F as [|? ? A B]; subst. destruct (step cf e s t o a) as [s1 e1] eqn:X. destruct (run cf e s1 l) as [s2 e2] eqn:Y.
  injection E as <- _. eapply IH; [|exact B|exact Y]. eapply step_inv; [exact I|exact A|exact X].
Qed.
Lemma reaches_inv cf e s : reaches cf e s -> Inv s.
Proof. intros (sched & tr & F & E). eapply run_inv; [exact inv_init|exact F|exact E]. Qed.

(** What a step of another thread leaves alone. *)
Lemma step_other cf e s t o a s' ev h : step cf e s t o a = (s', ev) -> h <> t ->
  Writer.s_th (wri s') h = Writer.s_th (wri s) h /\ Cookies.s_th (reg s') h = Cookies.s_th (reg s) h /\ pend s' h = pend s h.
Proof.
  intros E N.
  assert (SR : forall s ro s1 e1, step_r cf s t ro = (s1, e1) ->
    Writer.s_th (wri s1) h = Writer.s_th (wri s) h /\ Cookies.s_th (reg s1) h = Cookies.s_th (reg s) h /\ pend s1 h = pend s h).
  { clear - N. intros s ro s1 e1. unfold step_r. destruct (Cookies.step cf (reg s) t ro) as [r l] eqn:X. intros E. injection E as <- _. cbn.
    rewrite (step_r_th _ _ _ _ _ _ X h N). auto. }
  assert (SW : forall s wo s1 e1, step_w e s t wo a = (s1, e1) ->
    Writer.s_th (wri s1) h = Writer.s_th (wri s) h /\ Cookies.s_th (reg s1) h = Cookies.s_th (reg s) h /\ pend s1 h = pend s h).
  { clear - N. intros s wo s1 e1. unfold step_w. destruct (Writer.step e (wri s) t wo a) as [r l] eqn:X. intros E. injection E as <- _. cbn.
    rewrite (step_w_th _ _ _ _ _ _ _ X h N). auto. }
  unfold step in E. destruct (Writer.s_th (wri s) t).
  { destruct (Cookies.s_th (reg s) t).
    { destruct o.
      - destruct (SR _ _ _ _ E) as (A & B & C). cbn in *. rewrite upd_other in C by exact N. auto.
      - exact (SW _ _ _ _ E).
      - destruct (SR _ _ _ _ E) as (A & B & C). cbn in *. rewrite upd_other in C by exact N. auto. }
    all: destruct (step_r cf s t Cookies.CForeach) as [s1 e1] eqn:X; destruct (SR _ _ _ _ X) as (A & B & C);
      destruct (decided e1); [|injection E as <- <-; auto];
      destruct (pend s t) as [m1|]; [|injection E as <- <-; auto];
      destruct (step_w e s1 t (Writer.WLog m1) a) as [s2 e2] eqn:Y; injection E as <- <-;
      destruct (SW _ _ _ _ Y) as (A' & B' & C'); rewrite A', B', C'; auto. }
  all: exact (SW _ _ _ _ E).
Qed.

(** Case analysis of a step into the steps of the two sides. *)
Lemma step_cases cf e s t o a s' ev : Inv s -> step cf e s t o a = (s', ev) ->
  (exists ro p, step_r cf (mkState (reg s) (wri s) p) t ro = (s', ev)) \/
  (exists wo, step_w e s t wo a = (s', ev) /\ (Writer.s_th (wri s) t = Writer.Idle -> o = Wri wo)) \/
  (exists s1 e1 e2 m, step_r cf s t Cookies.CForeach = (s1, e1) /\ step_w e s1 t (Writer.WLog m) a = (s', e2) /\ ev = e1 ++ e2 /\
     Writer.s_th (wri s) t = Writer.Idle).
Proof.
  intros I E. destruct s as [r w p]. unfold step in E. cbn in *. destruct (Writer.s_th w t) eqn:TW.
  { destruct (Cookies.s_th r t) eqn:TR.
    { destruct o.
      - left. eauto.
      - right; left. eauto.
      - left. eauto. }
    all: destruct (step_r cf (mkState r w p) t Cookies.CForeach) as [s1 e1] eqn:X;
      destruct (decided e1) eqn:D; [|injection E as <- <-; left; eauto];
      destruct (p t) as [m1|]; [|injection E as <- <-; left; eauto];
      destruct (step_w e s1 t (Writer.WLog m1) a) as [s2 e2] eqn:Y; injection E as <- <-; right; right; exists s1, e1, e2, m1; auto. }
  all: right; left; eexists; split; [exact E|discriminate].
Qed.

Lemma step_r_level cf s t o s' ev : Inv s -> step_r cf s t o = (s', ev) -> forall c, 0 <= level s c -> 0 <= level s' c.
Proof.
  intros I E. unfold step_r in E. destruct (Cookies.step cf (reg s) t o) as [r l] eqn:X. injection E as <- _.
  exact (proj1 (step_r_facts _ _ _ _ _ _ X (i_pr _ I t) (i_hr _ I t))).
Qed.
Lemma step_w_level e s t o a s' ev : step_w e s t o a = (s', ev) -> reg s' = share_w (reg s) (wri s').
Proof. unfold step_w. destruct (Writer.step e (wri s) t o a). intros E. injection E as <- _. reflexivity. Qed.
Lemma step_r_wri cf s t o s' ev : step_r cf s t o = (s', ev) -> wri s' = share_r (wri s) (reg s').
Proof. unfold step_r. destruct (Cookies.step cf (reg s) t o). intros E. injection E as <- _. reflexivity. Qed.

Lemma step_level cf e s t o a s' ev : Inv s -> step cf e s t o a = (s', ev) -> forall c, 0 <= level s c -> 0 <= level s' c.
Proof.
  intros I E c L. destruct (step_cases _ _ _ _ _ _ _ _ I E) as [(ro & p & X)|[(wo & X & _)|(s1 & e1 & e2 & m & X & Y & _)]].
  - refine (step_r_level _ _ _ _ _ _ _ X c L). apply inv_pend, I.
  - unfold level. rewrite (step_w_level _ _ _ _ _ _ _ X). exact L.
  - unfold level. rewrite (step_w_level _ _ _ _ _ _ _ Y). exact (step_r_level _ _ _ _ _ _ I X c L).
Qed.

(** A step of a thread that does not change the device leaves an initialised output function. *)
Lemma wstep_initialised e w t o a w' ev : Writer.step e w t o a = (w', ev) -> place_w w (Writer.s_th w t) ->
  changing (Writer.s_th w t) = false -> Writer.s_writer w <> Writer.Init -> Writer.s_writer w' <> Writer.Init.
Proof.
  intros E P C W. unfold Writer.step in E. destruct (Writer.s_th w t) eqn:T; cbn in E, P, C; try discriminate;
    repeat match type of E with
    | context [match ?x with _ => _ end] => destruct x eqn:?; cbn in E
    end; injection E as <- <-; cbn; try assumption; intros ->; cbn in P; tauto.
Qed.
Lemma wstep_changing e w t o a w' ev : Writer.step e w t o a = (w', ev) -> (forall n, Writer.s_th w t = Writer.Idle -> o <> Writer.WDev n) ->
  changing (Writer.s_th w t) = false -> changing (Writer.s_th w' t) = false.
Proof.
  intros E P C. unfold Writer.step in E. destruct (Writer.s_th w t) eqn:T; cbn in E, P, C; try discriminate;
    repeat match type of E with
    | context [match ?x with _ => _ end] => destruct x eqn:?; cbn in E
    end; injection E as <- <-; cbn; rewrite ?upd_same_w, ?T; cbn; try reflexivity; exfalso; eapply P; reflexivity.
Qed.

Lemma step_calm cf e s t o a s' ev : Inv s -> step cf e s t o a = (s', ev) -> allowed o -> (forall n, o <> Wri (Writer.WDev n)) ->
  changing (Writer.s_th (wri s) t) = false ->
  changing (Writer.s_th (wri s') t) = false /\ (initialised s -> initialised s').
Proof.
  intros I E A D C. unfold initialised.
  destruct (step_cases _ _ _ _ _ _ _ _ I E) as [(ro & p & X)|[(wo & X & ID)|(s1 & e1 & e2 & m & X & Y & _ & ID)]].
  - rewrite (step_r_wri _ _ _ _ _ _ X). cbn. auto.
  - unfold step_w in X. destruct (Writer.step e (wri s) t wo a) as [w' l] eqn:Z. injection X as <- _. cbn. split.
    + eapply wstep_changing; [exact Z| |exact C]. intros n TI ->. exact (D n (ID TI)).
    + eapply wstep_initialised; [exact Z|apply (i_pw _ I)|exact C].
  - unfold step_w in Y. destruct (Writer.step e (wri s1) t (Writer.WLog m) a) as [w' l] eqn:Z. injection Y as <- _. cbn.
    assert (TI : Writer.s_th (wri s1) t = Writer.Idle) by (rewrite (step_r_wri _ _ _ _ _ _ X); cbn; exact ID).
    split.
    + eapply wstep_changing; [exact Z|discriminate|]. now rewrite TI.
    + intros IN. eapply wstep_initialised; [exact Z|rewrite TI; exact Logic.I|now rewrite TI|].
      rewrite (step_r_wri _ _ _ _ _ _ X). exact IN.
Qed.

(** Where the handler is, and how many of its turns remain. *)
Definition shape (s : state) (h c : nat) (prio : Z) (m : Writer.msg) (n : nat) : Prop :=
  (n = 7%nat /\ pend s h = Some m /\ Writer.s_th (wri s) h = Writer.Idle /\ Cookies.s_th (reg s) h = Cookies.Check c (Cookies.KLog prio)) \/
  (n = 6%nat /\ pend s h = Some m /\ Writer.s_th (wri s) h = Writer.Idle /\ Cookies.s_th (reg s) h = Cookies.After c (Cookies.KLog prio)) \/
  (n = 5%nat /\ Writer.s_th (wri s) h = Writer.LRead [] m) \/
  (n = 4%nat /\ exists cl, Writer.s_th (wri s) h = Writer.LRun (Writer.Stderr cl) [] m /\ Writer.s_writer2 (wri s) <> None) \/
  (n = 3%nat /\ exists x cols, Writer.s_th (wri s) h = Writer.LRun x cols m /\ plain x /\ (length cols <= 1)%nat) \/
  (n = 2%nat /\ exists cl, Writer.s_th (wri s) h = Writer.LPrint [cl] m) \/
  (n = 1%nat /\ Writer.s_th (wri s) h = Writer.LPrint [] m).

Lemma step_writer2 cf e s t o a s' ev : Inv s -> allowed o -> step cf e s t o a = (s', ev) ->
  Writer.s_writer2 (wri s) <> None -> Writer.s_writer2 (wri s') <> None.
Proof.
  intros I A E W.
  assert (SW : forall s wo s1 e1, Inv s -> match wo with Writer.WSet x => plain x | _ => True end -> step_w e s t wo a = (s1, e1) ->
    Writer.s_writer2 (wri s) <> None -> Writer.s_writer2 (wri s1) <> None).
  { clear. intros s wo s1 e1 I A X. unfold step_w in X. destruct (Writer.step e (wri s) t wo a) as [w' l] eqn:Z. injection X as <- _. cbn.
    apply (step_w_facts _ _ _ _ _ _ _ Z A (i_pw _ I t)); [|exact (i_w _ I)|exact (i_w2 _ I)].
    rewrite (i_share _ I). apply (i_hw _ I). }
  destruct (step_cases _ _ _ _ _ _ _ _ I E) as [(ro & p & X)|[(wo & X & ID)|(s1 & e1 & e2 & m & X & Y & _ & ID)]].
  - rewrite (step_r_wri _ _ _ _ _ _ X). exact W.
  - destruct (Writer.s_th (wri s) t) eqn:T.
    { refine (SW _ _ _ _ I _ X W). rewrite (ID eq_refl) in A. destruct wo; auto. }
    all: assert (X' : step_w e s t (Writer.WReplay 0 0) a = (s', ev)) by (unfold step_w, Writer.step in *; rewrite T in *; exact X);
      exact (SW _ (Writer.WReplay 0 0) _ _ I Logic.I X' W).
  - refine (SW _ (Writer.WLog m) _ _ _ Logic.I Y _).
    + eapply step_r_inv; [exact I|exact X|exact ID].
    + rewrite (step_r_wri _ _ _ _ _ _ X). exact W.
Qed.

Lemma shape_other cf e s t o a s' ev h c prio m n : Inv s -> allowed o -> step cf e s t o a = (s', ev) -> h <> t ->
  shape s h c prio m n -> shape s' h c prio m n.
Proof.
  intros I A E N SH. destruct (step_other _ _ _ _ _ _ _ _ h E N) as (X & Y & Z). unfold shape in *. rewrite X, Y, Z.
  destruct SH as [SH|[SH|[SH|[SH|SH]]]]; auto.
  right; right; right; left. destruct SH as (-> & cl & T & W). split; [reflexivity|]. exists cl. split; [exact T|].
  eapply step_writer2; eauto.
Qed.

Lemma decided_in l t c prio : In (inl (Cookies.EvLog t c prio true)) l -> decided l = true.
Proof. intros J. unfold decided. apply existsb_exists. eexists. split; [exact J|reflexivity]. Qed.

Lemma shape_step cf e s h c prio m a s' ev n o : Inv s -> registered s c -> initialised s -> text m -> Writer.a_intr a = false ->
  step cf e s h o a = (s', ev) -> shape s h c prio m n -> ended h ev \/ exists n', (n' < n)%nat /\ shape s' h c prio m n'.
Proof.
  intros I RG IN TX AI E SH.
  destruct SH as [(-> & P & TW & TR)|[(-> & P & TW & TR)|[(-> & TW)|[(-> & cl & TW & W2)|[(-> & x & cols & TW & PL & LE)|[(-> & cl & TW)|(-> & TW)]]]]]];
    unfold step in E; rewrite ?TW, ?TR in E; unfold step_r, step_w, Cookies.step, Writer.step in E; cbn in E; rewrite ?TW, ?TR in E; cbn in E.
  - unfold registered, level in RG. destruct (Cookies.s_level (reg s) c <? 0) eqn:L; [lia|]. injection E as <- <-.
    right. exists 6%nat. split; [lia|]. right; left. cbn. now rewrite upd_same.
  - rewrite orb_false_r in E. destruct (Z.land prio PRIO_LEVEL_MASK <=? Cookies.s_level (reg s) c) eqn:L.
    + rewrite P in E. cbn in E. rewrite TW in E. cbn in E. injection E as <- <-. right. exists 5%nat. split; [lia|].
      right; right; left. cbn. now rewrite upd_same_w.
    + injection E as <- <-. left. left. exists c, prio. now left.
  - injection E as <- <-. right. destruct (Writer.s_writer (wri s)) as [| | |cl|f] eqn:W; [congruence| | | |].
    + exists 3%nat. split; [lia|]. do 4 right. left. split; [reflexivity|]. exists Writer.Null, []. cbn. rewrite upd_same_w. cbn. auto.
    + exists 3%nat. split; [lia|]. do 4 right. left. split; [reflexivity|]. exists Writer.Kernel, []. cbn. rewrite upd_same_w. cbn. auto.
    + exists 4%nat. split; [lia|]. do 3 right. left. split; [reflexivity|]. exists cl. cbn. rewrite upd_same_w. split; [reflexivity|].
      destruct (i_w _ I) as [Q|Q]; rewrite W in Q; [discriminate|exact Q].
    + exists 3%nat. split; [lia|]. do 4 right. left. split; [reflexivity|]. exists (Writer.User f), []. cbn. rewrite upd_same_w. cbn. auto.
  - destruct (Writer.s_writer2 (wri s)) as [x|] eqn:W; [|congruence]. injection E as <- <-. right. exists 3%nat. split; [lia|].
    do 4 right. left. split; [reflexivity|]. exists x, [cl]. cbn. rewrite upd_same_w. split; [reflexivity|]. split; [|auto]. now apply (i_w2 _ I).
  - assert (Q : s' = mkState (share_w (reg s) (Writer.goto (wri s) h (Writer.LPrint cols m))) (Writer.goto (wri s) h (Writer.LPrint cols m)) (pend s)).
    { destruct x; cbn in PL; try contradiction; rewrite ?AI in E; cbn in E; now injection E as <- <-. }
    subst s'. right. destruct cols as [|cl [|? ?]]; [| |cbn in LE; lia].
    + exists 1%nat. split; [lia|]. do 6 right. split; [reflexivity|]. cbn. now rewrite upd_same_w.
    + exists 2%nat. split; [lia|]. do 5 right. left. split; [reflexivity|]. exists cl. cbn. now rewrite upd_same_w.
  - right. exists 1%nat. split; [lia|]. do 6 right. split; [reflexivity|].
    destruct (Writer.is_binary (Writer.m_prio m)); cbn in E; [injection E as <- <-; cbn; now rewrite upd_same_w|].
    unfold Writer.stderr_text in E. assert (HN : Writer.has_nul (Writer.m_buf m) = true).
    { unfold Writer.has_nul. apply existsb_exists. exists 0. split; [exact TX|reflexivity]. }
    rewrite HN in E. cbn in E. injection E as <- <-. cbn. now rewrite upd_same_w.
  - injection E as <- <-. left. right. cbn. auto.
Qed.

Lemma ended_app h a b : ended h a \/ ended h b -> ended h (a ++ b).
Proof.
  unfold ended. intros [[(c & p & J)|J]|[(c & p & J)|J]].
  all: first [left; exists c, p; apply in_or_app; tauto | right; apply in_or_app; tauto].
Qed.

Lemma calm_step cf e s t o a s' ev l : Inv s -> step cf e s t o a = (s', ev) -> calm s ((t, o, a) :: l) -> calm s' l.
Proof.
  intros I E C x J. destruct (C (t, o, a) (or_introl eq_refl)) as (A & D & CH). destruct (C x (or_intror J)) as (A' & D' & CH').
  split; [exact A'|]. split; [exact D'|]. destruct (Nat.eq_dec (who x) t) as [Q|N].
  - rewrite Q. eapply step_calm; eauto.
  - rewrite (proj1 (step_other _ _ _ _ _ _ _ _ _ E N)). exact CH'.
Qed.

Lemma shape_run cf e h c prio m : forall sched n s s' tr, Inv s -> registered s c -> initialised s -> text m -> calm s sched ->
  logs h c prio m sched -> shape s h c prio m n -> run cf e s sched = (s', tr) -> (n <= turns h sched)%nat -> ended h tr.
Proof.
  induction sched as [|[[t o] a] l IH]; intros n s s' tr I RG IN TX C LG SH E LE.
  - cbn in LE. exfalso. unfold turns in LE. cbn in LE.
    destruct SH as [[-> _]|[[-> _]|[[-> _]|[[-> _]|[[-> _]|[[-> _]|[-> _]]]]]]]; lia.
  - cbn in E. destruct (step cf e s t o a) as [s1 e1] eqn:X. destruct (run cf e s1 l) as [s2 e2] eqn:Y. injection E as _ <-.
    destruct (C (t, o, a) (or_introl eq_refl)) as (A & D & CH). cbn in A, D, CH.
    pose proof (step_inv _ _ _ _ _ _ _ _ I A X) as I1.
    assert (RG1 : registered s1 c) by exact (step_level _ _ _ _ _ _ _ _ I X c RG).
    assert (IN1 : initialised s1) by exact (proj2 (step_calm _ _ _ _ _ _ _ _ I X A D CH) IN).
    pose proof (calm_step _ _ _ _ _ _ _ _ _ I X C) as C1.
    assert (LG1 : logs h c prio m l) by (intros x J; apply LG; now right).
    apply ended_app. destruct (Nat.eq_dec h t) as [<-|N].
    + destruct (LG (h, o, a) (or_introl eq_refl) eq_refl) as [_ AI].
      destruct (shape_step _ _ _ _ _ _ _ _ _ _ _ _ I RG IN TX AI X SH) as [EN|(n' & LT & SH')]; [now left|right].
      eapply (IH n'); eauto. rewrite turns_cons, Nat.eqb_refl in LE. lia.
    + right. pose proof (shape_other _ _ _ _ _ _ _ _ _ _ _ _ _ I A X N SH) as SH'.
      eapply (IH n); eauto. rewrite turns_cons in LE.
      destruct (Nat.eqb_spec t h); [congruence|]. exact LE.
Qed.

(** The handler's first turn. *)
Lemma start_shape cf e s h c prio m a s' ev : idle s h -> step cf e s h (Log c prio m) a = (s', ev) -> shape s' h c prio m 7.
Proof.
  intros [TW TR] E. unfold step in E. rewrite TW, TR in E. unfold step_r, Cookies.step in E. cbn in E. rewrite TR in E.
  injection E as <- <-. left. cbn. rewrite !upd_same. auto.
Qed.

(** ** C125 *)

(** A handler that logs with a tag in use, the output having been initialised, is done in eight
    turns of its own, wherever the thread it interrupts was (it may hold the lock) and whatever the
    other threads do meanwhile, except changing the device. *)
Theorem C125_ready_partial : forall cf e s h c prio m sched s' tr, reaches cf e s -> idle s h -> registered s c -> initialised s ->
  text m -> calm s sched -> logs h c prio m sched -> run cf e s sched = (s', tr) -> (8 <= turns h sched)%nat -> ended h tr.
Proof.
  intros cf e s h c prio m sched s' tr R ID RG IN TX C LG E LE.
  pose proof (reaches_inv _ _ _ R) as I. clear R. revert s s' tr I ID RG IN C E.
  induction sched as [|[[t o] a] l IH]; intros s s' tr I ID RG IN C E; [cbn in LE; lia|].
  cbn in E. destruct (step cf e s t o a) as [s1 e1] eqn:X. destruct (run cf e s1 l) as [s2 e2] eqn:Y. injection E as _ <-.
  destruct (C (t, o, a) (or_introl eq_refl)) as (A & D & CH). cbn in A, D, CH.
  pose proof (step_inv _ _ _ _ _ _ _ _ I A X) as I1.
  assert (RG1 : registered s1 c) by exact (step_level _ _ _ _ _ _ _ _ I X c RG).
  assert (IN1 : initialised s1) by exact (proj2 (step_calm _ _ _ _ _ _ _ _ I X A D CH) IN).
  pose proof (calm_step _ _ _ _ _ _ _ _ _ I X C) as C1.
  assert (LG1 : logs h c prio m l) by (intros x J; apply LG; now right).
  apply ended_app; right. rewrite turns_cons in LE.
  destruct (Nat.eqb_spec t h) as [Q|N].
  - subst t. destruct (LG (h, o, a) (or_introl eq_refl) eq_refl) as [O _]. cbn in O. subst o.
    pose proof (start_shape _ _ _ _ _ _ _ _ _ _ ID X) as SH. eapply (shape_run _ _ _ _ _ _ l 7); eauto. cbn in LE. lia.
  - assert (N' : h <> t) by congruence. eapply IH; eauto. destruct (step_other _ _ _ _ _ _ _ _ h X N') as (Q1 & Q2 & _). unfold idle. rewrite Q1, Q2. exact ID.
Qed.
Print Assumptions C125_ready_partial.

(** The handler alone. *)
Definition fine_r (c : nat) (prio : Z) (p : Cookies.pc) : Prop :=
  match p with
  | Cookies.Check d k | Cookies.Env d k | Cookies.Env2 d k | Cookies.Lock d _ k | Cookies.Test d _ k | Cookies.SetNext d _ k
  | Cookies.SetHead d _ k | Cookies.SetLvl d _ k | Cookies.RdHook d k | Cookies.Unlock d _ k | Cookies.Hook d _ k | Cookies.After d k =>
      d = c /\ k = Cookies.KLog prio
  | _ => False
  end.
Definition rank_r (p : Cookies.pc) : nat :=
  match p with
  | Cookies.Check _ _ => 40 | Cookies.Env _ _ => 39 | Cookies.Env2 _ _ => 38 | Cookies.Lock _ _ _ => 37 | Cookies.Test _ _ _ => 36
  | Cookies.SetNext _ _ _ => 35 | Cookies.SetHead _ _ _ => 34 | Cookies.SetLvl _ _ _ => 33 | Cookies.RdHook _ _ => 32
  | Cookies.Unlock _ _ _ => 31 | Cookies.Hook _ _ _ => 30 | _ => 29
  end%nat.
Definition fine_w (w : Writer.state) (m : Writer.msg) (p : Writer.pc) : Prop :=
  match p with
  | Writer.LRead cols m' => cols = [] /\ m' = m
  | Writer.LRun x cols m' => m' = m /\ (length cols <= 1)%nat /\ (cols <> [] -> plain x) /\ (forall cl, x = Writer.Stderr cl -> Writer.s_writer2 w <> None)
  | Writer.LPrint cols m' => m' = m /\ (length cols <= 1)%nat
  | Writer.ILock k | Writer.ITest k | Writer.IOpen k | Writer.IStat k | Writer.IClose k | Writer.IFd k | Writer.IWriter k
  | Writer.IW2 _ k | Writer.IW1 _ k => k = Writer.KLog [] m
  | Writer.IUnlock cols m' => cols = [] /\ m' = m /\ Writer.s_writer w <> Writer.Init
  | _ => False
  end.
Definition rank_w (w : Writer.state) (p : Writer.pc) : nat :=
  match p with
  | Writer.LRead _ _ => if Writer.is_init (Writer.s_writer w) then 28 else 13
  | Writer.LRun Writer.Init _ _ => 27
  | Writer.LRun (Writer.Stderr _) _ _ => 12 | Writer.LRun _ _ _ => 11
  | Writer.LPrint cols _ => 1 + length cols
  | Writer.ILock _ => 26 | Writer.ITest _ => 25 | Writer.IOpen _ => 24 | Writer.IStat _ => 23 | Writer.IClose _ => 22 | Writer.IFd _ => 21
  | Writer.IWriter _ => 20 | Writer.IW2 _ _ => 19 | Writer.IW1 _ _ => 18 | Writer.IUnlock _ _ => 17
  | _ => 0
  end%nat.
Definition mine (s : state) (h : nat) : option nat :=
  if hold_r (Cookies.s_th (reg s) h) || hold_w (Writer.s_th (wri s) h) then Some h else None.
(** The handler is inside its message, with [n] turns to go, and nobody else holds the lock. *)
Definition under (s : state) (h c : nat) (prio : Z) (m : Writer.msg) (n : nat) : Prop :=
  lock s = mine s h /\
  ((Writer.s_th (wri s) h = Writer.Idle /\ pend s h = Some m /\ fine_r c prio (Cookies.s_th (reg s) h) /\ n = rank_r (Cookies.s_th (reg s) h)) \/
   (Cookies.s_th (reg s) h = Cookies.Idle /\ fine_w (wri s) m (Writer.s_th (wri s) h) /\ n = rank_w (wri s) (Writer.s_th (wri s) h))).

Lemma under_step cf e s h c prio m a s' ev n o : Inv s -> text m -> Writer.a_intr a = false ->
  step cf e s h o a = (s', ev) -> under s h c prio m n -> ended h ev \/ exists n', (n' < n)%nat /\ under s' h c prio m n'.
Proof.
  intros I TX AI E [LK [(TW & P & FR & ->)|(TR & FW & ->)]].
  - pose proof (i_pr _ I h) as PL. destruct s as [r w p]. unfold mine, lock in LK. cbn [reg wri pend] in *.
    pose proof (i_share _ I) as SHR. unfold lock in SHR. cbn [reg wri] in SHR.
    unfold step in E. cbn [reg wri pend] in E. rewrite TW in E, LK. cbn [hold_w] in LK.
    destruct (Cookies.s_th r h) as [|d k|d k|d k|d v k|d v k|d v k|d v k|d v k|d k|d hk k|d hk k|d k| | | | | | | | | | | | | | |] eqn:TR; try contradiction FR;
      destruct FR as [-> ->]; unfold step_r, Cookies.step in E; cbn [reg wri pend] in E; rewrite TR in E.
    all: cbn in LK.
    all: try (unfold Cookies.acquire in E; rewrite LK in E).
    1-11: cbn in E; repeat match type of E with
      | context [match ?q with Some _ => _ | None => _ end] => is_var q; destruct q; cbn in E
      | context [if ?b then _ else _] => destruct b eqn:?; cbn in E
      end; injection E as <- <-; right; eexists; (split; [|split; [|left; split; [|split; [|split; [|reflexivity]]]]]);
      unfold mine, lock; cbn; rewrite ?upd_same, ?TW; cbn; auto; lia.
    unfold Cookies.after in E. cbn [map decided existsb] in E.
    destruct (Z.land prio PRIO_LEVEL_MASK <=? Cookies.s_level r c) eqn:L; cbn in E.
    + rewrite P in E. unfold step_w, Writer.step in E. cbn in E. rewrite TW in E. injection E as <- <-. right. eexists.
      split; [|split; [|right; split; [|split; [|reflexivity]]]]; unfold mine, lock; cbn; rewrite ?upd_same, ?upd_same_w; cbn; auto.
      destruct (Writer.is_init (Writer.s_writer w)); lia.
    + injection E as <- <-. left. left. exists c, prio. now left.
  - pose proof (i_pw _ I h) as PL. pose proof (i_w _ I) as WOK. pose proof (i_w2 _ I) as W2OK. pose proof (i_share _ I) as SHR.
    destruct s as [r w p]. unfold mine, lock in *. cbn [reg wri pend] in *. rewrite TR in LK. cbn [hold_r orb] in LK.
    unfold step in E. cbn [reg wri pend] in E. 
    destruct (Writer.s_th w h) as [|cols m'|x cols m'|cols m'|k|k|k|k|k|k|k|x k|x k|cols m'| | | | | | | | | | | | | |] eqn:TW; try contradiction FW;
      unfold step_w, Writer.step in E; cbn [reg wri pend] in E; rewrite TW in E; cbn in LK, FW, PL; rewrite <- SHR in LK.
    + destruct FW as [-> ->]. cbn in E. injection E as <- <-. right. eexists.
      split; [|split; [|right; split; [|split; [|reflexivity]]]]; unfold mine, lock; cbn; rewrite ?upd_same_w, ?TR; cbn; auto.
      * destruct (Writer.s_writer w); cbn; lia.
      * split; [reflexivity|]. split; [lia|]. split; [congruence|]. intros cl Q. rewrite Q in WOK. destruct WOK as [X|X]; [discriminate|exact X].
    + destruct FW as (-> & LE & PC & SD). destruct x as [| | |cl|f]; cbn in E; rewrite ?AI in E.
      * injection E as <- <-. right. eexists. destruct cols as [|? ?]; [|exfalso; apply (PC ltac:(discriminate))].
        split; [|split; [|right; split; [|split; [|reflexivity]]]]; unfold mine, lock; cbn; rewrite ?upd_same_w, ?TR; cbn; auto.
      * injection E as <- <-. right. eexists.
        split; [|split; [|right; split; [|split; [|reflexivity]]]]; unfold mine, lock; cbn; rewrite ?upd_same_w, ?TR; cbn; auto. lia.
      * injection E as <- <-. right. eexists.
        split; [|split; [|right; split; [|split; [|reflexivity]]]]; unfold mine, lock; cbn; rewrite ?upd_same_w, ?TR; cbn; auto. lia.
      * specialize (SD cl eq_refl). destruct (Writer.s_writer2 w) as [x|] eqn:W2; [|congruence]. injection E as <- <-.
        destruct cols as [|? ?]; [|exfalso; apply (PC ltac:(discriminate))]. specialize (W2OK x eq_refl). right. eexists.
        split; [|split; [|right; split; [|split; [|reflexivity]]]]; unfold mine, lock; cbn; rewrite ?upd_same_w, ?TR; cbn; auto.
        { destruct x; cbn in W2OK; try contradiction; lia. }
        split; [reflexivity|]. split; [lia|]. split; [intros _; exact W2OK|]. intros c0 ->. contradiction W2OK.
      * injection E as <- <-. right. eexists.
        split; [|split; [|right; split; [|split; [|reflexivity]]]]; unfold mine, lock; cbn; rewrite ?upd_same_w, ?TR; cbn; auto. lia.
    + destruct FW as [-> LE]. destruct cols as [|cl cols]; [injection E as <- <-; left; right; cbn; auto|].
      assert (E' : s' = mkState (share_w r (Writer.goto w h (Writer.LPrint cols m))) (Writer.goto w h (Writer.LPrint cols m)) p).
      { destruct (Writer.is_binary (Writer.m_prio m)); [now injection E as <- <-|].
        unfold Writer.stderr_text in E. assert (HN : Writer.has_nul (Writer.m_buf m) = true).
        { unfold Writer.has_nul. apply existsb_exists. exists 0. split; [exact TX|reflexivity]. }
        rewrite HN in E. cbn in E. now injection E as <- <-. }
      subst s'. right. eexists. cbn in LE.
      split; [|split; [|right; split; [|split; [|reflexivity]]]]; unfold mine, lock; cbn; rewrite ?upd_same_w, ?TR; cbn; auto.
      split; [reflexivity|lia].
    + subst k. rewrite LK in E. cbn in E. injection E as <- <-. right. eexists.
      split; [|split; [|right; split; [|split; [|reflexivity]]]]; unfold mine, lock; cbn; rewrite ?upd_same_w, ?TR; cbn; auto.
    + subst k. destruct (Writer.is_init (Writer.s_writer w)) eqn:IN; cbn in E; injection E as <- <-; right; eexists;
      (split; [|split; [|right; split; [|split; [|reflexivity]]]]); unfold mine, lock; cbn; rewrite ?upd_same_w, ?TR; cbn; auto; try lia.
      split; [reflexivity|]. split; [reflexivity|]. intros Q. rewrite Q in IN. discriminate.
    + subst k. cbn in E; injection E as <- <-; right; eexists;
      (split; [|split; [|right; split; [|split; [|reflexivity]]]]); unfold mine, lock; cbn; rewrite ?upd_same_w, ?TR; cbn; auto; try lia.
    + subst k. destruct ((Writer.s_fd w >=? 0) && negb (Writer.a_chr a)); cbn in E; injection E as <- <-; right; eexists;
      (split; [|split; [|right; split; [|split; [|reflexivity]]]]); unfold mine, lock; cbn; rewrite ?upd_same_w, ?TR; cbn; auto; try lia.
    + subst k. cbn in E; injection E as <- <-; right; eexists;
      (split; [|split; [|right; split; [|split; [|reflexivity]]]]); unfold mine, lock; cbn; rewrite ?upd_same_w, ?TR; cbn; auto; try lia.
    + subst k. cbn in E; injection E as <- <-; right; eexists;
      (split; [|split; [|right; split; [|split; [|reflexivity]]]]); unfold mine, lock; cbn; rewrite ?upd_same_w, ?TR; cbn; auto; try lia.
    + subst k. cbn in E; injection E as <- <-; right; eexists;
      (split; [|split; [|right; split; [|split; [|reflexivity]]]]); unfold mine, lock; cbn; rewrite ?upd_same_w, ?TR; cbn; auto; try lia.
    + subst k. destruct (Writer.e_stderr e || Writer.is_null x); cbn in E; injection E as <- <-; right; eexists;
      (split; [|split; [|right; split; [|split; [|reflexivity]]]]); unfold mine, lock; cbn; rewrite ?upd_same_w, ?TR; cbn; auto; try lia.
    + subst k. cbn in E; injection E as <- <-; right; eexists;
      (split; [|split; [|right; split; [|split; [|reflexivity]]]]); unfold mine, lock; cbn; rewrite ?upd_same_w, ?TR; cbn; auto; try lia.
      split; [reflexivity|]. split; [reflexivity|]. intros ->. destruct PL as [PL _]. exact PL.
    + destruct FW as (-> & -> & WN). cbn in E; injection E as <- <-; right; eexists;
      (split; [|split; [|right; split; [|split; [|reflexivity]]]]); unfold mine, lock; cbn; rewrite ?upd_same_w, ?TR; cbn; auto; try lia.
      destruct (Writer.s_writer w); cbn; try lia. congruence.
Qed.

Definition alone (h : nat) (sched : list entry) : Prop := forall x, In x sched -> who x = h.

Lemma under_run cf e h c prio m : forall sched n s s' tr, Inv s -> text m -> alone h sched ->
  logs h c prio m sched -> under s h c prio m n -> run cf e s sched = (s', tr) -> (n < length sched)%nat -> ended h tr.
Proof.
  induction sched as [|[[t o] a] l IH]; intros n s s' tr I TX AL LG SH E LE; [cbn in LE; lia|].
  pose proof (AL _ (or_introl eq_refl)) as Q. cbn in Q. subst t.
  cbn in E. destruct (step cf e s h o a) as [s1 e1] eqn:X. destruct (run cf e s1 l) as [s2 e2] eqn:Y. injection E as _ <-.
  destruct (LG (h, o, a) (or_introl eq_refl) eq_refl) as [O AI]. cbn in O, AI. subst o.
  pose proof (step_inv _ _ _ _ (Log c prio m) _ _ _ I Logic.I X) as I1. apply ended_app.
  destruct (under_step _ _ _ _ _ _ _ _ _ _ _ _ I TX AI X SH) as [EN|(n' & LT & SH')]; [now left|right].
  eapply (IH n'); eauto.
  - intros x J. apply AL. now right.
  - intros x J. apply LG. now right.
  - cbn in LE. lia.
Qed.

(** Whatever was logged before, a handler that runs while the lock is free is done in 42 turns of its
    own, having registered its tag and initialised the output if needed: so it is in a program of one
    thread interrupted anywhere but inside these short sections. *)
Theorem C125_free_partial : forall cf e s h c prio m sched s' tr, reaches cf e s -> idle s h -> lock s = None ->
  text m -> alone h sched -> logs h c prio m sched -> run cf e s sched = (s', tr) -> (42 <= length sched)%nat -> ended h tr.
Proof.
  intros cf e s h c prio m sched s' tr R [TW TR] LK TX AL LG E LE. pose proof (reaches_inv _ _ _ R) as I.
  destruct sched as [|[[t o] a] l]; [cbn in LE; lia|]. pose proof (AL _ (or_introl eq_refl)) as Q. cbn in Q. subst t.
  destruct (LG (h, o, a) (or_introl eq_refl) eq_refl) as [O AI]. cbn in O, AI. subst o.
  cbn in E. destruct (step cf e s h (Log c prio m) a) as [s1 e1] eqn:X. destruct (run cf e s1 l) as [s2 e2] eqn:Y. injection E as _ <-.
  pose proof (step_inv _ _ _ _ (Log c prio m) _ _ _ I Logic.I X) as I1. apply ended_app. right.
  eapply (under_run _ _ _ _ _ _ l 40); [exact I1|exact TX| | | |exact Y|cbn in LE; lia].
  - intros x J. apply AL. now right.
  - intros x J. apply LG. now right.
  - unfold step in X. rewrite TW, TR in X. unfold step_r, Cookies.step in X. cbn in X. rewrite TR in X. injection X as <- <-.
    unfold under, mine, lock. cbn. rewrite !upd_same, TW. cbn. split; [exact LK|]. left. auto.
Qed.
Print Assumptions C125_free_partial.

(** ** Handlers that never end *)

Definition without (t : nat) (sched : list entry) : Prop := forall x, In x sched -> allowed (what x) /\ who x <> t.

(** A thread that waits for a lock held by another leaves it, the output function and the levels of the tags not in use alone. *)
Lemma blocked_step cf e s t u o a s' ev : Inv s -> step cf e s u o a = (s', ev) -> lock s = Some t -> u <> t ->
  lock s' = Some t /\ (forall c, level s c < 0 -> level s' c < 0) /\ Writer.s_writer (wri s') = Writer.s_writer (wri s).
Proof.
  intros I E LK N.
  assert (HR : forall s, Inv s -> lock s = Some t -> hold_r (Cookies.s_th (reg s) u) = false).
  { clear - N. intros s I LK. destruct (hold_r (Cookies.s_th (reg s) u)) eqn:H; [|reflexivity]. pose proof (i_hr _ I u H). congruence. }
  assert (HW : forall s, Inv s -> lock s = Some t -> hold_w (Writer.s_th (wri s) u) = false).
  { clear - N. intros s I LK. destruct (hold_w (Writer.s_th (wri s) u)) eqn:H; [|reflexivity]. pose proof (i_hw _ I u H). congruence. }
  assert (SR : forall s ro s1 e1, Inv s -> lock s = Some t -> step_r cf s u ro = (s1, e1) ->
    lock s1 = Some t /\ (forall c, level s c < 0 -> level s1 c < 0) /\ Writer.s_writer (wri s1) = Writer.s_writer (wri s)).
  { clear - N HR. intros s ro s1 e1 I LK X. specialize (HR s I LK). pose proof (i_pr _ I u) as PL. unfold step_r in X.
    destruct (Cookies.step cf (reg s) u ro) as [r' l] eqn:Z. injection X as <- _. unfold lock, level in *. cbn.
    unfold Cookies.step in Z. destruct (Cookies.s_th (reg s) u) eqn:T; cbn in HR; try discriminate HR; cbn in Z, PL;
      unfold Cookies.acquire in Z; rewrite ?LK in Z.
    all: try (injection Z as <- <-; try destruct ro; cbn; auto; fail).
    - unfold Cookies.after in Z. destruct k; injection Z as <- <-; cbn; (split; [exact LK|split; [|reflexivity]]); auto.
      all: intros d D; unfold Cookies.upd; destruct (Nat.eqb_spec d c) as [Q|Q]; [subst; lia|exact D].
    - destruct p; injection Z as <- <-; cbn; auto. }
  assert (SW : forall s wo s1 e1, Inv s -> lock s = Some t -> step_w e s u wo a = (s1, e1) ->
    lock s1 = Some t /\ (forall c, level s c < 0 -> level s1 c < 0) /\ Writer.s_writer (wri s1) = Writer.s_writer (wri s)).
  { clear - N HW. intros s wo s1 e1 I LK X. specialize (HW s I LK). pose proof (i_share _ I) as SH. unfold lock, level in *. unfold step_w in X.
    destruct (Writer.step e (wri s) u wo a) as [w' l] eqn:Z. injection X as <- _. cbn. rewrite LK in SH.
    unfold Writer.step in Z. destruct (Writer.s_th (wri s) u) eqn:T; cbn in HW; try discriminate HW; cbn in Z; rewrite ?SH in Z;
      repeat match type of Z with
      | context [match ?x with _ => _ end] => destruct x eqn:?; cbn in Z
      end; injection Z as <- <-; cbn; auto. }
  destruct (step_cases _ _ _ _ _ _ _ _ I E) as [(ro & p & X)|[(wo & X & _)|(s1 & e1 & e2 & m & X & Y & _ & ID)]].
  - exact (SR (mkState (reg s) (wri s) p) _ _ _ (inv_pend _ p I) LK X).
  - exact (SW _ _ _ _ I LK X).
  - destruct (SR _ _ _ _ I LK X) as (A & B & C). pose proof (step_r_inv _ _ _ _ _ _ I X ID) as I1.
    destruct (SW _ _ _ _ I1 A Y) as (A' & B' & C'). split; [exact A'|]. split; [auto|congruence].
Qed.

(** The handler has a message of an unregistered tag. *)
Definition waits_r (s : state) (h c : nat) (prio : Z) : Prop :=
  Writer.s_th (wri s) h = Writer.Idle /\
  match Cookies.s_th (reg s) h with
  | Cookies.Idle => True
  | Cookies.Check d k | Cookies.Env d k | Cookies.Env2 d k | Cookies.Lock d _ k => d = c /\ k = Cookies.KLog prio
  | _ => False
  end.

Lemma waits_step cf e s h t c prio m a s' ev : Inv s -> lock s = Some t -> level s c < 0 -> waits_r s h c prio ->
  step cf e s h (Log c prio m) a = (s', ev) -> waits_r s' h c prio /\ ~ ended h ev.
Proof.
  intros I LK LV [TW TR] E. unfold step in E. rewrite TW in E. unfold lock, level in *.
  destruct (Cookies.s_th (reg s) h) eqn:T; try contradiction TR; unfold step_r, Cookies.step in E; cbn in E; rewrite T in E; cbn in E.
  - injection E as <- <-. split; [split; cbn; [exact TW|rewrite upd_same; auto]|].
    unfold ended. cbn. intros [(? & ? & [Q|[]])|[Q|[]]]; discriminate.
  - destruct TR as [-> ->]. assert (Q : Cookies.s_level (reg s) c <? 0 = true) by lia. rewrite Q in E. injection E as <- <-.
    split; [split; cbn; [exact TW|rewrite upd_same; auto]|]. unfold ended. cbn. intros [(? & ? & [])|[]].
  - destruct TR as [-> ->]. injection E as <- <-. split; [split; cbn; [exact TW|rewrite upd_same]|].
    + destruct (_ <? 0); [destruct (_ >=? 0)|]; cbn; auto.
    + unfold ended. cbn. intros [(? & ? & [])|[]].
  - destruct TR as [-> ->]. injection E as <- <-. split; [split; cbn; [exact TW|rewrite upd_same; cbn; auto]|].
    unfold ended. cbn. intros [(? & ? & [])|[]].
  - destruct TR as [-> ->]. unfold Cookies.acquire in E. rewrite LK in E. injection E as <- <-. split; [split; cbn; [exact TW|rewrite T; auto]|].
    unfold ended. cbn. intros [(? & ? & [])|[]].
Qed.

Lemma ended_split h a b : ended h (a ++ b) -> ended h a \/ ended h b.
Proof.
  unfold ended. intros [(c & p & J)|J]; apply in_app_or in J; destruct J as [J|J]; eauto 6.
Qed.

Lemma other_events cf e s u o a s' ev h : step cf e s u o a = (s', ev) -> u <> h -> ~ ended h ev.
Proof.
  intros E N.
  assert (SR : forall s ro s1 e1, step_r cf s u ro = (s1, e1) -> ~ ended h e1).
  { clear - N. intros s ro s1 e1. unfold step_r. destruct (Cookies.step cf (reg s) u ro) as [r l] eqn:X. intros E. injection E as _ <-.
    intros [(c & p & J)|J]; apply in_map_iff in J; destruct J as (y & Q & J); try discriminate. injection Q as ->.
    unfold Cookies.step, Cookies.after in X. destruct (Cookies.s_th (reg s) u); cbn in X;
      repeat match type of X with
      | context [match ?x with _ => _ end] => destruct x eqn:?; cbn in X
      end; injection X as _ <-; cbn in J; intuition (try discriminate; congruence). }
  assert (SW : forall s wo s1 e1, step_w e s u wo a = (s1, e1) -> ~ ended h e1).
  { clear - N. intros s wo s1 e1. unfold step_w. destruct (Writer.step e (wri s) u wo a) as [r l] eqn:X. intros E. injection E as _ <-.
    intros [(c & p & J)|J]; apply in_map_iff in J; destruct J as (y & Q & J); try discriminate. injection Q as ->.
    unfold Writer.step in X. destruct (Writer.s_th (wri s) u); cbn in X;
      repeat match type of X with
      | context [match ?x with _ => _ end] => destruct x eqn:?; cbn in X
      end; injection X as _ <-; cbn in J; intuition (try discriminate; congruence). }
  unfold step in E. destruct (Writer.s_th (wri s) u).
  { destruct (Cookies.s_th (reg s) u).
    { destruct o; [exact (SR _ _ _ _ E)|exact (SW _ _ _ _ E)|exact (SR _ _ _ _ E)]. }
    all: destruct (step_r cf s u Cookies.CForeach) as [s1 e1] eqn:X; pose proof (SR _ _ _ _ X) as B;
      destruct (decided e1); [|injection E as <- <-; exact B];
      destruct (pend s u) as [m1|]; [|injection E as <- <-; exact B];
      destruct (step_w e s1 u (Writer.WLog m1) a) as [s2 e2] eqn:Y; injection E as <- <-;
      intros Q; apply ended_split in Q; destruct Q as [Q|Q]; [exact (B Q)|exact (SW _ _ _ _ Y Q)]. }
  all: exact (SW _ _ _ _ E).
Qed.

(** If the interrupted thread holds the lock and the tag of the handler is not in use yet, the
    handler never ends, whatever the other threads do. *)
Theorem C125_stuck : forall cf e s t h c prio m sched s' tr, reaches cf e s -> lock s = Some t -> idle s h -> h <> t ->
  level s c < 0 -> without t sched -> logs h c prio m sched -> run cf e s sched = (s', tr) -> ~ ended h tr.
Proof.
  intros cf e s t h c prio m sched s' tr R LK [TW TR] N LV WO LG E. pose proof (reaches_inv _ _ _ R) as I. clear R.
  assert (WT : waits_r s h c prio) by (split; [exact TW|now rewrite TR]). clear TW TR.
  revert s s' tr I LK LV WT E. induction sched as [|[[u o] a] l IH]; intros s s' tr I LK LV WT E.
  - injection E as _ <-. unfold ended. cbn. intros [(? & ? & [])|[]].
  - cbn in E. destruct (step cf e s u o a) as [s1 e1] eqn:X. destruct (run cf e s1 l) as [s2 e2] eqn:Y. injection E as _ <-.
    destruct (WO (u, o, a) (or_introl eq_refl)) as [A NU]. cbn in A, NU.
    destruct (blocked_step _ _ _ _ _ _ _ _ _ I X LK NU) as (LK1 & LV1 & _). pose proof (step_inv _ _ _ _ _ _ _ _ I A X) as I1.
    assert (B : waits_r s1 h c prio /\ ~ ended h e1).
    { destruct (Nat.eq_dec u h) as [Q|Q].
      - subst u. destruct (LG (h, o, a) (or_introl eq_refl) eq_refl) as [O _]. cbn in O. subst o. exact (waits_step _ _ _ _ _ _ _ _ _ _ _ I LK LV WT X).
      - destruct (step_other _ _ _ _ _ _ _ _ h X ltac:(congruence)) as (A1 & A2 & _). split; [unfold waits_r; rewrite A1, A2; exact WT|].
        exact (other_events _ _ _ _ _ _ _ _ _ X Q). }
    intros EN. apply ended_split in EN. destruct EN as [EN|EN]; [exact (proj2 B EN)|].
    eapply IH; [| |exact I1|exact LK1|exact (LV1 c LV)|exact (proj1 B)|exact Y|exact EN].
    + intros x J. apply WO. now right.
    + intros x J. apply LG. now right.
Qed.
Print Assumptions C125_stuck.

(** So does a handler whose message is enabled while the output is not initialised yet. *)
Theorem C125_stuck_output : forall cf e s t h c prio m sched s' tr, reaches cf e s -> lock s = Some t -> idle s h -> h <> t ->
  severity prio <= level s c -> ~ initialised s -> alone h sched -> logs h c prio m sched -> run cf e s sched = (s', tr) -> ~ ended h tr.
Proof.
  intros cf e s t h c prio m sched s' tr R LK [TW TR] N LV NI AL LG E. pose proof (reaches_inv _ _ _ R) as I. clear R.
  assert (WR : Writer.s_writer (wri s) = Writer.Init) by (unfold initialised in NI; destruct (Writer.s_writer (wri s)); [reflexivity|exfalso; apply NI; discriminate..]).
  clear NI. assert (WT : (Writer.s_th (wri s) h = Writer.Idle /\ (Cookies.s_th (reg s) h = Cookies.Idle \/
      (pend s h = Some m /\ (Cookies.s_th (reg s) h = Cookies.Check c (Cookies.KLog prio) \/ Cookies.s_th (reg s) h = Cookies.After c (Cookies.KLog prio))))) \/
    Writer.s_th (wri s) h = Writer.LRead [] m \/ Writer.s_th (wri s) h = Writer.LRun Writer.Init [] m \/
    Writer.s_th (wri s) h = Writer.ILock (Writer.KLog [] m)) by (left; auto). clear TW TR.
  assert (S0 : 0 <= severity prio) by (apply Z.land_nonneg; lia).
  revert s s' tr I LK LV WR WT E. induction sched as [|[[u o] a] l IH]; intros s s' tr I LK LV WR WT E.
  - injection E as _ <-. unfold ended. cbn. intros [(? & ? & [])|[]].
  - pose proof (AL _ (or_introl eq_refl)) as Q. cbn in Q. subst u.
    destruct (LG (h, o, a) (or_introl eq_refl) eq_refl) as [O _]. cbn in O. subst o.
    cbn in E. destruct (step cf e s h (Log c prio m) a) as [s1 e1] eqn:X. destruct (run cf e s1 l) as [s2 e2] eqn:Y. injection E as _ <-.
    destruct (blocked_step _ _ _ _ _ _ _ _ _ I X LK N) as (LK1 & _ & WR1). rewrite WR in WR1.
    pose proof (step_inv _ _ _ _ (Log c prio m) _ _ _ I Logic.I X) as I1.
    intros EN. apply ended_split in EN.
    assert (B : ~ ended h e1 /\ level s1 c = level s c /\
      ((Writer.s_th (wri s1) h = Writer.Idle /\ (Cookies.s_th (reg s1) h = Cookies.Idle \/
      (pend s1 h = Some m /\ (Cookies.s_th (reg s1) h = Cookies.Check c (Cookies.KLog prio) \/ Cookies.s_th (reg s1) h = Cookies.After c (Cookies.KLog prio))))) \/
      Writer.s_th (wri s1) h = Writer.LRead [] m \/ Writer.s_th (wri s1) h = Writer.LRun Writer.Init [] m \/
      Writer.s_th (wri s1) h = Writer.ILock (Writer.KLog [] m))).
    { clear EN Y IH AL LG. pose proof (i_share _ I) as SHR. unfold lock, level, severity, ended in *. rewrite LK in SHR.
      destruct WT as [(TW & [TR|(P & [TR|TR])])|[TW|[TW|TW]]];
        unfold step in X; rewrite ?TW, ?TR in X; unfold step_r, step_w, Cookies.step, Writer.step in X; cbn in X; rewrite ?TW, ?TR in X; cbn in X.
      - injection X as <- <-. cbn. rewrite !upd_same. split; [intros [(? & ? & [Q|[]])|[Q|[]]]; discriminate|]. split; [reflexivity|]. left. auto.
      - destruct (Cookies.s_level (reg s) c <? 0) eqn:L; [lia|]. injection X as <- <-. cbn. rewrite !upd_same.
        split; [intros [(? & ? & [])|[]]|]. split; [reflexivity|]. left. auto.
      - change PRIO_LEVEL_MASK with 7 in X. assert (L : Z.land prio 7 <=? Cookies.s_level (reg s) c = true) by lia. rewrite L in X. cbn in X.
        rewrite P in X. cbn in X. rewrite TW in X. cbn in X. injection X as <- <-. cbn. rewrite !upd_same_w.
        split; [intros [(? & ? & [Q|[Q|[]]])|[Q|[Q|[]]]]; discriminate|]. split; [reflexivity|]. auto.
      - injection X as <- <-. cbn. rewrite !upd_same_w, WR. split; [intros [(? & ? & [])|[]]|]. split; [reflexivity|]. auto.
      - injection X as <- <-. cbn. rewrite !upd_same_w. split; [intros [(? & ? & [])|[]]|]. split; [reflexivity|]. auto.
      - rewrite SHR in X. injection X as <- <-. cbn. split; [intros [(? & ? & [])|[]]|]. split; [reflexivity|]. auto. }
    destruct B as (B1 & B2 & B3). destruct EN as [EN|EN]; [exact (B1 EN)|].
    eapply IH; [| |exact I1|exact LK1|rewrite B2; exact LV|exact WR1|exact B3|exact Y|exact EN].
    + intros x J. apply AL. now right.
    + intros x J. apply LG. now right.
Qed.
Print Assumptions C125_stuck_output.

(** ** Programs that log before they install their handler *)

(** A thread that only logs. *)
Definition okr (s : state) (p : Cookies.pc) : Prop :=
  match p with
  | Cookies.Idle => True
  | Cookies.Check _ k | Cookies.Env _ k | Cookies.Env2 _ k | Cookies.Lock _ _ k | Cookies.Test _ _ k
  | Cookies.RdHook _ k | Cookies.Unlock _ _ k | Cookies.Hook _ _ k | Cookies.After _ k => exists q, k = Cookies.KLog q
  | Cookies.SetNext d _ k | Cookies.SetHead d _ k | Cookies.SetLvl d _ k => level s d < 0 /\ exists q, k = Cookies.KLog q
  | _ => False
  end.
Definition okw (s : state) (p : Writer.pc) : Prop :=
  match p with
  | Writer.Idle | Writer.LRead _ _ | Writer.Crashed => True
  | Writer.LRun x _ _ => x <> Writer.Init -> initialised s
  | Writer.LPrint _ _ | Writer.IUnlock _ _ => initialised s
  | Writer.ILock k | Writer.ITest k | Writer.IOpen k | Writer.IStat k | Writer.IClose k | Writer.IFd k | Writer.IWriter k
  | Writer.IW2 _ k | Writer.IW1 _ k => exists cols m, k = Writer.KLog cols m
  | _ => False
  end.
Definition logger (s : state) (t : nat) : Prop :=
  okr s (Cookies.s_th (reg s) t) /\ okw s (Writer.s_th (wri s) t).

Lemma logger_step cf e s t c prio m a s' ev : Inv s -> logger s t -> step cf e s t (Log c prio m) a = (s', ev) ->
  logger s' t /\ (forall d, 0 <= level s d -> level s' d = level s d) /\ (initialised s -> initialised s').
Proof.
  intros I [KR KW] E.
  assert (CH : changing (Writer.s_th (wri s) t) = false) by (destruct (Writer.s_th (wri s) t); cbn in KW; try reflexivity; contradiction).
  assert (IN : initialised s -> initialised s').
  { refine (proj2 (step_calm _ _ _ _ (Log c prio m) _ _ _ I E Logic.I _ CH)). discriminate. }
  assert (G : logger s' t /\ (forall d, 0 <= level s d -> level s' d = level s d)); [|split; [apply G|split; [apply G|exact IN]]].
  pose proof (i_pw _ I t) as PW. clear IN CH.
  unfold step in E. destruct (Writer.s_th (wri s) t) eqn:TW.
  { destruct (Cookies.s_th (reg s) t) eqn:TR; cbn in KR; try contradiction KR;
      unfold step_r, Cookies.step in E; cbn [reg wri pend] in E; rewrite TR in E.
    all: try (destruct KR as [KL KR]; destruct KR as [q KQ]; subst k).
    all: try (destruct KR as [q KQ]; subst k).
    all: unfold Cookies.acquire, Cookies.after in E; cbn in E; rewrite ?orb_false_r in E.
    all: repeat match type of E with
      | context [if ?b then _ else _] => destruct b eqn:?; cbn in E
      | context [match ?q with Some _ => _ | None => _ end] => destruct q eqn:?; cbn in E
      end.
    all: try (unfold step_w, Writer.step in E; cbn in E; rewrite TW in E; cbn in E).
    all: injection E as <- <-; unfold logger, level; cbn; rewrite ?upd_same, ?upd_same_w, ?TW, ?TR; cbn; (split; [split|]); eauto.
    all: try (split; [unfold level; cbn; first [lia | exact KL]|eauto]).
    intros d D. unfold Cookies.upd. destruct (Nat.eqb_spec d c0) as [->|?]; [unfold level in KL; lia|reflexivity]. }
  all: pose proof (i_one _ I t ltac:(rewrite TW; discriminate)) as TR; cbn in KW; try (exfalso; exact KW).
  all: unfold step_w, Writer.step in E; rewrite TW in E; cbn in E.
  all: repeat match type of KW with ex _ => destruct KW as [? KW] end; subst; cbn in E.
  all: repeat match type of E with
      | context [if ?b then _ else _] => destruct b eqn:?; cbn in E
      | context [match ?q with _ => _ end] => is_var q; destruct q eqn:?; cbn in E
      | context [match Writer.s_writer2 ?q with _ => _ end] => destruct (Writer.s_writer2 q) eqn:?; cbn in E
      | context [match Writer.s_lock ?q with _ => _ end] => destruct (Writer.s_lock q) eqn:?; cbn in E
      | context [match Writer.stderr_text ?x ?y ?z with _ => _ end] => destruct (Writer.stderr_text x y z) eqn:?; cbn in E
      end.
  all: injection E as <- <-; unfold logger, level; cbn; rewrite ?upd_same, ?upd_same_w, ?TR, ?TW; cbn.
  all: split; [split|]; eauto.
  all: unfold initialised in *; cbn in *.
  all: try (apply KW; discriminate).
  all: try (intros _; apply KW; discriminate).
  all: try (match goal with H : Writer.is_init _ = false |- _ => intros Q; rewrite Q in H; discriminate H end).
  intros ->. destruct PW as [PW _]. exact PW.
Qed.

(** The first messages, all of tag [c] and priority [p0]. *)
Definition first_r (c : nat) (p0 : Z) (p : Cookies.pc) : Prop :=
  match p with
  | Cookies.Check d k | Cookies.Env d k | Cookies.Env2 d k | Cookies.Lock d _ k | Cookies.Test d _ k
  | Cookies.RdHook d k | Cookies.Unlock d _ k | Cookies.Hook d _ k | Cookies.After d k
  | Cookies.SetNext d _ k | Cookies.SetHead d _ k | Cookies.SetLvl d _ k => d = c /\ k = Cookies.KLog p0
  | _ => True
  end.
Definition firsts (s : state) (t c : nat) (p0 : Z) : Prop :=
  first_r c p0 (Cookies.s_th (reg s) t) /\ (Writer.s_th (wri s) t <> Writer.Idle -> registered s c).
(** Afterwards. *)
Definition settled (s : state) (c : nat) (p0 : Z) : Prop :=
  registered s c /\ (severity p0 <= level s c -> initialised s).

Lemma first_step cf e s t c p0 m a s' ev : Inv s -> logger s t -> firsts s t c p0 -> step cf e s t (Log c p0 m) a = (s', ev) ->
  firsts s' t c p0 /\ (ended t ev -> settled s' c p0).
Proof.
  intros I [KR KW] [FR FW] E. pose proof (i_pr _ I t) as PR.
  assert (LV : registered s c -> registered s' c) by (intros L; exact (step_level _ _ _ _ _ _ _ _ I E c L)).
  unfold firsts, settled, registered, level, initialised, ended in *.
  unfold step in E. destruct (Writer.s_th (wri s) t) eqn:TW.
  { destruct (Cookies.s_th (reg s) t) eqn:TR; cbn in KR; try contradiction KR;
      unfold step_r, Cookies.step in E; cbn [reg wri pend] in E; rewrite TR in E; cbn in PR, FR.
    all: try (destruct FR as [-> ->]).
    all: unfold Cookies.acquire, Cookies.after in E; cbn in E; rewrite ?orb_false_r in E.
    all: repeat match type of E with
      | context [if ?b then _ else _] => destruct b eqn:?; cbn in E
      | context [match ?q with Some _ => _ | None => _ end] => destruct q eqn:?; cbn in E
      end.
    all: try (unfold step_w, Writer.step in E; cbn in E; rewrite TW in E; cbn in E).
    all: injection E as <- <-; cbn in *; rewrite ?upd_same, ?upd_same_w, ?TW, ?TR; cbn.
    all: try (split; [split; [auto; fail|first [congruence | intros _; exact PR | auto]]|intros [(? & ? & Q)|Q]; repeat destruct Q as [Q|Q]; try discriminate; try contradiction]).
    all: split; [exact PR|]. all: intros L; exfalso; unfold severity in L; change PRIO_LEVEL_MASK with 7 in *; lia. }
  all: pose proof (i_one _ I t ltac:(rewrite TW; discriminate)) as TR; cbn in KW; try (exfalso; exact KW).
  all: specialize (FW ltac:(discriminate)); specialize (LV FW).
  all: assert (TR' : Cookies.s_th (reg s') t = Cookies.Idle)
    by (unfold step_w in E; destruct (Writer.step e (wri s) t (Writer.WReplay 0 0) a); injection E as <- _; exact TR).
  all: rewrite TR'; (split; [split; [exact Logic.I|intros _; exact LV]|]).
  all: unfold step_w, Writer.step in E; rewrite TW in E; cbn in E.
  all: repeat match type of KW with ex _ => destruct KW as [? KW] end; subst; cbn in E.
  all: repeat match type of E with
      | context [if ?b then _ else _] => destruct b eqn:?; cbn in E
      | context [match ?q with _ => _ end] => is_var q; destruct q eqn:?; cbn in E
      | context [match Writer.s_writer2 ?q with _ => _ end] => destruct (Writer.s_writer2 q) eqn:?; cbn in E
      | context [match Writer.s_lock ?q with _ => _ end] => destruct (Writer.s_lock q) eqn:?; cbn in E
      | context [match Writer.stderr_text ?x ?y ?z with _ => _ end] => destruct (Writer.stderr_text x y z) eqn:?; cbn in E
      end.
  all: injection E as <- <-; cbn in *; intros [(? & ? & Q)|Q]; repeat destruct Q as [Q|Q]; try discriminate; try contradiction.
  all: split; [exact LV|auto].
Qed.

Definition logs_first (t c : nat) (p0 : Z) (m0 : Writer.msg) (sched : list entry) : Prop :=
  forall x, In x sched -> who x = t /\ what x = Log c p0 m0.
Definition logs_any (t : nat) (sched : list entry) : Prop :=
  forall x, In x sched -> who x = t /\ exists c p m, what x = Log c p m.

Lemma firsts_run cf e t c p0 m0 h : h <> t -> forall sched s s' tr, Inv s -> idle s h -> logger s t -> firsts s t c p0 -> logs_first t c p0 m0 sched ->
  run cf e s sched = (s', tr) -> Inv s' /\ idle s' h /\ logger s' t /\ (ended t tr -> settled s' c p0) /\ (settled s c p0 -> settled s' c p0).
Proof.
  intros N. induction sched as [|[[u o] a] l IH]; intros s s' tr I ID LG F LF E.
  - injection E as <- <-. repeat (split; [assumption|]). split; [|auto]. unfold ended. cbn. intros [(? & ? & [])|[]].
  - destruct (LF _ (or_introl eq_refl)) as [U O]. cbn in U, O. subst u o. cbn in E.
    destruct (step cf e s t (Log c p0 m0) a) as [s1 e1] eqn:X. destruct (run cf e s1 l) as [s2 e2] eqn:Y. injection E as <- <-.
    pose proof (step_inv _ _ _ _ (Log c p0 m0) _ _ _ I Logic.I X) as I1.
    destruct (logger_step _ _ _ _ _ _ _ _ _ _ I LG X) as (LG1 & LV & IN).
    destruct (first_step _ _ _ _ _ _ _ _ _ _ I LG F X) as [F1 EN1].
    assert (ST : settled s c p0 -> settled s1 c p0).
    { intros [A B]. split; [unfold registered; rewrite LV; assumption|]. rewrite LV by exact A. auto. }
    assert (ID1 : idle s1 h) by (destruct (step_other _ _ _ _ _ _ _ _ h X N) as (A & B & _); unfold idle; rewrite A, B; exact ID).
    destruct (IH _ _ _ I1 ID1 LG1 F1 (fun x J => LF x (or_intror J)) Y) as (I2 & ID2 & LG2 & EN2 & ST2).
    repeat (split; [assumption|]). split; [|auto]. intros EN. apply ended_split in EN. destruct EN as [EN|EN]; auto.
Qed.

Lemma any_run cf e t c p0 h : h <> t -> forall sched s s' tr, Inv s -> idle s h -> logger s t -> settled s c p0 -> logs_any t sched ->
  run cf e s sched = (s', tr) -> Inv s' /\ idle s' h /\ settled s' c p0.
Proof.
  intros N. induction sched as [|[[u o] a] l IH]; intros s s' tr I ID LG ST LF E.
  - injection E as <- <-. auto.
  - destruct (LF _ (or_introl eq_refl)) as (U & c1 & p1 & m1 & O). cbn in U, O. subst u o. cbn in E.
    destruct (step cf e s t (Log c1 p1 m1) a) as [s1 e1] eqn:X. destruct (run cf e s1 l) as [s2 e2] eqn:Y. injection E as <- <-.
    pose proof (step_inv _ _ _ _ (Log c1 p1 m1) _ _ _ I Logic.I X) as I1.
    destruct (logger_step _ _ _ _ _ _ _ _ _ _ I LG X) as (LG1 & LV & IN).
    assert (ST1 : settled s1 c p0).
    { destruct ST as [A B]. split; [unfold registered; rewrite LV; assumption|]. rewrite LV by exact A. auto. }
    assert (ID1 : idle s1 h) by (destruct (step_other _ _ _ _ _ _ _ _ h X N) as (A & B & _); unfold idle; rewrite A, B; exact ID).
    exact (IH _ _ _ I1 ID1 LG1 ST1 (fun x J => LF x (or_intror J)) Y).
Qed.

(** A message that is filtered out is so in three turns. *)
Lemma filtered_run cf e s h c prio m sched s' tr : idle s h -> 0 <= level s c < severity prio -> alone h sched -> logs h c prio m sched ->
  run cf e s sched = (s', tr) -> (3 <= length sched)%nat -> ended h tr.
Proof.
  intros [TW TR] LV AL LG E LE. unfold level, severity in LV.
  destruct sched as [|[[u1 o1] a1] [|[[u2 o2] a2] [|[[u3 o3] a3] l]]]; cbn in LE; try lia.
  assert (U : u1 = h /\ u2 = h /\ u3 = h).
  { split; [|split]; [apply (AL (u1, o1, a1))|apply (AL (u2, o2, a2))|apply (AL (u3, o3, a3))]; cbn; auto. }
  destruct U as (-> & -> & ->). destruct (LG (h, o1, a1) (or_introl eq_refl) eq_refl) as [O _]. cbn in O. subst o1. clear LE AL LG.
  cbn in E. unfold step at 1 in E. rewrite TW, TR in E. unfold step_r at 1, Cookies.step at 1 in E. cbn in E. rewrite TR in E.
  unfold step at 1 in E. cbn in E. rewrite TW, upd_same in E. unfold step_r at 1, Cookies.step at 1 in E. cbn in E. rewrite upd_same in E. cbn in E.
  assert (L0 : Cookies.s_level (reg s) c <? 0 = false) by lia. rewrite L0 in E. cbn in E.
  unfold step at 1 in E. cbn in E. rewrite TW, upd_same in E. unfold step_r at 1, Cookies.step at 1 in E. cbn in E. rewrite upd_same in E. cbn in E.
  change PRIO_LEVEL_MASK with 7 in E.
  assert (L1 : Z.land prio 7 <=? Cookies.s_level (reg s) c = false) by lia. rewrite L1 in E. cbn in E.
  match type of E with context [run ?a ?b ?c ?d] => destruct (run a b c d) as [s2 e2] end. injection E as _ <-.
  left. exists c, prio. cbn. auto.
Qed.

(** A program of one thread that logs a message with the tag of its handler before it installs it
    (as shdlogd does, shdlogd/src/shdlogd.c:276-279), at least as severe as the handler's, and then only
    logs: wherever it is interrupted, the handler ends in eight turns. *)
Theorem C125_logged_before : forall cf e t h c p0 m0 prio m sched1 sched2 sched3 s1 tr1 s2 tr2 s3 tr3, h <> t ->
  logs_first t c p0 m0 sched1 -> run cf e init sched1 = (s1, tr1) -> ended t tr1 ->
  logs_any t sched2 -> run cf e s1 sched2 = (s2, tr2) ->
  severity p0 <= severity prio -> text m -> alone h sched3 -> logs h c prio m sched3 -> run cf e s2 sched3 = (s3, tr3) ->
  (8 <= length sched3)%nat -> ended h tr3.
Proof.
  intros cf e t h c p0 m0 prio m sched1 sched2 sched3 s1 tr1 s2 tr2 s3 tr3 N L1 E1 EN L2 E2 SV TX AL LG E3 LE.
  assert (LG0 : logger init t) by (split; exact Logic.I). assert (F0 : firsts init t c p0) by (split; [exact Logic.I|cbn; congruence]).
  destruct (firsts_run _ _ _ _ _ _ _ N _ _ _ _ inv_init (conj eq_refl eq_refl) LG0 F0 L1 E1) as (I1 & ID1 & LG1 & ST1 & _).
  destruct (any_run _ _ _ _ _ _ N _ _ _ _ I1 ID1 LG1 (ST1 EN) L2 E2) as (I2 & ID2 & RG & IN).
  destruct (Z_lt_ge_dec (level s2 c) (severity prio)) as [LT|GE].
  - eapply filtered_run; [exact ID2|split; [exact RG|exact LT]|exact AL|exact LG|exact E3|lia].
  - assert (IN2 : initialised s2) by (apply IN; lia).
    assert (C : calm s2 sched3).
    { intros x J. destruct (LG x J (AL x J)) as [W _]. rewrite W. split; [exact Logic.I|]. split; [discriminate|].
      rewrite (AL x J), (proj1 ID2). reflexivity. }
    assert (TN : turns h sched3 = length sched3).
    { clear - AL. unfold turns. induction sched3 as [|x l IH]; [reflexivity|]. cbn.
      rewrite (AL x (or_introl eq_refl)), Nat.eqb_refl. cbn. f_equal. apply IH. intros y J. apply AL. now right. }
    revert AL LG E3 LE C TN. clear - ID2 I2 RG IN2 TX. intros AL LG E3 LE C TN.
    destruct sched3 as [|[[u o] a] l]; [cbn in LE; lia|]. pose proof (AL _ (or_introl eq_refl)) as Q. cbn in Q. subst u.
    destruct (LG (h, o, a) (or_introl eq_refl) eq_refl) as [O AI]. cbn in O, AI. subst o. cbn in E3.
    destruct (step cf e s2 h (Log c prio m) a) as [s1 e1] eqn:X. destruct (run cf e s1 l) as [s4 e4] eqn:Y. injection E3 as _ <-.
    destruct (C _ (or_introl eq_refl)) as (A & D & CH). cbn [who what fst snd] in A, D, CH.
    apply ended_app. right. eapply (shape_run _ _ _ _ _ _ l 7); [| | |exact TX| | | |exact Y|].
    + exact (step_inv _ _ _ _ (Log c prio m) _ _ _ I2 A X).
    + exact (step_level _ _ _ _ _ _ _ _ I2 X c RG).
    + exact (proj2 (step_calm _ _ _ _ _ _ _ _ I2 X A D CH) IN2).
    + exact (calm_step _ _ _ _ _ _ _ _ _ I2 X C).
    + intros x J. apply LG. now right.
    + exact (start_shape _ _ _ _ _ _ _ _ _ _ ID2 X).
    + rewrite turns_cons, Nat.eqb_refl in TN. cbn in LE, TN. lia.
Qed.
Print Assumptions C125_logged_before.

(** ** Examples *)

Definition ex_cf : Cookies.cfg := Cookies.mkCfg (fun c => [96 + Z.of_nat c]) (fun _ => None).
Definition ex_e : Writer.env := Writer.mkEnv false false None.
Definition ex_a : Writer.answer := Writer.mkAns 3 true true false.
Definition ex_m (b : Z) : Writer.msg := Writer.mkMsg 6 [97] [b; 0].
(** Thread 0 logs with tag 1; thread 1, its handler, with tag 2. *)
Definition ex_t (c : nat) (n : nat) : list entry := repeat (0%nat, Log c 6 (ex_m 120), ex_a) n.
Definition ex_h (c : nat) (n : nat) : list entry := repeat (1%nat, Log c 6 (ex_m 121), ex_a) n.

(** Interrupted while it registers its tag: the lock is held. *)
Example C125_ex_inside : lock (fst (run ex_cf ex_e init (ex_t 1 5))) = Some 0%nat /\
  Cookies.s_th (reg (fst (run ex_cf ex_e init (ex_t 1 5)))) 0%nat <> Cookies.Idle.
Proof. split; [reflexivity|discriminate]. Qed.

(** Logging from a handler may hang the program: it logs as any code does, the thread it interrupts is
    logging too, and the handler waits for the lock that thread holds. *)
Theorem C125_refuted : exists cf e s t h c prio m, reaches cf e s /\ h <> t /\ idle s h /\ text m /\
  forall sched s' tr, without t sched -> logs h c prio m sched -> run cf e s sched = (s', tr) -> ~ ended h tr.
Proof.
  exists ex_cf, ex_e, (fst (run ex_cf ex_e init (ex_t 1 5))), 0%nat, 1%nat, 2%nat, 6, (ex_m 121).
  assert (R : reaches ex_cf ex_e (fst (run ex_cf ex_e init (ex_t 1 5)))).
  { exists (ex_t 1 5), (snd (run ex_cf ex_e init (ex_t 1 5))). split; [repeat constructor|]. apply surjective_pairing. }
  split; [exact R|]. split; [discriminate|]. split; [split; reflexivity|]. split; [right; left; reflexivity|].
  intros sched s' tr WO LG E. eapply (C125_stuck _ _ _ 0%nat); [exact R|reflexivity|split; reflexivity|discriminate| |exact WO|exact LG|exact E].
  cbn. lia.
Qed.
Print Assumptions C125_refuted.

(** The same signal once thread 0 is done: the handler registers tag 2 and its message is written. *)
Example C125_ex_free : exists s tr, run ex_cf ex_e (fst (run ex_cf ex_e init (ex_t 1 28))) (ex_h 2 42) = (s, tr) /\ ended 1 tr /\
  In (inr (Writer.EvDeliver 1 (Writer.DKernel 3) (ex_m 121))) tr.
Proof.
  eexists _, _. split; [apply surjective_pairing|]. split.
  - right. vm_compute. tauto.
  - vm_compute. tauto.
Qed.
(** Thread 0 has logged and is now in the middle of registering tag 1: a handler using tag 2 of that first message ends. *)
Example C125_ex_logged : exists s tr, ended 0 (snd (run ex_cf ex_e init (ex_t 2 28))) /\
  lock (fst (run ex_cf ex_e (fst (run ex_cf ex_e init (ex_t 2 28))) (ex_t 1 9))) = Some 0%nat /\
  run ex_cf ex_e (fst (run ex_cf ex_e (fst (run ex_cf ex_e init (ex_t 2 28))) (ex_t 1 9))) (ex_h 2 8) = (s, tr) /\ ended 1 tr.
Proof.
  eexists _, _. split; [right; vm_compute; tauto|]. split; [vm_compute; reflexivity|]. split; [apply surjective_pairing|]. right. vm_compute. tauto.
Qed.
