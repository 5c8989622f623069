(** Property C150: calls made by several tasks at the same time behave as calls made one at a time. *)
From Coq Require Import ZArith String List Bool Lia ZifyBool ZifyNat Arith.
From Verif Require Import Bytes BytesProofs Ring RingSpec RingRefine RingHistory RingInv RingObs WaitQ WaitQProofs PropsWaitQ LinSpec LinProofs.
Import ListNotations.
Open Scope Z_scope.

Lemma made_serial : forall loose nm mem pow2 n l, init_ok nm mem pow2 -> Forall user_event l ->
  (loose = false -> calm (wstart nm mem pow2 n) l) ->
  exists s, wrun (wstart nm mem pow2 n) l = Ok s /\ serial loose (wstart nm mem pow2 n) l s.
Proof.
  intros loose nm mem pow2 n l Hi Hu HC. pose proof (wstart_inv nm mem pow2 n Hi) as HI.
  destruct (wrun_inv l _ HI Hu) as (s & E & _). exists s. split; [exact E|].
  assert (H0 : LInv loose (s_dev (wstart nm mem pow2 n)) (wstart nm mem pow2 n) []).
  { apply lin_start_state; [exact HI|]. intros t th Ht. apply nth_error_In, repeat_spec in Ht. subst. reflexivity. }
  destruct (lin_run loose l _ _ [] s H0 HC Hu E) as (tr & HL & Hh). cbn [app] in HL.
  exists tr. split; [exact Hh|]. split; [intros t; eapply lin_end; exact HL|]. apply HL.
Qed.

(** Any number of tasks, any schedule: with no change of the raw mode of a file in the middle of a
    write to it, the execution is one of calls made one at a time. Missing: see [C150_raw_refuted]. *)
Theorem C150_serial_partial : forall nm mem pow2 n l, init_ok nm mem pow2 -> Forall user_event l ->
  calm (wstart nm mem pow2 n) l ->
  exists s, wrun (wstart nm mem pow2 n) l = Ok s /\ serial false (wstart nm mem pow2 n) l s.
Proof.
  intros nm mem pow2 n l Hi Hu HC. apply made_serial; auto.
Qed.

(** ** The operations of a trace come from the calls *)

Definition user_call (c : call) : Prop :=
  match c with CWrite w => user_iter (wa_it w) | COther o => user_op o | _ => True end.

Lemma waiting_user : forall a l, waiting a l -> Forall (fun p => user_op (fst p)) l.
Proof.
  induction 1; [constructor| |]; apply Forall_app; (split; [assumption|]); repeat constructor.
Qed.
Lemma polling_user : forall f u l, polling f u l -> Forall (fun p => user_op (fst p)) l.
Proof. induction 1; [constructor|]; apply Forall_app; (split; [assumption|]); repeat constructor. Qed.

Lemma done_user : forall loose c l x, done loose c l x -> user_call c -> Forall (fun p => user_op (fst p)) l.
Proof.
  intros loose c l x H Hu. destruct H; cbn [user_call] in Hu; try (constructor; fail).
  - repeat constructor. exact Hu.
  - repeat constructor. exact Hu.
  - apply Forall_app. split; [eapply waiting_user; eassumption|]. repeat constructor.
  - apply Forall_app. split; [eapply waiting_user; eassumption|]. repeat constructor.
  - apply Forall_app. split; [eapply waiting_user; eassumption|]. repeat constructor.
  - apply Forall_app. split; [eapply polling_user; eassumption|]. repeat constructor.
  - apply Forall_app. split; [eapply polling_user; eassumption|]. repeat constructor.
  - repeat constructor. exact Hu.
Qed.

Lemma map_eff_in : forall t l o u x, In (Eff u o x) (map (eff t) l) -> In (o, x) l.
Proof. intros t l o u x H. apply in_map_iff in H. destruct H as ([o' x'] & E & H). unfold eff in E. cbn in E. congruence. Qed.

Lemma calls_user : forall loose t w u o x, calls loose t w -> (forall u c, In (Inv u c) w -> user_call c) -> In (Eff u o x) w -> user_op o.
Proof.
  induction 1 as [|tr c l y H IH Hd]; intros Hc Hi; [contradiction|].
  apply in_app_or in Hi. destruct Hi as [Hi|[Hi|Hi]]; [|discriminate|].
  - apply IH; [|exact Hi]. intros u0 c0 H0. apply (Hc u0). apply in_or_app. left. exact H0.
  - apply in_app_or in Hi. destruct Hi as [Hi|[Hi|[]]]; [|discriminate]. apply map_eff_in in Hi.
    assert (Hu : user_call c). { apply (Hc t). apply in_or_app. right. left. reflexivity. }
    pose proof (done_user _ _ _ _ Hd Hu) as F. rewrite Forall_forall in F. exact (F _ Hi).
Qed.

Lemma explained_user : forall loose t w u o x, explained loose t w -> (forall u c, In (Inv u c) w -> user_call c) -> In (Eff u o x) w -> user_op o.
Proof.
  intros loose t w u o x [H|(tr0 & c & l & l' & y & -> & H & Hd)] Hc Hi; [eapply calls_user; eassumption|].
  apply in_app_or in Hi. destruct Hi as [Hi|[Hi|Hi]]; [|discriminate|].
  - eapply (calls_user loose t tr0); [exact H| |exact Hi]. intros u0 c0 H0. apply (Hc u0). apply in_or_app. left. exact H0.
  - apply map_eff_in in Hi. assert (Hu : user_call c). { apply (Hc t). apply in_or_app. right. left. reflexivity. }
    pose proof (done_user _ _ _ _ Hd Hu) as F. rewrite Forall_forall in F. apply (F (o, x)). apply in_or_app. left. exact Hi.
Qed.

Lemma history_user : forall l s u c, Forall user_event l -> In (Inv u c) (history s l) -> user_call c.
Proof.
  induction l as [|[t ac] l IH]; intros s u c Hu Hi; cbn [history] in Hi; [contradiction|].
  inversion Hu as [|? ? H1 H2]; subst. destruct (wstep s (t, ac)) as [s1|]; [|contradiction].
  apply in_app_or in Hi. destruct Hi as [Hi|Hi]; [|eapply IH; eassumption].
  unfold event in Hi. destruct (nth_error (s_ths s) t) as [th|]; [|contradiction].
  destruct (nth_error (s_ths s1) t) as [th'|]; [|contradiction].
  apply in_app_or in Hi. destruct Hi as [Hi|Hi].
  - destruct ac as [c'| |]; try contradiction. destruct (t_pc th); try contradiction.
    destruct (entry_point c') eqn:Ee; [|contradiction]. destruct Hi as [Hi|[]]. injection Hi as -> ->.
    destruct c as [a|w|f v|o]; cbn in *; try exact I; [exact H1|]. destruct o; try exact I; discriminate Ee.
  - exfalso. destruct (t_rets th') as [|x r]; [contradiction|].
    destruct (Nat.eqb (length r) (length (t_rets th))); [|contradiction]. destruct Hi as [Hi|[]]. discriminate.
Qed.

Lemma effs_in : forall tr o x, In (o, x) (effs tr) -> exists u, In (Eff u o x) tr.
Proof.
  intros tr o x H. unfold effs in H. apply in_flat_map in H. destruct H as (y & Hy & H).
  destruct y as [|t o' x'|]; try contradiction. destruct H as [H|[]]. injection H as -> ->. eauto.
Qed.

(** Any number of tasks, any schedule, no further hypothesis: the same as in C150_serial_partial, but
    that a write may be done in another raw mode than that of its file at that moment. *)
Theorem C150_modes : forall nm mem pow2 n l, init_ok nm mem pow2 -> Forall user_event l ->
  exists s, wrun (wstart nm mem pow2 n) l = Ok s /\ serial true (wstart nm mem pow2 n) l s.
Proof. intros nm mem pow2 n l Hi Hu. apply made_serial; [exact Hi|exact Hu|discriminate]. Qed.

(** Whatever they do, every device that tasks can reach is one that a single task can reach: what
    is proved of runs of the device holds of it. *)
Theorem C150_device : forall nm mem pow2 n l s, init_ok nm mem pow2 -> Forall user_event l ->
  wrun (wstart nm mem pow2 n) l = Ok s ->
  exists ops outs, Forall user_op ops /\ run (init_dev nm mem pow2) ops = Ok (s_dev s, outs).
Proof.
  intros nm mem pow2 n l s Hi Hu E.
  destruct (made_serial true nm mem pow2 n l Hi Hu ltac:(discriminate)) as (s' & E' & tr & Hh & Hx & Hr).
  assert (s' = s) by congruence. subst s'. exists (map fst (effs tr)), (map snd (effs tr)). split; [|exact Hr].
  apply Forall_map, Forall_forall. intros [o x] Hin. cbn [fst]. destruct (effs_in _ _ _ Hin) as (u & Hu').
  apply (explained_user true u (filter (of u) tr) u o x (Hx u)).
  - intros v c Hc. apply filter_In in Hc. apply (history_user l (wstart nm mem pow2 n) v c Hu). rewrite <- Hh.
    apply filter_In. split; [apply Hc|reflexivity].
  - apply filter_In. split; [exact Hu'|]. apply Nat.eqb_refl.
Qed.

(** A call is refused only for a file that is not open for it, is being released, or, for a close,
    is in use. *)
Theorem C150_accepted : forall s t th c s', nth_error (s_ths s) t = Some th -> t_pc th = Idle ->
  (match c with
   | CRead a => the_reader (s_dev s) (ra_fid a) <> None /\ closing s (ra_fid a) = false
   | CWrite w => (exists g, lookup (wa_fid w) (d_files (s_dev s)) = Some g /\ f_write g = true) /\ closing s (wa_fid w) = false
   | CPoll f _ => the_reader (s_dev s) f <> None /\ closing s f = false
   | COther (OpOpen _ _ _ _ _) => True
   | COther (OpClose f) => in_use s f = false /\ closing s f = false
   | COther (OpIoctl f _ _) => closing s f = false
   | COther _ => False
   end) ->
  wstep s (t, Call c) = Ok s' -> history s [(t, Call c)] = [Inv t c].
Proof.
  intros s t th c s' Ht Ep Hc Hs. cbn [history]. rewrite Hs. rewrite app_nil_r.
  unfold wstep in Hs. rewrite Ht, Ep in Hs. injection Hs as <-.
  unfold event. cbn [s_ths]. rewrite Ht. erewrite put_at by exact Ht. rewrite Ep.
  assert (Q : entry_point c = true /\ exists p, start s th c = set_pc th p).
  { destruct c as [a|w|f u|o]; cbn [start entry_point].
    - destruct Hc as [H1 H2]. destruct (the_reader (s_dev s) (ra_fid a)); [|congruence]. rewrite H2. eauto.
    - destruct Hc as [(g & H1 & H3) H2]. rewrite H1, H2, H3. cbn. eauto.
    - destruct Hc as [H1 H2]. destruct (the_reader (s_dev s) f); [|congruence]. rewrite H2. eauto.
    - destruct o; try contradiction; [eauto| |].
      + destruct Hc as [H1 H2]. rewrite H1, H2. cbn. eauto.
      + rewrite Hc. eauto. }
  destruct Q as [Qe (p & Qs)]. rewrite Qe, Qs. cbn [set_pc t_rets]. rewrite nores. reflexivity.
Qed.

(** ** Raw mode changed in the middle of a write *)

Definition ex_init : list Z := zrepeat 170 16384.
Definition ex_nm : list Z := bytes_of_string "ulog_main".
Lemma ex_init_ok : init_ok ex_nm ex_init 14.
Proof. split; [lia|]. split; [vm_compute; reflexivity|]. vm_compute. discriminate. Qed.

(** Task 0 opens a file; task 1 begins to write to it and has read its mode; task 0 turns raw mode
    on and writes a raw record; task 1 goes on and writes, after it, a record that is not raw. *)
Definition ex_o : op := OpOpen 1 false true false false.
Definition ex_i : op := OpIoctl 1 (SetRawMode (Some 1) false false) 0.
Definition ex_a : wargs := mkW 1 exq_task 3 4 (IterUbuf (mkSeg (zrepeat 65 30) 30)).
Definition ex_b : wargs := mkW 1 exq_task 1 2 (IterUbuf (mkSeg [72; 105] 2)).
Definition ex_sched : list (nat * act) :=
  [(0%nat, Call (COther ex_o))] ++ alone 0 3 ++
  [(1%nat, Call (CWrite ex_b)); (1%nat, Go)] ++
  [(0%nat, Call (COther ex_i))] ++ alone 0 3 ++
  [(0%nat, Call (CWrite ex_a))] ++ alone 0 5 ++
  alone 1 4.
Definition ex_s0 : state := wstart ex_nm ex_init 14 2.

Definition ex_hist : list label :=
  [Inv 0 (COther ex_o); Res 0 (OutVal 0); Inv 1 (CWrite ex_b); Inv 0 (COther ex_i); Res 0 (OutVal 0);
   Inv 0 (CWrite ex_a); Res 0 (OutVal 30); Res 1 (OutVal 2)].
Definition ex_bytes (d : dev) : list Z := ztake 40 (buffer (d_log d)).
Definition ex_look (m : M (dev * list out)) : list out * list Z :=
  match m with Ok (d, xs) => (xs, ex_bytes d) | Bug _ => ([], []) end.

(** The calls of a task, one by one. *)
Definition block (t : nat) (b : call * list (op * out) * out) : list label :=
  let '(c, l, x) := b in Inv t c :: map (eff t) l ++ [Res t x].
Definition ends (t : nat) (b : call * list (op * out) * out) : list label :=
  let '(c, _, x) := b in [Inv t c; Res t x].
Definition bops (b : call * list (op * out) * out) : list (op * out) := let '(_, l, _) := b in l.
Definition bdone (loose : bool) (b : call * list (op * out) * out) : Prop := let '(c, l, x) := b in done loose c l x.

Lemma calls_blocks : forall loose t w, calls loose t w -> exists bs, w = flat_map (block t) bs /\ Forall (bdone loose) bs.
Proof.
  induction 1 as [|tr c l x H (bs & -> & F) Hd]; [exists []; auto|].
  exists (bs ++ [(c, l, x)]). rewrite flat_map_app. cbn [flat_map block]. rewrite app_nil_r. split; [reflexivity|].
  apply Forall_app. auto.
Qed.
Lemma seen_eff : forall t l, filter seen (map (eff t) l) = [].
Proof. induction l; [reflexivity|]. cbn. assumption. Qed.
Lemma seen_blocks : forall t bs, filter seen (flat_map (block t) bs) = flat_map (ends t) bs.
Proof.
  induction bs as [|[[c l] x] bs IH]; [reflexivity|]. cbn [flat_map block ends]. rewrite filter_app, IH.
  cbn [filter seen]. rewrite filter_app, seen_eff. reflexivity.
Qed.
Definition hidden (l : label) : bool := negb (seen l).
Lemma hidden_eff : forall t l, filter hidden (map (eff t) l) = map (eff t) l.
Proof. induction l; [reflexivity|]. cbn. rewrite IHl. reflexivity. Qed.
Lemma hidden_blocks : forall t bs, filter hidden (flat_map (block t) bs) = map (eff t) (flat_map bops bs).
Proof.
  induction bs as [|[[c l] x] bs IH]; [reflexivity|]. cbn [flat_map block bops]. rewrite filter_app, IH, map_app.
  cbn [filter hidden seen negb]. rewrite filter_app, hidden_eff. cbn. rewrite app_nil_r. reflexivity.
Qed.
Lemma filter_comm : forall {A} (f g : A -> bool) l, filter f (filter g l) = filter g (filter f l).
Proof.
  induction l as [|x l IH]; [reflexivity|]. cbn [filter]. destruct (f x) eqn:Ef, (g x) eqn:Eg; cbn [filter]; rewrite ?Ef, ?Eg, IH; reflexivity.
Qed.

(** A task whose calls have all returned. *)
Lemma explained_blocks : forall loose t w h x, explained loose t w -> filter seen w = h ++ [Res t x] \/ filter seen w = [] ->
  exists bs, filter seen w = flat_map (ends t) bs /\ filter hidden w = map (eff t) (flat_map bops bs) /\ Forall (bdone loose) bs.
Proof.
  intros loose t w h x [H|(tr0 & c & l & l' & y & -> & _)] Hs.
  - destruct (calls_blocks _ _ _ H) as (bs & -> & F). exists bs. rewrite seen_blocks, hidden_blocks. auto.
  - exfalso. rewrite filter_app in Hs. cbn [filter seen] in Hs. rewrite seen_eff in Hs.
    destruct Hs as [Hs|Hs]; [|destruct (filter seen tr0); discriminate Hs].
    apply app_inj_tail in Hs. destruct Hs. discriminate.
Qed.

Lemma effs_hidden : forall tr, effs tr = flat_map (fun l => match l with Eff _ o x => [(o, x)] | _ => [] end) (filter hidden tr).
Proof. unfold effs. induction tr as [|[| |] tr IH]; cbn; rewrite ?IH; reflexivity. Qed.

Lemma merge : forall (A : list label) b E, (forall l, In l E -> who l = 0%nat \/ who l = 1%nat) ->
  filter (of 0) E = A -> filter (of 1) E = [b] -> exists A1 A2, A = A1 ++ A2 /\ E = A1 ++ b :: A2.
Proof.
  intros A b E. revert A. induction E as [|e E IH]; intros A Hw H0 H1; [discriminate|].
  cbn [filter] in *. unfold of at 1 in H0. unfold of at 1 in H1.
  destruct (Hw e (or_introl eq_refl)) as [G|G]; rewrite G in *; cbn [Nat.eqb] in *.
  - destruct A as [|a A]; [discriminate|]. injection H0 as -> H0.
    destruct (IH A) as (A1 & A2 & -> & ->); auto. { intros l Hl. apply Hw. right. exact Hl. }
    exists (a :: A1), A2. auto.
  - injection H1 as -> H1. exists [], A. split; [reflexivity|]. cbn. f_equal.
    rewrite <- H0. clear - Hw H1. induction E as [|e E IH]; [reflexivity|]. cbn [filter] in *. unfold of at 1. unfold of at 1 in H1.
    destruct (Hw e (or_intror (or_introl eq_refl))) as [G|G]; rewrite G in *; cbn [Nat.eqb] in *; [|discriminate].
    f_equal. apply IH; [|exact H1]. intros l Hl. apply Hw. destruct Hl; [left; assumption|right; right; assumption].
Qed.

(** Nothing but one order of the operations fits the results, and it gives another log. *)
Lemma ex_not_serial : forall s, wrun ex_s0 ex_sched = Ok s -> ~ serial false ex_s0 ex_sched s.
Proof.
  intros s Hs (tr & Hh & Hx & Hr).
  assert (Eh : history ex_s0 ex_sched = ex_hist) by (vm_compute; reflexivity).
  rewrite Eh in Hh. clear Eh.
  assert (H0 : filter hidden (filter (of 0) tr) =
    [Eff 0 ex_o (OutVal 0); Eff 0 ex_i (OutVal 0); Eff 0 (wop ex_a) (OutVal 30)]).
  { destruct (explained_blocks false 0 _ [Inv 0 (COther ex_o); Res 0 (OutVal 0); Inv 0 (COther ex_i); Res 0 (OutVal 0); Inv 0 (CWrite ex_a)]
      (OutVal 30) (Hx 0%nat)) as (bs & A & B & F).
    - left. rewrite filter_comm, Hh. reflexivity.
    - rewrite filter_comm, Hh in A. rewrite B. clear - A F.
      destruct bs as [|[[c1 l1] x1] bs]; [discriminate A|]. destruct bs as [|[[c2 l2] x2] bs]; [discriminate A|].
      destruct bs as [|[[c3 l3] x3] bs]; [discriminate A|]. destruct bs as [|[[c4 l4] x4] bs]; [|discriminate A].
      cbn in A. inversion A. subst. inversion F as [|? ? F1 F']. inversion F' as [|? ? F2 F'']. inversion F'' as [|? ? F3 _].
      subst. cbn [bdone] in *. inversion F1; inversion F2; inversion F3; subst; try discriminate; reflexivity. }
  assert (H1 : filter hidden (filter (of 1) tr) = [Eff 1 (wop ex_b) (OutVal 2)]).
  { destruct (explained_blocks false 1 _ [Inv 1 (CWrite ex_b)] (OutVal 2) (Hx 1%nat)) as (bs & A & B & F).
    - left. rewrite filter_comm, Hh. reflexivity.
    - rewrite filter_comm, Hh in A. rewrite B. clear - A F.
      destruct bs as [|[[c1 l1] x1] bs]; [discriminate A|]. destruct bs as [|[[c4 l4] x4] bs]; [|discriminate A].
      cbn in A. inversion A. subst. inversion F as [|? ? F1 _].
      subst. cbn [bdone] in *. inversion F1; subst; try discriminate; reflexivity. }
  assert (Hw : forall l, In l (filter hidden tr) -> who l = 0%nat \/ who l = 1%nat).
  { intros l Hl. destruct (who l) as [|[|u]] eqn:Ew; auto. exfalso.
    destruct (explained_blocks false (S (S u)) _ [] (OutVal 0) (Hx (S (S u)))) as (bs & A & B & F).
    - right. rewrite filter_comm, Hh. reflexivity.
    - rewrite filter_comm, Hh in A. destruct bs as [|[[c1 l1] x1] bs]; [|discriminate A]. cbn in B.
      apply filter_In in Hl. assert (X : In l []); [rewrite <- B|contradiction].
      apply filter_In. split; [|apply Hl]. apply filter_In. split; [apply Hl|]. unfold of. rewrite Ew. apply Nat.eqb_refl. }
  rewrite filter_comm in H0, H1.
  destruct (merge _ _ _ Hw H0 H1) as (A1 & A2 & EA & EE).
  rewrite effs_hidden, EE in Hr. clear EE Hw H0 H1 Hx Hh.
  assert (Hb : ex_bytes (s_dev s) = [10; 0; 24; 0] ++ zrepeat 65 30 ++ [7; 0; 24; 0; 100; 0]).
  { assert (X : match wrun ex_s0 ex_sched with Ok s => ex_bytes (s_dev s) | Bug _ => [] end =
      [10; 0; 24; 0] ++ zrepeat 65 30 ++ [7; 0; 24; 0; 100; 0]) by (vm_compute; reflexivity). rewrite Hs in X. exact X. }
  clear Hs. apply (f_equal ex_look) in Hr.
  destruct A1 as [|a1 A1]; [|destruct A1 as [|a2 A1]; [|destruct A1 as [|a3 A1]; [|destruct A1 as [|a4 A1]]]];
    cbn [app] in EA; inversion EA; subst; try clear EA;
    cbn [app flat_map map fst snd] in Hr; unfold ex_look at 2 in Hr; rewrite Hb in Hr; clear Hb;
    try (vm_compute in Hr; discriminate Hr).
Qed.

Theorem C150_raw_refuted : exists nm mem pow2 n l s, init_ok nm mem pow2 /\ Forall user_event l /\
  wrun (wstart nm mem pow2 n) l = Ok s /\ ~ serial false (wstart nm mem pow2 n) l s.
Proof.
  assert (Hu : Forall user_event ex_sched) by (repeat constructor).
  destruct (wrun_inv ex_sched _ (wstart_inv ex_nm ex_init 14 2 ex_init_ok) Hu) as (s & E & _).
  exists ex_nm, ex_init, 14, 2%nat, ex_sched, s. split; [exact ex_init_ok|]. split; [exact Hu|]. split; [exact E|].
  apply ex_not_serial. exact E.
Qed.

(** ** Schedules with no change of a raw mode *)

Definition raw_call (c : call) : bool := match c with COther (OpIoctl _ (SetRawMode _ _ _) _) => true | _ => false end.
Definition raw_pc (p : pc) : bool :=
  match p with OLock (OpIoctl _ (SetRawMode _ _ _) _) | OBody (OpIoctl _ (SetRawMode _ _ _) _) => true | _ => false end.
Definition raw_free (s : state) : Prop := forall t th, nth_error (s_ths s) t = Some th -> raw_pc (t_pc th) = false.
Definition no_raw (l : list (nat * act)) : Prop :=
  Forall (fun e => match snd e with Call c => raw_call c = false | _ => True end) l.

Lemma raw_free_put : forall s d mx wq t th, raw_free s -> raw_pc (t_pc th) = false -> raw_free (mkS d mx wq (put t th (s_ths s))).
Proof.
  intros s d mx wq t th H Hp u y Hu. cbn [s_ths] in Hu. rewrite nth_put in Hu. destruct (Nat.eqb u t); [|eapply H; exact Hu].
  destruct (nth_error (s_ths s) t); [congruence|discriminate].
Qed.

Lemma raw_free_step : forall s e s', raw_free s -> match snd e with Call c => raw_call c = false | _ => True end ->
  wstep s e = Ok s' -> raw_free s'.
Proof.
  intros s [t ac] s' H Hc Hs. unfold wstep in Hs. destruct (nth_error (s_ths s) t) as [th|] eqn:Ht; [|injection Hs as <-; exact H].
  pose proof (H t th Ht) as Hp. destruct ac as [c| |]; cbn [snd] in Hc.
  - destruct (t_pc th) eqn:Ep; try (injection Hs as <-; exact H). injection Hs as <-. apply raw_free_put; [exact H|].
    destruct c as [a|w|f u|o]; cbn [start].
    + destruct (the_reader _ _); [destruct (closing _ _)|]; reflexivity.
    + destruct (lookup _ _); [destruct (_ && _)|]; reflexivity.
    + destruct (the_reader _ _); [destruct (closing _ _)|]; reflexivity.
    + destruct o; try (rewrite Ep; reflexivity); cbn [set_pc t_pc raw_pc]; try reflexivity.
      * destruct (_ || _); reflexivity.
      * destruct (closing _ _); [reflexivity|]. destruct c; try reflexivity; discriminate Hc.
  - unfold go in Hs. destruct (t_pc th) as [| c | c | c | c e | c e | c | c ret | c | c | c x
      | w | w raw | w raw | v | v | f u | f u | f u | f u b | f u b | f u | f u | f u | f u | x | o | o | x] eqn:Ep;
    try (injection Hs as <-; exact H);
    try (injection Hs as <-; unfold lock; try (destruct (s_mx s); [exact H|]); (apply raw_free_put; [exact H|]);
         cbn [t_pc set_pc set_run set_trig ret_user]; try reflexivity; exact Hp).
    + destruct (the_reader _ _); [|discriminate]. injection Hs as <-. apply raw_free_put; [exact H|reflexivity].
    + destruct (negb e); [|destruct (ra_nb c); [|destruct (t_sig th)]]; injection Hs as <-; (apply raw_free_put; [exact H|reflexivity]).
    + destruct (t_run th); injection Hs as <-; [|exact H]. apply raw_free_put; [exact H|reflexivity].
    + injection Hs as <-. apply raw_free_put; [exact H|]. destruct (ret =? 0); reflexivity.
    + apply bind_ok in Hs. destruct Hs as ([d' x] & Es & Hs). injection Hs as <-. apply raw_free_put; [exact H|reflexivity].
    + injection Hs as <-. apply raw_free_put; [exact H|]. destruct x; reflexivity.
    + destruct (lookup _ _) as [g|]; [|discriminate]. destruct (write_locks _ _ _).
      * injection Hs as <-. apply raw_free_put; [exact H|reflexivity].
      * apply bind_ok in Hs. destruct Hs as ([d' x] & Es & Hs). injection Hs as <-. apply raw_free_put; [exact H|reflexivity].
    + apply bind_ok in Hs. destruct Hs as ([d' x] & Es & Hs). injection Hs as <-. apply raw_free_put; [exact H|reflexivity].
    + injection Hs as <-. apply raw_free_put; [exact H|]. destruct (v <? 0); reflexivity.
    + injection Hs as <-. apply (raw_free_put (mkS (s_dev s) (s_mx s) (s_wq s) (wake_all (s_wq s) 0 (s_ths s)))); [|reflexivity].
      intros u y Hu. cbn [s_ths] in Hu. rewrite nth_wake in Hu. destruct (nth_error (s_ths s) u) as [z|] eqn:Ez; [|discriminate].
      cbn in Hu. injection Hu as <-. rewrite wake_one_pc. eapply H. exact Ez.
    + apply bind_ok in Hs. destruct Hs as ([d' x] & Es & Hs). destruct x; try discriminate Hs. injection Hs as <-. apply raw_free_put; [exact H|reflexivity].
    + destruct b; [|destruct (t_sig th)]; injection Hs as <-; (apply raw_free_put; [exact H|reflexivity]).
    + injection Hs as <-. apply raw_free_put; [exact H|]. destruct (t_trig th); reflexivity.
    + destruct (t_run th); injection Hs as <-; [|exact H]. apply raw_free_put; [exact H|reflexivity].
    + apply bind_ok in Hs. destruct Hs as ([d' x] & Es & Hs). injection Hs as <-. apply raw_free_put; [exact H|reflexivity].
  - injection Hs as <-. apply raw_free_put; [exact H|exact Hp].
Qed.

Lemma raw_free_run : forall l s s', raw_free s -> no_raw l -> wrun s l = Ok s' -> raw_free s'.
Proof.
  induction l as [|e l IH]; intros s s' H Hn Hr; cbn [wrun] in Hr; [injection Hr as <-; exact H|].
  apply bind_ok in Hr. destruct Hr as (s1 & E & Hr). inversion Hn; subst. eapply IH; [|eassumption|exact Hr].
  eapply raw_free_step; eassumption.
Qed.

(** In particular, tasks that never change a raw mode. *)
Theorem C150_no_raw : forall nm mem pow2 n l, init_ok nm mem pow2 -> Forall user_event l -> no_raw l ->
  calm (wstart nm mem pow2 n) l /\
  exists s, wrun (wstart nm mem pow2 n) l = Ok s /\ serial false (wstart nm mem pow2 n) l s.
Proof.
  intros nm mem pow2 n l Hi Hu Hn.
  assert (HC : calm (wstart nm mem pow2 n) l).
  { intros l1 l2 s1 -> Hr t u th thu f Ht _ Hs _. apply Forall_app in Hn.
    assert (F : raw_free s1).
    { refine (raw_free_run l1 _ s1 _ (proj1 Hn) Hr). intros v y Hy. apply nth_error_In, repeat_spec in Hy. subst. reflexivity. }
    specialize (F t th Ht). destruct (t_pc th); try contradiction. destruct o; try contradiction. destruct c; try contradiction.
    discriminate F. }
  split; [exact HC|]. apply C150_serial_partial; assumption.
Qed.

(** The reader asleep and the writer about to wake it of [C18_ex]. *)
Example C150_no_raw_ex : init_ok ex_nm ex_init 14 /\ Forall user_event exq_sched /\ no_raw exq_sched /\
  calm (wstart ex_nm ex_init 14 2) exq_sched.
Proof.
  assert (Hu : Forall user_event exq_sched) by (repeat constructor).
  assert (Hn : no_raw exq_sched) by (repeat constructor).
  split; [exact ex_init_ok|]. split; [exact Hu|]. split; [exact Hn|].
  apply (C150_no_raw ex_nm ex_init 14 2 exq_sched ex_init_ok Hu Hn).
Qed.
Example C150_accepted_ex : history (wstart [] [] 14 1) [(0%nat, Call (COther ex_o))] = [Inv 0 (COther ex_o)].
Proof. reflexivity. Qed.

Print Assumptions C150_serial_partial.
Print Assumptions C150_device.
Print Assumptions C150_modes.
Print Assumptions C150_accepted.
Print Assumptions C150_raw_refuted.
Print Assumptions C150_no_raw.
