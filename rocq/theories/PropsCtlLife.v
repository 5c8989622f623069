(** C145: the lives of the programs of the log control and the signals that end them. Vocabulary: CtlLife.v (the
    world and the observable events), CtlLifeSpec.v ([sound], [quiet], [prompt]). *)
From Coq Require Import ZArith String List Bool Lia ZifyBool ZifyNat Arith.
From Verif Require Import Bytes CtlLife CtlLifeSpec.
Import ListNotations.
Open Scope Z_scope.

Lemma sound_app a b h : sound h (a ++ b) = match sound h a with Some h => sound h b | None => None end.
Proof. revert h. induction a as [|e a IH]; intros h; [reflexivity|]. cbn [app sound]. destruct (sound_call h e); auto. Qed.

(** What is held, from the pointers. *)
Definition hold (c : life) : list obj := (if a_ctl c then [OCtl] else []) ++ (if a_timer c then [OTimer] else []) ++ (if a_loop c then [OLoop] else []).
Record good (c : life) : Prop := {
  g_sound : sound [] (a_tr c) = Some (hold c);
  g_base : a_ctl c || a_timer c = true -> a_loop c = true;
  g_stop : In Handler (a_tr c) -> a_stopped c = true;
  g_prompt : prompt (a_tr c);
  g_live : ~ In (Free OLoop) (a_tr c) }.
Definition same_ptrs (c d : life) : Prop := a_loop d = a_loop c /\ a_timer d = a_timer c /\ a_ctl d = a_ctl c.

Lemma prompt_snoc t e : is_wait e = false -> prompt t -> prompt (t ++ [e]).
Proof.
  intros N P a b H. destruct (exists_last (l := Handler :: b) ltac:(discriminate)) as (x & y & E). rewrite E, app_assoc in H.
  apply app_inj_tail in H. destruct H as [H ->]. destruct x as [|z x].
  - injection E as E1 E2. subst. cbn. lia.
  - cbn in E. injection E as E1 E2. subst z b. rewrite filter_app, app_length. cbn [filter]. rewrite N. cbn. rewrite Nat.add_0_r. apply (P a x H).
Qed.
Lemma prompt_after t s : ~ In Handler t -> (length (filter is_wait s) <= 1)%nat -> prompt (t ++ s).
Proof.
  intros N L. induction t as [|x t IH].
  - intros a b H. cbn in H. subst s. rewrite filter_app, app_length in L. cbn [filter] in L. cbn [is_wait] in L. lia.
  - intros a b H. destruct a as [|y a]; cbn in H; injection H as H1 H2; [exfalso; apply N; left; exact H1|].
    apply (IH ltac:(intros X; apply N; now right) a b H2).
Qed.

Lemma good_note c e : good c -> sound_call (hold c) e = Some (hold c) -> is_wait e = false -> e <> Handler -> e <> Free OLoop -> good (note c e).
Proof.
  intros [] H W N F. constructor; cbn [note a_tr a_stopped a_loop a_timer a_ctl]; auto.
  - rewrite sound_app, g_sound0. cbn [sound]. unfold note in *. cbn in *. rewrite H. reflexivity.
  - intros X. apply in_app_or in X. destruct X as [X|[X|[]]]; [auto|now elim N].
  - now apply prompt_snoc.
  - intros X. apply in_app_or in X. destruct X as [X|[X|[]]]; [auto|now elim F].
Qed.
Lemma hold_loop c : a_loop c = true -> has OLoop (hold c) = true.
Proof. intros H. unfold hold, has. rewrite H. destruct (a_ctl c), (a_timer c); reflexivity. Qed.
Lemma good_sig c : good c -> good (sig_handler c) /\ same_ptrs c (sig_handler c) /\ (a_loop c = true -> a_woken (sig_handler c) = true).
Proof.
  intros G. pose proof G as []. 
  assert (G1 : good (mkApp (a_loop c) (a_timer c) (a_ctl c) true (a_woken c) (a_tr c ++ [Handler]))).
  { constructor; cbn [a_tr a_stopped a_loop a_timer a_ctl]; auto.
    - rewrite sound_app, g_sound0. reflexivity.
    - now apply prompt_snoc.
    - intros X. apply in_app_or in X. destruct X as [X|[X|[]]]; [auto|discriminate X]. }
  unfold sig_handler. cbn [note a_loop a_timer a_ctl a_stopped a_woken a_tr]. destruct (a_loop c) eqn:E.
  - split; [|split; [unfold same_ptrs; cbn; auto|auto]].
    apply (good_note (mkApp true (a_timer c) (a_ctl c) true true (a_tr c ++ [Handler])) Wake).
    + destruct G1. constructor; auto.
    + cbn [sound_call]. rewrite hold_loop by reflexivity. reflexivity.
    + reflexivity.
    + discriminate.
    + discriminate.
  - split; [exact G1|]. split; [unfold same_ptrs; cbn; auto|discriminate].
Qed.
Lemma good_point w c : good c -> good (point w c) /\ same_ptrs c (point w c).
Proof. intros G. unfold point. destruct (w_signal w (a_tr c)); [apply good_sig in G; tauto|]. split; [exact G|]. repeat split. Qed.
Lemma ptrs_trans a b c : same_ptrs a b -> same_ptrs b c -> same_ptrs a c.
Proof. unfold same_ptrs. intuition congruence. Qed.
Lemma good_call w c e : good c -> sound_call (hold c) e = Some (hold c) -> is_wait e = false -> e <> Handler -> e <> Free OLoop ->
  good (call w c e) /\ same_ptrs c (call w c e).
Proof.
  intros. unfold call. assert (G : good (note c e)) by now apply good_note. destruct (good_point w _ G) as [G' S]. split; [exact G'|].
  eapply ptrs_trans; [|exact S]. repeat split.
Qed.
Lemma good0 : good app0.
Proof. constructor; cbn; auto. intros [|? ?] b H; discriminate H. Qed.
Lemma prompt_eq t e : prompt t -> is_wait e = false -> prompt (t ++ [e]). Proof. intros. now apply prompt_snoc. Qed.

Lemma good_loop w c : good c -> a_loop c = false -> a_timer c = false -> a_ctl c = false ->
  good (make_loop w c) /\ a_timer (make_loop w c) = false /\ a_ctl (make_loop w c) = false.
Proof.
  intros G L T C. unfold make_loop. destruct (w_loop w); [|auto]. cbn [note a_loop a_timer a_ctl a_stopped a_woken a_tr].
  match goal with |- good (point _ ?d) /\ _ => set (d1 := d); assert (G1 : good d1) end.
  { destruct G. constructor; cbn [d1 a_tr a_stopped a_loop a_timer a_ctl]; auto.
    - rewrite sound_app, g_sound0. unfold hold, d1. cbn [a_ctl a_timer a_loop]. rewrite ?L, ?T, ?C. reflexivity.
    - intros X. apply in_app_or in X. destruct X as [X|[X|[]]]; [auto|discriminate X].
    - now apply prompt_snoc.
    - intros X. apply in_app_or in X. destruct X as [X|[X|[]]]; [auto|discriminate X]. }
  destruct (good_point w _ G1) as [G2 (_ & S1 & S2)]. split; [exact G2|]. rewrite S1, S2. cbn. auto.
Qed.
Lemma good_timer w c : good c -> a_timer c = false -> a_ctl c = false -> good (make_timer w c) /\ a_ctl (make_timer w c) = false.
Proof.
  intros G T C. unfold make_timer. destruct (a_loop c) eqn:L; cbn [andb]; [|auto]. destruct (w_timer w); [|auto]. cbn [note a_loop a_timer a_ctl a_stopped a_woken a_tr].
  match goal with |- good (point _ ?d) /\ _ => set (d1 := d); assert (G1 : good d1) end.
  { destruct G. constructor; cbn [d1 a_tr a_stopped a_loop a_timer a_ctl]; auto.
    - rewrite sound_app, g_sound0. unfold hold, d1. cbn [a_ctl a_timer a_loop]. rewrite ?L, ?T, ?C. reflexivity.
    - intros X. apply in_app_or in X. destruct X as [X|[X|[]]]; [auto|discriminate X].
    - now apply prompt_snoc.
    - intros X. apply in_app_or in X. destruct X as [X|[X|[]]]; [auto|discriminate X]. }
  destruct (good_point w _ G1) as [G2 (_ & S1 & S2)]. split; [exact G2|]. rewrite S2. cbn. auto.
Qed.
Lemma good_ctl w c : good c -> a_ctl c = false -> good (fst (make_ctl w c)).
Proof.
  intros G C. unfold make_ctl. destruct (a_loop c) eqn:L; cbn [negb]; [|auto]. destruct (w_new w) as [res ptr]. destruct (res <? 0); [auto|]. destruct ptr; [|auto].
  cbn [note a_loop a_timer a_ctl a_stopped a_woken a_tr fst].
  match goal with |- good (point _ ?d) => set (d1 := d); assert (G1 : good d1) end.
  { destruct G. constructor; cbn [d1 a_tr a_stopped a_loop a_timer a_ctl]; auto.
    - rewrite sound_app, g_sound0. unfold hold, d1. cbn [a_ctl a_timer a_loop]. rewrite ?L, ?C. destruct (a_timer c); reflexivity.
    - intros X. apply in_app_or in X. destruct X as [X|[X|[]]]; [auto|discriminate X].
    - now apply prompt_snoc.
    - intros X. apply in_app_or in X. destruct X as [X|[X|[]]]; [auto|discriminate X]. }
  apply (good_point w _ G1).
Qed.
Lemma use_ok c o : (match o with OLoop => a_loop c | OTimer => a_timer c | OCtl => a_ctl c end) = true -> sound_call (hold c) (Use o) = Some (hold c).
Proof. intros H. cbn [sound_call]. unfold has, hold. destruct o; rewrite H; destruct (a_ctl c), (a_timer c), (a_loop c); reflexivity. Qed.
Lemma good_on_ctl w c r : good c -> good (fst (on_ctl w c r)) /\ same_ptrs c (fst (on_ctl w c r)).
Proof.
  intros G. unfold on_ctl. destruct (a_ctl c) eqn:C; cbn [fst]; [|split; [exact G|repeat split]].
  apply good_call; auto; try discriminate. now apply use_ok.
Qed.
Lemma good_on_timer w c r : good c -> good (fst (on_timer w c r)) /\ same_ptrs c (fst (on_timer w c r)).
Proof.
  intros G. unfold on_timer. destruct (a_timer c) eqn:C; cbn [fst]; [|split; [exact G|repeat split]].
  apply good_call; auto; try discriminate. now apply use_ok.
Qed.

(** What is true of a whole run. *)
Definition whole (r : life * outcome) : Prop :=
  sound [] (a_tr (fst r)) = Some (match snd r with Ended _ => [] | _ => hold (fst r) end) /\ prompt (a_tr (fst r)) /\
  (match snd r with Ended _ => True | _ => ~ In Handler (a_tr (fst r)) end).
Lemma good_free (w : world) c o : good c -> o <> OLoop -> (match o with OLoop => a_loop c | OTimer => a_timer c && negb (a_ctl c) | OCtl => a_ctl c end) = true ->
  forall d, d = mkApp (a_loop c) (match o with OTimer => false | _ => a_timer c end) (match o with OCtl => false | _ => a_ctl c end) (a_stopped c) (a_woken c) (a_tr c ++ [Free o]) -> good d.
Proof.
  intros G N H d ->. destruct G. constructor; cbn [a_tr a_stopped a_loop a_timer a_ctl]; auto.
  - rewrite sound_app, g_sound0. unfold hold in *. cbn [a_loop a_timer a_ctl]. destruct o; [now elim N| |].
    + destruct (a_timer c), (a_ctl c); try discriminate H. destruct (a_loop c); reflexivity.
    + rewrite H. destruct (a_timer c), (a_loop c); reflexivity.
  - intros X. apply g_base0. destruct o, (a_ctl c), (a_timer c); auto; discriminate X.
  - intros X. apply in_app_or in X. destruct X as [X|[X|[]]]; [auto|discriminate X].
  - now apply prompt_snoc.
  - intros X. apply in_app_or in X. destruct X as [X|[X|[]]]; [auto|]. injection X as X. auto.
Qed.
(** The pointers keep their values: the same run, the pointers of freed objects reset. *)
Definition sim (c d : life) : Prop := a_loop c = a_loop d /\ a_stopped c = a_stopped d /\ a_woken c = a_woken d /\ a_tr c = a_tr d.
Lemma sim_sig c d : sim c d -> sim (sig_handler c) (sig_handler d).
Proof. intros (A & B & C & D). unfold sim, sig_handler, note. cbn. rewrite A, D. destruct (a_loop d); cbn; rewrite ?C, ?D; auto. Qed.
Lemma sim_point w c d : sim c d -> sim (point w c) (point w d).
Proof. intros H. unfold point. pose proof H as (_ & _ & _ & D). rewrite D. destruct (w_signal w (a_tr d)); [now apply sim_sig|exact H]. Qed.
Lemma sim_call w c d e : sim c d -> sim (call w c e) (call w d e).
Proof. intros H. unfold call. apply sim_point. destruct H as (A & B & C & D). unfold sim, note. cbn. rewrite D. auto. Qed.

Lemma cleanup_whole w c : quiet w -> good c -> whole (cleanup w c).
Proof.
  intros Q G. unfold cleanup.
  (* the timer is cleared *)
  set (c1 := if a_timer c then call w c (Use OTimer) else c).
  assert (G1 : good c1 /\ same_ptrs c c1).
  { unfold c1. destruct (a_timer c) eqn:T; [|split; [exact G|repeat split]]. apply good_call; auto; try discriminate. now apply use_ok. }
  destruct G1 as [G1 (P1 & P2 & P3)].
  (* the server is stopped and freed *)
  set (c2 := if a_ctl c1 then call w (call w c1 (Use OCtl)) (Free OCtl) else c1).
  assert (G2 : exists d, sim c2 d /\ good d /\ a_timer d = a_timer c1 /\ a_ctl d = false /\ a_timer c2 = a_timer c1 /\ a_loop c2 = a_loop c1 /\ a_loop d = a_loop c1).
  { unfold c2. destruct (a_ctl c1) eqn:C.
    - destruct (good_call w c1 (Use OCtl) G1 (use_ok c1 OCtl C) eq_refl ltac:(discriminate) ltac:(discriminate)) as [G2 (S1 & S2 & S3)].
      set (k := call w c1 (Use OCtl)) in *.
      assert (GK := good_free w k OCtl G2 ltac:(discriminate) ltac:(rewrite S3; exact C) _ eq_refl).
      match type of GK with good ?x => set (k2 := x) in * end.
      destruct (good_point w k2 GK) as [G3 (T1 & T2 & T3)]. exists (point w k2).
      assert (S : sim (note k (Free OCtl)) k2) by (unfold k2; repeat split).
      assert (SP : same_ptrs k (call w k (Free OCtl))).
      { unfold call, point. destruct (w_signal w _); [|repeat split]. unfold sig_handler, note, same_ptrs. cbn. destruct (a_loop k) eqn:EE; cbn; auto. }
      destruct SP as (U1 & U2 & U3).
      split; [apply sim_point; exact S|]. split; [exact G3|]. rewrite T1, T2, T3, U1, U2. unfold k2. cbn. rewrite S1, S2. auto 12.
    - exists c1. split; [repeat split|]. auto 12. }
  destruct G2 as (d2 & S2 & G2 & T2 & C2 & T2' & L2 & L2').
  set (c3 := if a_timer c2 then call w c2 (Free OTimer) else c2).
  assert (G3 : exists d, sim c3 d /\ good d /\ a_timer d = false /\ a_ctl d = false /\ a_loop c3 = a_loop c1 /\ a_loop d = a_loop c1).
  { unfold c3. destruct (a_timer c2) eqn:T.
    - assert (GK := good_free w d2 OTimer G2 ltac:(discriminate) ltac:(rewrite T2, C2; rewrite <- T2'; reflexivity) _ eq_refl).
      match type of GK with good ?x => set (k2 := x) in * end.
      destruct (good_point w k2 GK) as [G3 (W1 & W2 & W3)]. exists (point w k2).
      assert (S : sim (note c2 (Free OTimer)) k2).
      { destruct S2 as (A & B & C & D). unfold k2, sim, note. cbn. rewrite D. auto. }
      assert (SS := sim_point w _ _ S). split; [exact SS|]. split; [exact G3|]. rewrite W2, W3. split; [reflexivity|]. split; [exact C2|].
      destruct SS as (A & _). unfold call. rewrite A, W1. unfold k2. cbn. rewrite L2'. auto.
    - exists d2. split; [exact S2|]. split; [exact G2|]. rewrite T2, <- T2', C2, L2, L2'. auto. }
  destruct G3 as (d3 & S3 & G3 & T3 & C3 & L3 & L3').
  unfold whole. cbn [fst snd]. destruct S3 as (_ & _ & _ & E3). destruct G3 as [A B _ D F]. unfold hold in A. rewrite T3, C3, L3' in A. cbn [app] in A.
  rewrite L3. destruct (a_loop c1) eqn:L.
  - assert (EC : a_tr (call w c3 (Free OLoop)) = a_tr c3 ++ [Free OLoop]).
    { unfold call, point. cbn [note a_tr]. rewrite Q; [reflexivity|]. apply in_or_app. right. now left. }
    rewrite EC, E3. split; [|split; [now apply prompt_snoc|exact I]]. rewrite sound_app, A. reflexivity.
  - rewrite E3. split; [exact A|]. split; [exact D|exact I].
Qed.
Lemma fail_whole w c : quiet w -> good c -> whole (fail w c).
Proof. intros Q G. unfold fail. apply cleanup_whole; [exact Q|]. apply good_call; auto; discriminate. Qed.

Lemma turn_good w c : good c -> a_loop c = true -> a_stopped c = false ->
  let d := point w (note (point w c) Wait) in
  good d /\ same_ptrs c d /\ (a_woken d = false -> ~ In Handler (a_tr d)).
Proof.
  intros G L S. assert (NH : ~ In Handler (a_tr c)) by (intros X; apply (g_stop _ G) in X; congruence).
  destruct (good_point w c G) as [G1 (P1 & P2 & P3)].
  assert (E1 : exists p, a_tr (point w c) = a_tr c ++ p /\ filter is_wait p = [] /\ (In Handler p -> a_woken (point w c) = true)).
  { unfold point. destruct (w_signal w (a_tr c)); [|exists []; rewrite app_nil_r; cbn; auto; repeat split; intros []].
    unfold sig_handler, note. cbn. rewrite L. cbn. exists [Handler; Wake]. rewrite <- app_assoc. cbn. auto. }
  destruct E1 as (p & E1 & F1 & W1).
  assert (G2 : good (note (point w c) Wait)).
  { destruct G1. constructor; cbn [note a_tr a_stopped a_loop a_timer a_ctl]; auto.
    - rewrite sound_app, g_sound0. cbn [sound sound_call]. rewrite hold_loop by (rewrite P1; exact L). reflexivity.
    - intros X. apply in_app_or in X. destruct X as [X|[X|[]]]; [auto|discriminate X].
    - rewrite E1, <- app_assoc. apply prompt_after; [exact NH|]. rewrite filter_app, F1. cbn. lia.
    - intros X. apply in_app_or in X. destruct X as [X|[X|[]]]; [auto|discriminate X]. }
  intros d. destruct (good_point w _ G2) as [G3 (Q1 & Q2 & Q3)]. fold d in G3, Q1, Q2, Q3. cbn [note a_loop a_timer a_ctl] in Q1, Q2, Q3.
  split; [exact G3|]. split; [unfold same_ptrs; rewrite Q1, Q2, Q3; auto|].
  intros W X. assert (D : d = if w_signal w (a_tr (point w c) ++ [Wait]) then sig_handler (note (point w c) Wait) else note (point w c) Wait) by reflexivity.
  rewrite D in W, X. destruct (w_signal w (a_tr (point w c) ++ [Wait])).
  - destruct (good_sig _ G2) as (_ & _ & Y). rewrite Y in W; [discriminate W|]. cbn [note a_loop]. rewrite P1. exact L.
  - cbn [a_woken note a_tr] in W, X. rewrite E1 in X. apply in_app_or in X. destruct X as [X|[X|[]]]; [|discriminate X].
    apply in_app_or in X. destruct X as [X|X]; [now apply NH|]. rewrite W1 in W by exact X. discriminate W.
Qed.
Lemma good_set c s k : good c -> (a_stopped c = true -> s = true) -> good (mkApp (a_loop c) (a_timer c) (a_ctl c) s k (a_tr c)).
Proof. intros [] H. constructor; cbn [a_tr a_stopped a_loop a_timer a_ctl]; auto. Qed.
Lemma turns_good w rounds : forall c, good c -> a_loop c = true ->
  good (fst (turns w rounds c)) /\ match snd (turns w rounds c) with None => True | Some o => (o = Running \/ o = Blocked) /\ ~ In Handler (a_tr (fst (turns w rounds c))) end.
Proof.
  induction rounds as [|r rounds IH]; intros c G L; cbn [turns]; destruct (a_stopped c) eqn:S.
  - cbn. auto.
  - cbn. split; [exact G|]. split; [auto|]. intros X. apply (g_stop _ G) in X. congruence.
  - cbn. auto.
  - destruct (turn_good w c G L S) as (G1 & (P1 & P2 & P3) & W). set (d := point w (note (point w c) Wait)) in *. cbv zeta.
    destruct (a_woken d) eqn:E.
    + apply IH; [|cbn; congruence]. apply good_set; [exact G1|]. intros ->. destruct r as [|[]]; reflexivity.
    + destruct r as [|stop].
      * cbn. auto.
      * apply IH; [|destruct stop; cbn; congruence]. destruct stop; [|exact G1]. apply good_set; auto.
Qed.
Lemma finish_whole w c : quiet w -> good c -> a_loop c = true -> whole (finish w c).
Proof.
  intros Q G L. unfold finish. pose proof (turns_good w (w_rounds w) c G L) as T. destruct (turns w (w_rounds w) c) as (d, [o|]); cbn [fst snd] in T.
  - destruct T as (T & O & N). unfold whole. cbn [fst snd]. destruct T. destruct O as [-> | ->]; auto.
  - apply cleanup_whole; tauto.
Qed.
Lemma on_ctl_loop w c r : good c -> snd (on_ctl w c r) <? 0 = false -> a_loop (fst (on_ctl w c r)) = true /\ a_ctl (fst (on_ctl w c r)) = true.
Proof.
  intros G H. destruct (good_on_ctl w c r G) as [_ (P1 & _ & P3)]. rewrite P1, P3. unfold on_ctl in H. destruct (a_ctl c) eqn:C; [|discriminate H].
  split; [|reflexivity]. apply (g_base _ G). rewrite C. reflexivity.
Qed.

(** The server and the tool, whatever their calls return and whenever signals arrive before the loop is destroyed:
    objects are used and destroyed only while they are held, when the program ends nothing is held; after a signal there is
    at most one more wait; a program that waits for ever has got no signal. *)
Theorem C145_server_partial : forall w addr c o, quiet w -> server w addr = (c, o) ->
  (exists held, sound [] (a_tr c) = Some held /\ (forall code, o = Ended code -> held = [])) /\ prompt (a_tr c) /\
  ((forall code, o <> Ended code) -> ~ In Handler (a_tr c)).
Proof.
  assert (X : forall w addr, quiet w -> whole (server w addr)).
  { intros w addr Q. unfold server. destruct (good_point w app0 good0) as [G0 (A1 & A2 & A3)].
    destruct (good_loop w _ G0 A1 A2 A3) as (G1 & T1 & C1). destruct (good_timer w _ G1 T1 C1) as (G2 & C2).
    set (c := make_timer w (make_loop w (point w app0))) in *.
    destruct addr; cbn [negb]; [|now apply fail_whole].
    pose proof (good_ctl w c G2 C2) as G3. destruct (make_ctl w c) as (c3, r3). cbn [fst] in G3. destruct (r3 <? 0); [now apply fail_whole|].
    destruct (good_on_ctl w c3 (w_start w) G3) as [G4 _]. pose proof (on_ctl_loop w c3 (w_start w) G3) as L4.
    destruct (on_ctl w c3 (w_start w)) as (c4, r4). cbn [fst snd] in *. destruct (r4 <? 0); [now apply fail_whole|]. destruct (L4 eq_refl) as [L5 _].
    destruct (good_on_timer w c4 (w_ask w) G4) as [G5 (P5 & _ & _)].
    destruct (on_timer w c4 (w_ask w)) as (c5, r5). cbn [fst snd] in *. destruct (r5 <? 0); [now apply fail_whole|].
    apply finish_whole; auto. congruence. }
  intros w addr c o Q E. specialize (X w addr Q). rewrite E in X. unfold whole in X. cbn [fst snd] in X. destruct X as (A & B & C).
  split; [eexists; split; [exact A|]|split; [exact B|]].
  - intros code ->. reflexivity.
  - intros N. destruct o; auto. now elim (N code).
Qed.
Theorem C145_tool_partial : forall w addr ask c o, quiet w -> tool w addr ask = (c, o) ->
  (exists held, sound [] (a_tr c) = Some held /\ (forall code, o = Ended code -> held = [])) /\ prompt (a_tr c) /\
  ((forall code, o <> Ended code) -> ~ In Handler (a_tr c)).
Proof.
  assert (X : forall w addr ask, quiet w -> whole (tool w addr ask)).
  { intros w addr ask Q. unfold tool. destruct (good_point w app0 good0) as [G0 (A1 & A2 & A3)].
    destruct addr; cbn [negb]; [|now apply fail_whole].
    destruct (good_loop w _ G0 A1 A2 A3) as (G1 & T1 & C1).
    set (c := make_loop w (point w app0)) in *.
    pose proof (good_ctl w c G1 C1) as G3. destruct (make_ctl w c) as (c3, r3). cbn [fst] in G3. destruct (r3 <? 0); [now apply fail_whole|].
    destruct (good_on_ctl w c3 (w_start w) G3) as [G4 _]. pose proof (on_ctl_loop w c3 (w_start w) G3) as L4.
    destruct (on_ctl w c3 (w_start w)) as (c4, r4). cbn [fst snd] in *. destruct (r4 <? 0); [now apply fail_whole|]. destruct (L4 eq_refl) as [L5 _].
    destruct ask; [|now apply finish_whole].
    destruct (good_on_ctl w c4 (w_ask w) G4) as [G5 (P5 & _ & _)].
    destruct (on_ctl w c4 (w_ask w)) as (c5, r5). cbn [fst snd] in *. destruct (r5 <? 0).
    - destruct (good_call w c5 Error G5 eq_refl eq_refl ltac:(discriminate) ltac:(discriminate)) as [G6 (P6 & _)]. apply finish_whole; auto. congruence.
    - apply finish_whole; auto. congruence. }
  intros w addr ask c o Q E. specialize (X w addr ask Q). rewrite E in X. unfold whole in X. cbn [fst snd] in X. destruct X as (A & B & C).
  split; [eexists; split; [exact A|]|split; [exact B|]].
  - intros code ->. reflexivity.
  - intros N. destruct o; auto. now elim (N code).
Qed.

(** A signal that arrives when the loop is destroyed makes both programs wake up a loop they have freed. *)
Definition late : world := mkW (fun t => existsb (fun e => match e with Free OLoop => true | _ => false end) t && negb (existsb (fun e => match e with Handler => true | _ => false end) t))
  true true (0, true) 0 0 [Event false; Event true].
Theorem C145_late_refuted : exists w, (exists c, server w true = (c, Ended 0) /\ sound [] (a_tr c) = None /\ (exists l, a_tr c = l ++ [Free OLoop; Handler; Wake])) /\
  (exists c, tool w true true = (c, Ended 0) /\ sound [] (a_tr c) = None /\ (exists l, a_tr c = l ++ [Free OLoop; Handler; Wake])).
Proof.
  exists late. split; eexists; (split; [reflexivity|]; split; [reflexivity|]); cbn; [exists [Get OLoop; Get OTimer; Get OCtl; Use OCtl; Use OTimer; Wait; Wait; Use OTimer; Use OCtl; Free OCtl; Free OTimer]; reflexivity|
    exists [Get OLoop; Get OCtl; Use OCtl; Use OCtl; Wait; Wait; Use OCtl; Free OCtl]; reflexivity].
Qed.
(** One would want the programs to tell by their exit code that they failed, and the tool to end when its request could not be made:
    neither is so. *)
Theorem C145_status_refuted : exists w, quiet w /\ w_start w < 0 /\ snd (server w true) = Ended 0 /\ snd (tool w true true) = Ended 0.
Proof. exists (mkW (fun _ => false) true true (0, true) (-98) 0 []). repeat split. Qed.
Theorem C145_request_refuted : exists w, quiet w /\ w_ask w < 0 /\ w_rounds w = [Event false; Nothing] /\ snd (tool w true true) = Blocked.
Proof. exists (mkW (fun _ => false) true true (0, true) 0 (-12) [Event false; Nothing]). repeat split. Qed.

(** A signal during the second wait, which would never end. *)
Definition timely : world := mkW (fun t => (length (filter is_wait t) =? 2)%nat && negb (existsb (fun e => match e with Handler | Free OLoop => true | _ => false end) t)) true true (0, true) 0 0 [Event false; Nothing; Nothing].
Example C145_ex : quiet timely /\
  server timely true = (mkApp true true true true false
    [Get OLoop; Get OTimer; Get OCtl; Use OCtl; Use OTimer; Wait; Wait; Handler; Wake; Use OTimer; Use OCtl; Free OCtl; Free OTimer; Free OLoop], Ended 0) /\
  snd (tool timely true false) = Ended 0.
Proof.
  split; [|split; reflexivity]. intros t H. cbn. apply andb_false_iff. right. apply negb_false_iff. apply existsb_exists. exists (Free OLoop). auto.
Qed.
Print Assumptions C145_server_partial.
Print Assumptions C145_tool_partial.
Print Assumptions C145_late_refuted.
Print Assumptions C145_status_refuted.
Print Assumptions C145_request_refuted.
