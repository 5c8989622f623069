(** Invariants of SignalLog.v. *)
From Coq Require Import ZArith String List Bool Lia ZifyBool ZifyNat Arith.
From Verif Require Import Bytes Parse BytesProofs.
From Verif Require Cookies Writer.
From Verif Require Import SignalLog.
Import ListNotations.
Open Scope Z_scope.

(** Functions that may be behind the copy to stderr. *)
Definition plain (w : Writer.wr) : Prop := match w with Writer.Init | Writer.Stderr _ => False | _ => True end.

(** Places where ctrl.lock is held. *)
Definition hold_r (p : Cookies.pc) : bool :=
  match p with
  | Cookies.Test _ _ _ | Cookies.SetNext _ _ _ | Cookies.SetHead _ _ _ | Cookies.SetLvl _ _ _ | Cookies.RdHook _ _
  | Cookies.Unlock _ _ _ | Cookies.TRead _ _ | Cookies.TWalk _ _ _ | Cookies.TUnlock _ _ _ | Cookies.NRead _
  | Cookies.NWalk _ _ _ | Cookies.NUnlock _ _ | Cookies.FRead | Cookies.FUnlock _ | Cookies.HSet _ | Cookies.HUnlock => true
  | _ => false
  end.
Definition hold_w (p : Writer.pc) : bool :=
  match p with
  | Writer.ITest _ | Writer.IOpen _ | Writer.IStat _ | Writer.IClose _ | Writer.IFd _ | Writer.IWriter _ | Writer.IW2 _ _
  | Writer.IW1 _ _ | Writer.IUnlock _ _ | Writer.GRead | Writer.GUnlock _ | Writer.S2 _ | Writer.S1 _ | Writer.SUnlock
  | Writer.DDev _ | Writer.DTest | Writer.DClose | Writer.DFd | Writer.DWr | Writer.DUnlock _ => true
  | _ => false
  end.

(** What is known at each place. *)
Definition place_r (r : Cookies.state) (p : Cookies.pc) : Prop :=
  match p with
  | Cookies.Lock _ v _ | Cookies.Test _ v _ | Cookies.SetNext _ v _ | Cookies.SetHead _ v _ | Cookies.SetLvl _ v _ => 0 <= v
  | Cookies.RdHook c _ | Cookies.Unlock c _ _ | Cookies.Hook c _ _ | Cookies.After c _ => 0 <= Cookies.s_level r c
  | _ => True
  end.
Definition copy_ok (w : Writer.state) (x : Writer.wr) : Prop :=
  match x with Writer.Init => False | Writer.Stderr _ => Writer.s_writer2 w <> None | _ => True end.
Definition place_w (w : Writer.state) (p : Writer.pc) : Prop :=
  match p with
  | Writer.LRun x cols m => match cols with [] => x = Writer.Init \/ copy_ok w x | _ => plain x end
  | Writer.LRead cols m => cols = []
  | Writer.ILock (Writer.KLog cols m) | Writer.ITest (Writer.KLog cols m) | Writer.IOpen (Writer.KLog cols m)
  | Writer.IStat (Writer.KLog cols m) | Writer.IClose (Writer.KLog cols m) | Writer.IFd (Writer.KLog cols m)
  | Writer.IWriter (Writer.KLog cols m) | Writer.IUnlock cols m => cols = []
  | Writer.IW2 x k => plain x /\ match k with Writer.KLog cols _ => cols = [] | _ => True end
  | Writer.IW1 x k => copy_ok w x /\ match k with Writer.KLog cols _ => cols = [] | _ => True end
  | Writer.SLock x | Writer.S2 x => plain x
  | Writer.S1 x => copy_ok w x
  | _ => True
  end.

Definition lock (s : state) : option nat := Cookies.s_lock (reg s).

Record Inv (s : state) : Prop := mkInv {
  i_share : Writer.s_lock (wri s) = lock s;
  i_hr : forall t, hold_r (Cookies.s_th (reg s) t) = true -> lock s = Some t;
  i_hw : forall t, hold_w (Writer.s_th (wri s) t) = true -> lock s = Some t;
  i_one : forall t, Writer.s_th (wri s) t <> Writer.Idle -> Cookies.s_th (reg s) t = Cookies.Idle;
  i_pr : forall t, place_r (reg s) (Cookies.s_th (reg s) t);
  i_pw : forall t, place_w (wri s) (Writer.s_th (wri s) t);
  i_w : Writer.s_writer (wri s) = Writer.Init \/ copy_ok (wri s) (Writer.s_writer (wri s));
  i_w2 : forall x, Writer.s_writer2 (wri s) = Some x -> plain x
}.

(** The application installs functions that do not print the copy on stderr themselves. *)
Definition allowed (o : call) : Prop := match o with Wri (Writer.WSet w) => plain w | _ => True end.

Lemma parse_level_nonneg c : 0 <= Cookies.parse_level c.
Proof.
  unfold Cookies.parse_level. destruct (Cookies.isdigit c) eqn:D; [|destruct (Cookies.isupper c) eqn:U].
  - unfold Cookies.isdigit in D. destruct (_ >? _); unfold Cookies.ULOG_DEBUG; lia.
  - unfold Cookies.isupper in U. assert (0 <= c - 65 < 26) by lia.
    assert (F : Forall (fun z => 0 <= z) Cookies.level_tab) by (unfold Cookies.level_tab; repeat constructor; discriminate).
    assert (0 <= znth (c - 65) Cookies.level_tab).
    { rewrite Forall_forall in F. apply F. unfold znth. apply nth_In. change (length Cookies.level_tab) with 26%nat. lia. }
    destruct (_ >? _); unfold Cookies.ULOG_DEBUG; lia.
  - cbn. lia.
Qed.

Lemma upd_same {A} (f : nat -> A) i v : Cookies.upd f i v i = v.
Proof. unfold Cookies.upd. now rewrite Nat.eqb_refl. Qed.
Lemma upd_other {A} (f : nat -> A) i v j : j <> i -> Cookies.upd f i v j = f j.
Proof. unfold Cookies.upd. intros N. destruct (Nat.eqb_spec j i); congruence. Qed.
Lemma upd_same_w {A} (f : nat -> A) i v : Writer.upd f i v i = v.
Proof. unfold Writer.upd. now rewrite Nat.eqb_refl. Qed.
Lemma upd_other_w {A} (f : nat -> A) i v j : j <> i -> Writer.upd f i v j = f j.
Proof. unfold Writer.upd. intros N. destruct (Nat.eqb_spec j i); congruence. Qed.

(** Steps of the registry *)
Lemma step_r_th cf r t o r' ev : Cookies.step cf r t o = (r', ev) -> forall u, u <> t -> Cookies.s_th r' u = Cookies.s_th r u.
Proof.
  intros E u N. unfold Cookies.step in E.
  destruct (Cookies.s_th r t) as [| | | | | | | | | | | |c k| | | |? ? [?|]| | | | | | | |[?|]| | |]; cbn in E;
    try (injection E as <- <-; unfold Cookies.acquire; try destruct o; try destruct (Cookies.s_lock r);
      cbn; rewrite ?upd_other by exact N; reflexivity).
  - destruct k; injection E as <- <-; cbn; now rewrite upd_other by exact N.
  - destruct p; [destruct (_ <? _)|]; injection E as <- <-; cbn; now rewrite upd_other by exact N.
Qed.
Lemma step_w_th e w t o a w' ev : Writer.step e w t o a = (w', ev) -> forall u, u <> t -> Writer.s_th w' u = Writer.s_th w u.
Proof.
  intros E u N. unfold Writer.step in E.
  destruct (Writer.s_th w t); cbn in E;
    repeat match type of E with
    | context [match ?x with _ => _ end] => destruct x; cbn in E
    end; injection E as <- <-; cbn; rewrite ?upd_other_w by exact N; reflexivity.
Qed.

Lemma env_level_v cf c : Cookies.env_level cf c <? 0 = false -> 0 <= Cookies.env_level cf c.
Proof. lia. Qed.

Lemma step_r_facts cf r t o r' ev : Cookies.step cf r t o = (r', ev) -> place_r r (Cookies.s_th r t) ->
  (hold_r (Cookies.s_th r t) = true -> Cookies.s_lock r = Some t) ->
  (forall c, 0 <= Cookies.s_level r c -> 0 <= Cookies.s_level r' c) /\ place_r r' (Cookies.s_th r' t) /\
  (hold_r (Cookies.s_th r' t) = true -> Cookies.s_lock r' = Some t) /\
  (Cookies.s_lock r' = Cookies.s_lock r \/ (Cookies.s_lock r = None /\ Cookies.s_lock r' = Some t) \/
   (Cookies.s_lock r = Some t /\ Cookies.s_lock r' = None)).
Proof.
  intros E P H. unfold Cookies.step in E.
  assert (CL : forall l, 0 <= Cookies.clamp l).
  { intros l. unfold Cookies.clamp, Cookies.ULOG_DEBUG. destruct (l <? 0) eqn:?; destruct (_ >? 7) eqn:?; lia. }
  assert (UP : forall c v, 0 <= v -> forall d, 0 <= Cookies.s_level r d -> 0 <= Cookies.upd (Cookies.s_level r) c v d).
  { intros c v V d D. unfold Cookies.upd. destruct (Nat.eqb d c); assumption. }
  unfold Cookies.acquire, ULOG_INFO in *.
  destruct (Cookies.s_th r t) as [| | | | | | | | | | | |c k| | |? ? [?|]|? ? [?|]| | | | | | | |[?|]| | |] eqn:T; cbn in E, P, H;
    try (injection E as <- <-; try destruct o; try destruct (Cookies.s_lock r) eqn:L;
      cbn; rewrite ?upd_same, ?T; cbn; rewrite ?L;
      first [specialize (H eq_refl) | clear H];
      repeat match goal with |- context [if ?b then _ else _] => destruct b eqn:?; cbn end;
      (repeat split; cbn; intros; first [discriminate | assumption | reflexivity | exact I | lia | auto])).
  all: try (destruct k; injection E as <- <-; cbn; rewrite ?upd_same; cbn; repeat split; intros; auto; discriminate).
  all: try (destruct (_ <? _); injection E as <- <-; cbn; rewrite ?upd_same; cbn; repeat split; intros; auto).
  all: try (rewrite upd_same; assumption).
  destruct p; [destruct (_ <? _)|]; injection E as <- <-; cbn; rewrite ?upd_same; cbn; repeat split; intros; auto.
Qed.

Lemma step_w_facts e w t o a w' ev : Writer.step e w t o a = (w', ev) ->
  (match o with Writer.WSet x => plain x | _ => True end) -> place_w w (Writer.s_th w t) ->
  (hold_w (Writer.s_th w t) = true -> Writer.s_lock w = Some t) ->
  (Writer.s_writer w = Writer.Init \/ copy_ok w (Writer.s_writer w)) ->
  (forall x, Writer.s_writer2 w = Some x -> plain x) ->
  (Writer.s_writer2 w <> None -> Writer.s_writer2 w' <> None) /\ place_w w' (Writer.s_th w' t) /\
  (hold_w (Writer.s_th w' t) = true -> Writer.s_lock w' = Some t) /\
  (Writer.s_lock w' = Writer.s_lock w \/ (Writer.s_lock w = None /\ Writer.s_lock w' = Some t) \/
   (Writer.s_lock w = Some t /\ Writer.s_lock w' = None)) /\
  (Writer.s_writer w' = Writer.Init \/ copy_ok w' (Writer.s_writer w')) /\
  (forall x, Writer.s_writer2 w' = Some x -> plain x).
Proof.
  intros E A P H W W2. unfold Writer.step in E.
  destruct (Writer.s_th w t) eqn:T; cbn in E, P, H;
    repeat match type of E with
    | context [match ?x with _ => _ end] => destruct x eqn:?; cbn in E
    end; injection E as <- <-; cbn in *; rewrite ?upd_same_w, ?T; cbn in *;
    first [specialize (H eq_refl) | clear H];
    (split; [|split; [|split; [|split; [|split]]]]);
    try solve [intros; first [discriminate | assumption | reflexivity | exact I | lia | auto] ].
  all: try solve [subst; exact W | destruct cols; [reflexivity|destruct P] | congruence | intros x X; injection X as <-; apply P
    | intros x X; injection X as <-; exact P | right; apply P | split; [discriminate|apply P] | apply P
    | destruct w0; try exact I; destruct P | split; [|apply P]; destruct P as [P _]; destruct w0; try exact I; destruct P].
  all: try (intros x X; apply W2; congruence).
  all: destruct (Writer.s_writer w) eqn:?; [left; reflexivity|right; exact I..|right; cbn; discriminate|right; exact I].
Qed.

(** Steps of the whole. *)
Lemma step_w_inv e s t o a s' ev : Inv s -> step_w e s t o a = (s', ev) ->
  (match o with Writer.WSet x => plain x | _ => True end) -> Cookies.s_th (reg s) t = Cookies.Idle -> Inv s'.
Proof.
  intros [SH HR HW ON PR PW W W2] E A NI. unfold step_w in E. destruct (Writer.step e (wri s) t o a) as [w' l] eqn:X.
  injection E as <- _.
  destruct (step_w_facts _ _ _ _ _ _ _ X A (PW t)) as (M & P' & H' & L' & W' & W2'); auto.
  { rewrite SH. apply HW. }
  pose proof (step_w_th _ _ _ _ _ _ _ X) as TH. unfold lock in *.
  assert (K : forall u, u <> t -> Cookies.s_lock (reg s) = Some u -> Writer.s_lock w' = Some u).
  { intros u N Q. rewrite SH in L'. destruct L' as [L|[[L _]|[L _]]]; congruence. }
  constructor; cbn.
  - reflexivity.
  - intros u Hu. destruct (Nat.eq_dec u t) as [->|N].
    + rewrite NI in Hu. discriminate.
    + apply K; [exact N|]. apply HR, Hu.
  - intros u Hu. destruct (Nat.eq_dec u t) as [->|N]; [now apply H'|]. rewrite TH in Hu by exact N. apply K; [exact N|]. apply HW, Hu.
  - intros u Hu. destruct (Nat.eq_dec u t) as [->|N]; [exact NI|]. rewrite TH in Hu by exact N. apply ON, Hu.
  - intros u. apply PR.
  - intros u. destruct (Nat.eq_dec u t) as [->|N]; [exact P'|]. rewrite TH by exact N. specialize (PW u).
    destruct (Writer.s_th (wri s) u); cbn in *; auto.
    + destruct cols; [|exact PW]. destruct PW as [->|C]; [now left|right]. destruct w; cbn in *; auto.
    + split; [|apply PW]. destruct PW as [C _]. destruct w; cbn in *; auto.
    + destruct w; cbn in *; auto.
  - exact W'.
  - exact W2'.
Qed.

Lemma step_r_inv cf s t o s' ev : Inv s -> step_r cf s t o = (s', ev) -> Writer.s_th (wri s) t = Writer.Idle -> Inv s'.
Proof.
  intros [SH HR HW ON PR PW W W2] E NI. unfold step_r in E. destruct (Cookies.step cf (reg s) t o) as [r' l] eqn:X.
  injection E as <- _. unfold lock in *.
  destruct (step_r_facts _ _ _ _ _ _ X (PR t) (HR t)) as (M & P' & H' & L').
  pose proof (step_r_th _ _ _ _ _ _ X) as TH.
  assert (K : forall u, u <> t -> Cookies.s_lock (reg s) = Some u -> Cookies.s_lock r' = Some u).
  { intros u N Q. destruct L' as [L|[[L _]|[L _]]]; congruence. }
  constructor; cbn.
  - reflexivity.
  - intros u Hu. destruct (Nat.eq_dec u t) as [->|N]; [now apply H'|]. rewrite TH in Hu by exact N. apply K; [exact N|]. apply HR, Hu.
  - intros u Hu. destruct (Nat.eq_dec u t) as [->|N]; [rewrite NI in Hu; discriminate|]. apply K; [exact N|]. apply HW, Hu.
  - intros u Hu. destruct (Nat.eq_dec u t) as [->|N]; [congruence|]. rewrite TH by exact N. apply ON, Hu.
  - intros u. destruct (Nat.eq_dec u t) as [->|N]; [exact P'|]. rewrite TH by exact N. specialize (PR u).
    destruct (Cookies.s_th (reg s) u); cbn in *; auto.
  - intros u. specialize (PW u). destruct (Writer.s_th (wri s) u); cbn in *; auto.
  - exact W.
  - exact W2.
Qed.

Lemma inv_pend s p : Inv s -> Inv (mkState (reg s) (wri s) p).
Proof. intros [SH HR HW ON PR PW W W2]. constructor; assumption. Qed.

Lemma decided_idle cf s t o s' ev : step_r cf s t o = (s', ev) -> decided ev = true ->
  Cookies.s_th (reg s') t = Cookies.Idle /\ wri s' = share_r (wri s) (reg s').
Proof.
  unfold step_r. destruct (Cookies.step cf (reg s) t o) as [r' l] eqn:X. intros E D. injection E as <- <-. cbn.
  split; [|reflexivity]. unfold Cookies.step in X.
  destruct (Cookies.s_th (reg s) t) eqn:T; cbn in X;
    try (injection X as <- <-; cbn in D; repeat match type of D with context [match ?x with _ => _ end] => destruct x; cbn in D end; discriminate).
  - unfold Cookies.after in X. destruct k; injection X as <- <-; cbn in *; try discriminate; now rewrite upd_same.
  - destruct found; injection X as <- <-; discriminate.
  - destruct p; [destruct (_ <? _)|]; injection X as <- <-; try discriminate.
    destruct (_ <? _) in D; discriminate.
  - destruct p; injection X as <- <-; try discriminate. destruct (Nat.eqb _ _) in D; discriminate.
Qed.

Lemma step_inv cf e s t o a s' ev : Inv s -> allowed o -> step cf e s t o a = (s', ev) -> Inv s'.
Proof.
  intros I A E. unfold step in E. destruct (Writer.s_th (wri s) t) eqn:TW.
  { destruct (Cookies.s_th (reg s) t) eqn:TR.
    { destruct o.
      - eapply step_r_inv in E; [exact E|apply inv_pend, I|exact TW].
      - eapply step_w_inv in E; [exact E|exact I| |exact TR]. destruct o; auto.
      - eapply step_r_inv in E; [exact E|apply inv_pend, I|exact TW]. }
    all: destruct (step_r cf s t Cookies.CForeach) as [s1 e1] eqn:X; pose proof (step_r_inv _ _ _ _ _ _ I X TW) as I1;
      destruct (decided e1) eqn:D; [|injection E as <- <-; exact I1];
      destruct (pend s t) as [m1|]; [|injection E as <- <-; exact I1];
      destruct (step_w e s1 t (Writer.WLog m1) a) as [s2 e2] eqn:Y; injection E as <- <-;
      destruct (decided_idle _ _ _ _ _ _ X D) as [Q _];
      exact (step_w_inv _ _ _ _ _ _ _ I1 Y Logic.I Q). }
  all: assert (Q : Cookies.s_th (reg s) t = Cookies.Idle) by (apply (i_one _ I); rewrite TW; discriminate).
  all: exact (step_w_inv _ _ _ _ _ _ _ I E Logic.I Q).
Qed.
