(** What each call does, from its start to its end. *)
From Coq Require Import ZArith String List Bool Lia ZifyBool ZifyNat Arith.
From Verif Require Import Bytes BytesProofs Writer WriterSpec WriterProofs.
Import ListNotations.
Open Scope Z_scope.

(** ** Trace functions and append *)
Lemma delivs_app : forall t a b, delivs t (a ++ b) = delivs t a ++ delivs t b.
Proof.
  intros t. induction a as [|x a IH]; intros b; [reflexivity|]. destruct x; cbn [delivs app]; try apply IH.
  destruct (Nat.eqb t0 t); rewrite IH; reflexivity.
Qed.
Lemma prints_app : forall t a b, prints t (a ++ b) = prints t a ++ prints t b.
Proof.
  intros t. induction a as [|x a IH]; intros b; [reflexivity|]. destruct x; cbn [prints app]; try apply IH.
  destruct (Nat.eqb t0 t); rewrite IH; reflexivity.
Qed.
Lemma no_call_app : forall t a b, no_call t a -> no_call t b -> no_call t (a ++ b).
Proof. intros t a b Ha Hb o H. apply in_app_iff in H. destruct H; [apply (Ha o)|apply (Hb o)]; assumption. Qed.
Lemma app_cons_assoc : forall (tr1 : list event) x tr2 ev, (tr1 ++ x :: tr2) ++ ev = tr1 ++ x :: (tr2 ++ ev).
Proof. intros. rewrite <- app_assoc. reflexivity. Qed.
Lemma undisturbed_app : forall a b, undisturbed (a ++ b) <-> undisturbed a /\ undisturbed b.
Proof.
  intros a b. unfold undisturbed. split.
  - intros H. split; intros x Hx; apply H; apply in_app_iff; tauto.
  - intros (H1 & H2) x Hx. apply in_app_iff in Hx. destruct Hx; auto.
Qed.

Definition mine (t : nat) (x : event) : Prop :=
  match x with
  | EvCall t' _ | EvDeliver t' _ _ | EvIntr t' | EvStderr t' _ | EvOpen t' _ _ | EvClose t' _ | EvSetBegin t' _ | EvSetEnd t'
  | EvDevSet t' _ _ | EvDevEnd t' _ | EvRet t' | EvGot t' _ | EvCrash t' => t' = t
  end.
Lemma step_mine : forall e s t o a s' ev, step e s t o a = (s', ev) -> Forall (mine t) ev.
Proof. intros e s t o a s' ev H. cases H; repeat constructor. Qed.
Lemma mine_other : forall t t' ev, t' <> t -> Forall (mine t) ev -> no_call t' ev /\ delivs t' ev = [] /\ prints t' ev = [].
Proof.
  intros t t' ev Hne H. induction H as [|x ev Hx H IH]; [split; [intros o []|split; reflexivity]|].
  destruct IH as (I1 & I2 & I3). split; [|split].
  - intros o [E|Hi]; [subst x; cbn in Hx; congruence|apply (I1 o Hi)].
  - destruct x; cbn [delivs]; try exact I2. cbn in Hx. subst t0. destruct (Nat.eqb_spec t t'); [congruence|exact I2].
  - destruct x; cbn [prints]; try exact I3. cbn in Hx. subst t0. destruct (Nat.eqb_spec t t'); [congruence|exact I3].
Qed.

(** ** The writer installed or the device chosen, according to the trace *)
Inductive ws := WUnk | WPend (w : wr) | WForce (w : wr) | WDevPend (stale : bool) | WDevDone.
Definition ws_event (x : ws) (ev : event) : ws :=
  match ev with
  | EvSetBegin _ w => WPend w
  | EvSetEnd _ => match x with WPend w => WForce w | _ => x end
  | EvDevSet _ _ true => match x with WDevDone | WDevPend true => WDevPend true | _ => WDevPend false end
  | EvDevEnd _ r => match x with WDevPend _ => if r =? 0 then WDevDone else x | _ => x end
  | EvOpen _ _ _ => match x with WDevDone => WUnk | _ => x end
  | _ => x
  end.
Definition wst (tr : list event) : ws := fold_left ws_event tr WDevDone.
Lemma wst_app : forall a b, wst (a ++ b) = fold_left ws_event b (wst a).
Proof. intros. apply fold_left_app. Qed.

Definition hp (s : state) : pc := match s_lock s with Some t => s_th s t | None => Idle end.

(** ctrl.writer and ctrl.writer2 after ulog_set_write_func(w) *)
Definition eff (e : env) (s : state) (w : wr) : Prop :=
  if e_stderr e then s_writer s = Stderr (e_color e) /\ s_writer2 s = Some w else s_writer s = w.

Definition calm (p : pc) : Prop :=
  match p with S2 _ | S1 _ | SUnlock | DTest | DClose | DFd | DWr => False | DUnlock r => r <> 0 | _ => True end.
Definition ws_ok (e : env) (s : state) (x : ws) : Prop :=
  match x with
  | WUnk => calm (hp s)
  | WPend w => w <> Init /\
      match hp s with
      | S2 w' => w' = w
      | S1 x => if e_stderr e then x = Stderr (e_color e) /\ s_writer2 s = Some w else x = w
      | SUnlock => eff e s w
      | _ => False
      end
  | WForce w => w <> Init /\ eff e s w /\ calm (hp s)
  | WDevPend stale =>
      (stale = true -> s_writer s = Init) /\
      match hp s with DTest => True | DClose | DFd | DWr => stale = false | DUnlock r => r = 0 /\ s_writer s = Init | _ => False end
  | WDevDone => s_writer s = Init /\ calm (hp s) /\
      match hp s with IStat _ | IClose _ | IFd _ | IWriter _ | IW2 _ _ | IW1 _ _ => False | _ => True end
  end.

Lemma hp_in : forall e s tr t, reaches e s tr -> cs (s_th s t) = true -> hp s = s_th s t.
Proof. intros e s tr t R C. pose proof (inv_lock e s tr R) as I. apply I in C. unfold hp. rewrite C. reflexivity. Qed.
Lemma hp_none : forall s, s_lock s = None -> hp s = Idle.
Proof. intros s E. unfold hp. rewrite E. reflexivity. Qed.

(** Steps of a thread that does not own the lock and does not get it. *)
Lemma hp_frame : forall e s tr t o a s' ev, reaches e s tr -> step e s t o a = (s', ev) -> cs (s_th s t) = false -> s_lock s' = s_lock s -> hp s' = hp s.
Proof.
  intros e s tr t o a s' ev R H C E. unfold hp. rewrite E. destruct (s_lock s) as [t'|] eqn:L; [|reflexivity].
  destruct (Nat.eq_dec t' t) as [->|Hn]; [|apply (step_frame _ _ _ _ _ _ _ t' H Hn)].
  pose proof (inv_lock e s tr R) as I. apply I in L. congruence.
Qed.

Lemma ws_ok_frame : forall e s s' x, hp s' = hp s -> s_writer s' = s_writer s -> s_writer2 s' = s_writer2 s -> ws_ok e s x -> ws_ok e s' x.
Proof. intros e s s' x E1 E2 E3 H. destruct x; cbn in *; unfold eff in *; rewrite ?E1, ?E2, ?E3; exact H. Qed.

Lemma inv_ws : forall e s tr, reaches e s tr -> legal tr -> ws_ok e s (wst tr).
Proof.
  intros e. apply (reaches_ind2 e (fun s tr => legal tr -> ws_ok e s (wst tr))); [intros _; repeat split|].
  intros s tr t o a s' ev R IH H Lg. pose proof (legal_app _ _ Lg) as Lg0. specialize (IH Lg0).
  pose proof (inv_b e s tr R Lg0) as B. pose proof (b_pc _ _ _ B t) as Bt.
  pose proof (inv_hst e s tr R t) as Hs. rewrite wst_app. destruct (cs (s_th s t)) eqn:C.
  - pose proof (hp_in e s tr t R C) as Hp. pose proof (reaches_step e s tr t o a s' ev R H) as R'.
    assert (Hp' : s_lock s' = Some t -> hp s' = s_th s' t) by (intros E; unfold hp; rewrite E; reflexivity).
    assert (Hn' : s_lock s' = None -> hp s' = Idle) by apply hp_none.
    assert (L : s_lock s = Some t) by (apply (inv_lock e s tr R); exact C).
    clear R R' Lg Lg0 B.
    assert (Wi : forall w, okset e (s_writer2 s) w -> w <> Init) by (intros [] X; try discriminate; contradiction).
    cases H; rewrite ?Q in *; try discriminate C; cbn [fold_left ws_event]; rewrite ?upd_same in *;
      try (specialize (Hp' L)); try (specialize (Hp' eq_refl)); try (specialize (Hn' eq_refl); clear Hp'); 
      unfold ws_ok, eff in *; cbn [hst okpc] in Hs, Bt; rewrite Hp in IH;
      destruct (wst tr) as [|w'|w'|b|]; cbn [calm] in *; try rewrite Hp'; try rewrite Hn'; cbn [calm]; sim;
      try tauto; try (destruct (e_stderr e); intuition congruence).
    + discriminate.
    + repeat split; try tauto. discriminate.
    + repeat split; try tauto. discriminate.
    + split; [tauto|]. destruct b; [|reflexivity]. exfalso. rewrite (proj1 IH eq_refl) in Q0. discriminate.
    + split; [tauto|]. destruct b; [|reflexivity]. exfalso. rewrite (proj1 IH eq_refl) in Q0. discriminate.
    + apply negb_false_iff, is_init_true in Q0. tauto.
    + destruct IH as (_ & -> & IH). cbn. tauto.
  - destruct (step_outside e s t o a s' ev C H) as (E1 & _ & E3 & _).
    destruct (s_lock s') as [t'|] eqn:L'; [destruct (s_lock s) as [t0|] eqn:L|].
    + assert (Hp : hp s' = hp s).
      { apply (hp_frame e s tr t o a s' ev R H C). rewrite L, L'. f_equal. clear -H C L L'. cases H; rewrite ?Q in C; try discriminate C; congruence. }
      assert (W : fold_left ws_event ev (wst tr) = wst tr).
      { clear -H C L. cases H; rewrite ?Q in C; try discriminate C; try congruence; cbn [fold_left ws_event]; try reflexivity. destruct (wst tr); reflexivity. }
      rewrite W. apply (ws_ok_frame e s); assumption.
    + (* the lock was free and was taken *)
      pose proof (hp_none s L) as Hp.
      assert (Hp' : hp s' = s_th s' t').
      { unfold hp. rewrite L'. reflexivity. }
      clear Lg Lg0 B R. assert (Wi : forall w, okset e (s_writer2 s) w -> w <> Init) by (intros [] X; try discriminate; contradiction).
      cases H; rewrite ?Q in *; try discriminate C; try congruence; assert (t' = t) by congruence; subst t'; rewrite upd_same in Hp';
        unfold ws_ok, eff in *; cbn [okpc] in Bt; cbn [fold_left ws_event]; rewrite Hp in IH; rewrite Hp';
        destruct (wst tr) as [|w'|w'|b|]; cbn [calm] in *; sim; try tauto; try (split; [apply Wi; exact Bt|reflexivity]).
    + assert (L : s_lock s = None).
      { clear -H C L'. cases H; rewrite ?Q in C; try discriminate C; congruence. }
      assert (Hp : hp s' = hp s) by (rewrite (hp_none s L), (hp_none s' L'); reflexivity).
      assert (W : fold_left ws_event ev (wst tr) = wst tr).
      { clear -H C L L'. cases H; rewrite ?Q in C; try discriminate C; try congruence; cbn [fold_left ws_event]; try reflexivity. destruct (wst tr); reflexivity. }
      rewrite W. apply (ws_ok_frame e s); assumption.
Qed.

(** ** Calls in progress *)
Definition printed (color : bool) (m : msg) (l : list (list Z)) : Prop :=
  if is_binary (m_prio m) then l = [] else exists r x, stderr_text r color m = Ok x /\ l = [x].

Definition cond (e : env) (t : nat) (o : call) (tr2 : list event) (p : pc) : Prop :=
  let logst m := o = WLog m /\ delivs t tr2 = [] /\ prints t tr2 = [] in
  match p with
  | Idle | Crashed => True
  | LRead _ m | LRun _ _ m | IUnlock _ m => logst m
  | LPrint cols m => o = WLog m /\ (exists d, delivs t tr2 = [(d, m)]) /\
      match cols with
      | [] => (prints t tr2 = [] /\ e_stderr e = false) \/ printed (e_color e) m (prints t tr2)
      | _ => prints t tr2 = []
      end
  | ILock k | ITest k | IOpen k | IStat k | IClose k | IFd k | IWriter k | IW2 _ k | IW1 _ k =>
      match k with KLog _ m => logst m | KGet => o = WGet end
  | GRead | GUnlock _ => o = WGet
  | SLock w | S2 w => o = WSet w
  | S1 _ | SUnlock => exists w, o = WSet w
  | DLock n | DDev n => o = WDev n /\ zlen n < DEV_NAME_MAX_LEN
  | DTest | DClose | DFd | DWr | DUnlock _ => exists n, o = WDev n
  end.

Definition forced (e : env) (f : nat) (t : nat) (tr2 : list event) (p : pc) : Prop :=
  match p with
  | LRun w [] m => w = if e_stderr e then Stderr (e_color e) else User f
  | LRun w _ m => w = User f
  | LPrint _ m => delivs t tr2 = [(DUser f, m)]
  | ILock (KLog _ _) | ITest (KLog _ _) | IUnlock _ _ => False
  | IOpen _ | IStat _ | IClose _ | IFd _ | IWriter _ | IW2 _ _ | IW1 _ _ => False
  | GUnlock w => w = Some (User f)
  | _ => True
  end.

(** No device is opened and no function is installed. *)
Definition idle_writer (tr : list event) : Prop :=
  forall x, In x tr -> match x with EvOpen _ _ _ | EvSetBegin _ _ => False | _ => True end.
Definition unopened (p : pc) : Prop :=
  match p with
  | LRun w cols _ => w = Init /\ cols = []
  | LPrint _ _ | IUnlock _ _ => False
  | IStat _ | IClose _ | IFd _ | IWriter _ | IW2 _ _ | IW1 _ _ => False
  | _ => True
  end.

Definition fresh (x : ws) : Prop := x = WDevDone \/ x = WDevPend true.

Definition pcinv (e : env) (tr : list event) (t : nat) (p : pc) : Prop :=
  p = Idle \/ p = Crashed \/ exists tr1 o tr2, tr = tr1 ++ EvCall t o :: tr2 /\ no_call t tr2 /\ cond e t o tr2 p /\
    (forall f, wst tr1 = WForce (User f) -> undisturbed tr2 -> forced e f t tr2 p) /\
    (fresh (wst tr1) -> idle_writer tr2 -> unopened p).

Lemma idle_writer_app : forall a b, idle_writer (a ++ b) -> idle_writer a /\ idle_writer b.
Proof. intros a b H. split; intros x Hx; apply H; apply in_app_iff; tauto. Qed.

Lemma wst_forced : forall b x w, undisturbed b -> x = WForce w -> fold_left ws_event b x = WForce w.
Proof.
  induction b as [|ev b IH]; intros x w U ->; [reflexivity|]. cbn [fold_left].
  apply IH; [intros y Hy; apply U; right; exact Hy|]. assert (N : ~ changes_writer ev) by (apply U; left; reflexivity).
  destruct ev; cbn in *; try reflexivity; try contradiction. destruct ok; [exfalso; apply N; exact I|reflexivity].
Qed.
Lemma wst_stale : forall b x, idle_writer b -> x = WDevDone \/ x = WDevPend true ->
  fold_left ws_event b x = WDevDone \/ fold_left ws_event b x = WDevPend true.
Proof.
  induction b as [|ev b IH]; intros x U Hx; [exact Hx|]. cbn [fold_left].
  apply IH; [intros y Hy; apply U; right; exact Hy|]. assert (N := U ev (or_introl eq_refl)).
  destruct ev; cbn in *; try exact Hx; try contradiction; destruct Hx as [-> | ->]; auto.
  - destruct ok; auto.
  - destruct ok; auto.
  - destruct (r =? 0); auto.
Qed.

Lemma inv_calls : forall e s tr, reaches e s tr -> legal tr -> forall t, pcinv e tr t (s_th s t).
Proof.
  intros e. apply (reaches_ind2 e (fun s tr => legal tr -> forall t, pcinv e tr t (s_th s t))); [intros _ t; left; reflexivity|].
  intros s tr t o a s' ev R IH H Lg t'. pose proof (legal_app _ _ Lg) as Lg0. specialize (IH Lg0).
  destruct (Nat.eq_dec t' t) as [->|Hn].
  2:{ rewrite (step_frame _ _ _ _ _ _ _ t' H Hn). destruct (mine_other t t' ev Hn (step_mine _ _ _ _ _ _ _ H)) as (M1 & M2 & M3).
    destruct (IH t') as [E|[E|(tr1 & o' & tr2 & E & Nc & Cd & F & U)]]; [left; exact E|right; left; exact E|].
    right. right. exists tr1, o', (tr2 ++ ev). split; [rewrite E; apply app_cons_assoc|]. split; [apply no_call_app; assumption|]. repeat split.
    - unfold cond in *. rewrite delivs_app, prints_app, M2, M3, !app_nil_r. exact Cd.
    - intros f Hf Hu. apply undisturbed_app in Hu. destruct Hu as (Hu & _). specialize (F f Hf Hu). unfold forced in *.
      rewrite delivs_app, M2, app_nil_r. exact F.
    - intros Hw Hi. apply idle_writer_app in Hi. apply U; tauto. }
  pose proof (inv_b e s tr R Lg0) as B. pose proof (b_pc _ _ _ B t) as Bt. pose proof (inv_hst e s tr R t) as Hs.
  pose proof (inv_ws e s tr R Lg0) as W.
  assert (Call : forall p, s_th s t = Idle -> ev = [EvCall t o] -> cond e t o [] p -> (forall f, forced e f t [] p) -> unopened p -> s_th s' t = p -> pcinv e (tr ++ ev) t (s_th s' t)).
  { intros p Ei -> Cd F U ->. right. right. exists tr, o, []. repeat split; auto. intros o0 []. }
  assert (Dec : s_th s t = Idle \/ s_th s t <> Idle) by (destruct (s_th s t); auto; right; discriminate).
  destruct Dec as [E|Ni]; [|specialize (IH t); destruct IH as [E|[E|(tr1 & o' & tr2 & E & Nc & Cd & F & U)]]].
  - unfold step in H. rewrite E in H. destruct o as [m|w| |n|sec nsec].
    + inversion H; subst. apply (Call (LRead [] m)); cbn; auto. apply upd_same.
    + inversion H; subst. apply (Call (SLock w)); cbn; auto. apply upd_same.
    + inversion H; subst. apply (Call (ILock KGet)); cbn; auto. apply upd_same.
    + destruct (zlen n >=? DEV_NAME_MAX_LEN) eqn:Ez; inversion H; subst; [left; exact E|].
      apply (Call (DLock n)); cbn [cond forced unopened]; auto; [split; [reflexivity|lia]|apply upd_same].
    + inversion H; subst. left. exact E.
  - contradiction.
  - unfold step in H. rewrite E in H. inversion H. subst. right. left. exact E.
  - assert (Nev : no_call t ev).
    { clear -H Ni. cases H; try congruence; intros o0 Hin; cbn [In] in Hin; repeat (destruct Hin as [Hin|Hin]; [discriminate Hin|]); exact Hin. }
    assert (Ft : forall f, wst tr1 = WForce (User f) -> undisturbed (tr2 ++ ev) -> undisturbed tr2 /\ eff e s (User f)).
    { intros f Hf Hu. apply undisturbed_app in Hu. destruct Hu as (Hu & _). split; [exact Hu|].
      rewrite E, wst_app in W. cbn [fold_left ws_event] in W. rewrite (wst_forced _ _ (User f) Hu Hf) in W. apply W. }
    assert (Ut : fresh (wst tr1) -> idle_writer (tr2 ++ ev) -> idle_writer tr2 /\ s_writer s = Init).
    { intros Hw Hi. apply idle_writer_app in Hi. destruct Hi as (Hi & _). split; [exact Hi|].
      rewrite E, wst_app in W. cbn [fold_left ws_event] in W. destruct (wst_stale tr2 (wst tr1) Hi Hw) as [X|X]; rewrite X in W; apply W. reflexivity. }
    assert (Fi : forall f, wst tr1 = WForce (User f) -> undisturbed (tr2 ++ ev) -> forced e f t tr2 (s_th s t) /\ eff e s (User f)).
    { intros f Hf Hu. destruct (Ft f Hf Hu). split; [apply F; assumption|assumption]. }
    assert (Ui : fresh (wst tr1) -> idle_writer (tr2 ++ ev) -> unopened (s_th s t) /\ s_writer s = Init).
    { intros Hw Hi. destruct (Ut Hw Hi). split; [apply U; assumption|assumption]. }
    clear W Ft Ut F U Call R Lg Lg0. unfold eff in Fi.
    assert (G : cond e t o' (tr2 ++ ev) (s_th s' t) /\
      (forall f, wst tr1 = WForce (User f) -> undisturbed (tr2 ++ ev) -> forced e f t (tr2 ++ ev) (s_th s' t)) /\
      (fresh (wst tr1) -> idle_writer (tr2 ++ ev) -> unopened (s_th s' t))).
    2:{ right. right. exists tr1, o', (tr2 ++ ev). split; [rewrite E; apply app_cons_assoc|]. split; [apply no_call_app; assumption|]. exact G. }
    split; [|split].
    + clear Fi Ui. cases H; try congruence; rewrite ?Q, ?upd_same in *; cbn [cond okpc] in *; rewrite ?delivs_app, ?prints_app; cbn [delivs prints];
        rewrite ?app_nil_r; try exact I; try tauto; try (exists w; exact Cd); try (exists n; tauto).
      1,2,3: destruct Cd as (-> & Cd & Cp); rewrite Cd, Nat.eqb_refl; cbn [app]; (split; [reflexivity|]); (split; [eexists; reflexivity|]);
        destruct cols; [|exact Cp]; left; (split; [exact Cp|]); destruct Bt as (_ & [Bt|Bt]); [discriminate|cbn in Bt; tauto].
      * destruct Cd as (-> & Cd & Cp). split; [reflexivity|]. split; [exact Cd|]. destruct l; [|exact Cp]. right. unfold printed. rewrite Q1. exact Cp.
      * destruct Cd as (-> & Cd & Cp). split; [reflexivity|]. split; [exact Cd|]. destruct Bt as (_ & Bt). destruct l; [|contradiction].
        right. unfold printed. rewrite Q1, Cp, Nat.eqb_refl. cbn [app]. rewrite Bt in Q2. exists (s_replay s), a0. split; [exact Q2|reflexivity].
    + intros f Hf Hu. specialize (Fi f Hf Hu). clear Ui. cases H; try congruence; rewrite ?Q, ?upd_same in *; cbn [forced okpc] in *; rewrite ?delivs_app; cbn [delivs];
        rewrite ?app_nil_r; try exact I; try tauto.
      * destruct Bt as (-> & _). destruct (e_stderr e); tauto.
      * destruct cols; destruct Fi as (Fi & _); [destruct (e_stderr e)|]; discriminate.
      * destruct cols; destruct Fi as (Fi & _); [destruct (e_stderr e)|]; discriminate.
      * destruct cols; destruct Fi as (Fi & _); [destruct (e_stderr e)|]; discriminate.
      * destruct cols; destruct Fi as (Fi & Fe); [destruct (e_stderr e)|]; try discriminate. destruct Fe as (_ & Fe). congruence.
      * cbn in Cd. destruct Cd as (_ & Cd & _). rewrite Cd, Nat.eqb_refl. cbn [app]. destruct cols; destruct Fi as (Fi & _); [destruct (e_stderr e)|]; try discriminate; congruence.
      * apply is_init_true in Q0. rewrite Q0 in Fi. destruct (e_stderr e); destruct Fi as (_ & Fi); [destruct Fi as (Fi & _)|]; discriminate.
      * rewrite (proj2 Fi). reflexivity.
    + intros Hw Hi. specialize (Ui Hw Hi). clear Fi. cases H; try congruence; rewrite ?Q, ?upd_same in *; cbn [unopened okpc] in *; try exact I; try tauto.
      * destruct Ui as ((X & _) & _). discriminate.
      * destruct Ui as ((X & _) & _). discriminate.
      * destruct Ui as ((X & _) & _). discriminate.
      * destruct Ui as ((X & _) & _). discriminate.
      * apply is_init_false in Q0. tauto.
      * specialize (Hi (EvOpen t (dev_path e s) (a_fd a))). apply Hi. apply in_app_iff. right. left. reflexivity.
Qed.
