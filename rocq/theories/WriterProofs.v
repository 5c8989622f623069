(** Invariant of the output functions. *)
From Coq Require Import ZArith String List Bool Lia ZifyBool ZifyNat Arith.
From Verif Require Import Bytes BytesProofs Writer WriterSpec.
Import ListNotations.
Open Scope Z_scope.

Lemma upd_same : forall A (f : nat -> A) i v, upd f i v i = v.
Proof. intros. unfold upd. rewrite Nat.eqb_refl. reflexivity. Qed.
Lemma upd_other : forall A (f : nat -> A) i j v, j <> i -> upd f i v j = f j.
Proof. intros A f i j v H. unfold upd. destruct (Nat.eqb_spec j i); [contradiction|reflexivity]. Qed.

(** ** Executions, last step first *)
Lemma run_app : forall e l1 l2 s, run e s (l1 ++ l2) =
  let '(s1, e1) := run e s l1 in let '(s2, e2) := run e s1 l2 in (s2, e1 ++ e2).
Proof.
  intros e. induction l1 as [|((t & o) & a) l1 IH]; intros l2 s; cbn [run app].
  - destruct (run e s l2). reflexivity.
  - destruct (step e s t o a) as (s1 & e1). rewrite IH. destruct (run e s1 l1) as (s2 & e2). destruct (run e s2 l2). rewrite app_assoc. reflexivity.
Qed.

Lemma reaches_step : forall e s tr t o a s' ev, reaches e s tr -> step e s t o a = (s', ev) -> reaches e s' (tr ++ ev).
Proof.
  intros e s tr t o a s' ev (l & H) Hs. exists (l ++ [(t, o, a)]). rewrite run_app, H. cbn [run]. rewrite Hs, app_nil_r. reflexivity.
Qed.

Lemma reaches_ind2 : forall e (P : state -> list event -> Prop), P init [] ->
  (forall s tr t o a s' ev, reaches e s tr -> P s tr -> step e s t o a = (s', ev) -> P s' (tr ++ ev)) ->
  forall s tr, reaches e s tr -> P s tr.
Proof.
  intros e P H0 HS s tr (l & H). revert s tr H. induction l as [|((t & o) & a) l IH] using rev_ind; intros s tr H.
  - inversion H. exact H0.
  - rewrite run_app in H. destruct (run e init l) as (s1 & e1) eqn:E. cbn [run] in H. destruct (step e s1 t o a) as (s2 & e2) eqn:E2.
    inversion H. subst. rewrite app_nil_r. apply (HS s1 e1 t o a); [exists l; exact E|apply IH; reflexivity|exact E2].
Qed.

(** Case analysis of a step. *)
Ltac cases H :=
  unfold step in H;
  repeat match type of H with
  | context [match ?x with _ => _ end] => let E := fresh "Q" in destruct x eqn:E
  end;
  match type of H with (?a, ?b) = (?c, ?d) =>
    let E1 := fresh in let E2 := fresh in
    assert (E1 : c = a) by congruence; assert (E2 : d = b) by congruence; clear H; subst c; subst d
  end;
  cbn [goto set_lock set_fd set_writer set_writer2 set_device set_replay s_lock s_fd s_writer s_writer2 s_device s_replay s_th] in *.

Ltac sim := cbn [goto set_lock set_fd set_writer set_writer2 set_device set_replay s_lock s_fd s_writer s_writer2 s_device s_replay s_th].

(** ** The lock *)

Definition cs (p : pc) : bool :=
  match p with
  | ITest _ | IOpen _ | IStat _ | IClose _ | IFd _ | IWriter _ | IW2 _ _ | IW1 _ _ | IUnlock _ _ | GRead | GUnlock _
  | S2 _ | S1 _ | SUnlock | DDev _ | DTest | DClose | DFd | DWr | DUnlock _ => true
  | _ => false
  end.

Definition InvLock (s : state) : Prop := forall t, s_lock s = Some t <-> cs (s_th s t) = true.

Ltac split_thread t' t := destruct (Nat.eq_dec t' t) as [->|]; [rewrite ?upd_same in *|rewrite ?upd_other in * by assumption].

Lemma inv_lock : forall e s tr, reaches e s tr -> InvLock s.
Proof.
  intros e. apply (reaches_ind2 e (fun s tr => InvLock s)); [intros t; cbn; split; discriminate|].
  intros s tr t o a s' ev _ I H t'. pose proof (I t) as It. pose proof (I t') as It'. clear I.
  cases H; try exact It'; split_thread t' t; rewrite ?Q in *; cbn [cs] in *;
    try (repeat match goal with |- context [cs (if ?b then _ else _)] => destruct b | |- context [cs (match ?k with _ => _ end)] => destruct k end; cbn [cs] in *);
    try (split; intros; intuition congruence); try (destruct (s_lock s); intuition congruence);
    try (rewrite Q0; assumption).
Qed.

(** Only one thread is inside. *)
Lemma cs_unique : forall e s tr t t', reaches e s tr -> cs (s_th s t) = true -> cs (s_th s t') = true -> t = t'.
Proof. intros e s tr t t' R H H'. pose proof (inv_lock e s tr R) as I. apply I in H. apply I in H'. congruence. Qed.

(** ** What the owner of the lock knows *)
Definition hst (s : state) (p : pc) : Prop :=
  match p with
  | IOpen _ | IStat _ | IFd _ | IWriter _ => s_writer s = Init
  | IW1 w _ => s_writer s = Init /\ w <> Init
  | IClose _ => s_writer s = Init /\ s_fd s >= 0
  | IW2 w _ => s_writer s = Init /\ ((w = Kernel /\ s_fd s >= 0) \/ (w = Null /\ s_fd s < 0))
  | GRead => s_writer s <> Init
  | DClose => s_writer s <> Init /\ s_fd s > 0
  | DFd => s_writer s <> Init
  | DWr => s_writer s <> Init /\ s_fd s <= 0
  | DUnlock r => r = 0 -> s_writer s = Init
  | _ => True
  end.

Lemma is_init_true : forall w, is_init w = true -> w = Init.
Proof. intros []; cbn; congruence. Qed.
Lemma is_init_false : forall w, is_init w = false -> w <> Init.
Proof. intros []; cbn; congruence. Qed.

Lemma hst_quiet : forall s s' p, s_writer s' = s_writer s -> s_fd s' = s_fd s -> hst s p -> hst s' p.
Proof. intros s s' p E1 E2 H. destruct p; cbn in *; rewrite ?E1, ?E2; exact H. Qed.
Lemma hst_out : forall s p, cs p = false -> hst s p.
Proof. intros s p H. destruct p; cbn in *; try exact I; discriminate. Qed.

Lemma step_outside : forall e s t o a s' ev, cs (s_th s t) = false -> step e s t o a = (s', ev) ->
  s_writer s' = s_writer s /\ s_fd s' = s_fd s /\ s_writer2 s' = s_writer2 s /\ s_device s' = s_device s.
Proof. intros e s t o a s' ev C H. cases H; rewrite ?Q in C; try discriminate C; repeat split; assumption.
Qed.

Lemma step_frame : forall e s t o a s' ev t', step e s t o a = (s', ev) -> t' <> t -> s_th s' t' = s_th s t'.
Proof. intros e s t o a s' ev t' H Hn. cases H; rewrite ?upd_other by assumption; reflexivity. Qed.

Lemma inv_hst : forall e s tr, reaches e s tr -> forall t, hst s (s_th s t).
Proof.
  intros e. apply (reaches_ind2 e (fun s tr => forall t, hst s (s_th s t))); [intros t; exact I|].
  intros s tr t o a s' ev R IH H t'. destruct (Nat.eq_dec t' t) as [->|Hn].
  - specialize (IH t). cases H; rewrite ?upd_same, ?Q in *; cbn [hst cs] in *; sim; try exact I; try tauto; try congruence;
      repeat match goal with E : is_init _ = true |- _ => apply is_init_true in E | E : is_init _ = false |- _ => apply is_init_false in E
             | E : negb _ = _ |- _ => apply (f_equal negb) in E; rewrite negb_involutive in E; cbn [negb] in E end;
      try (split; [tauto|lia]); try (split; [tauto|discriminate]); try tauto; try lia; try (intros; reflexivity).
    + split; [exact IH|]. left. split; [reflexivity|lia].
    + split; [exact IH|]. right. split; [reflexivity|lia].
    + split; [tauto|]. destruct IH as (_ & [(-> & _)|(-> & _)]); discriminate.
    + intros E. vm_compute in E. discriminate.
  - rewrite (step_frame _ _ _ _ _ _ _ t' H Hn). destruct (cs (s_th s t')) eqn:C; [|apply hst_out; exact C].
    assert (Ct : cs (s_th s t) = false) by (destruct (cs (s_th s t)) eqn:Ct; [exfalso; apply Hn; apply (cs_unique e s tr); assumption|reflexivity]).
    destruct (step_outside _ _ _ _ _ _ _ Ct H) as (E1 & E2 & _). apply (hst_quiet s); [exact E1|exact E2|apply IH].
Qed.

(** ** Which functions can be where *)
Definition is_base (w : wr) : bool := match w with Null | Kernel | User _ => true | _ => false end.
Definition okw2 (e : env) (w2 : wr) : Prop := is_base w2 = true /\ (e_stderr e = false -> w2 = Null).
Definition okw (e : env) (w2 : option wr) (w : wr) : Prop :=
  match w with
  | Init | Null => False
  | Kernel | User _ => e_stderr e = false
  | Stderr c => c = e_color e /\ w2 <> None
  end.
Definition okset (e : env) (w2 : option wr) (w : wr) : Prop :=
  match w with
  | Init => False
  | Null => e_stderr e = true
  | Kernel | User _ => True
  | Stderr c => e_stderr e = false /\ c = e_color e /\ w2 <> None
  end.
Definition logs (tr : list event) (t : nat) (m : msg) : Prop := In (EvCall t (WLog m)) tr.
Definition okk (tr : list event) (t : nat) (k : kont) : Prop :=
  match k with KLog cols m => cols = [] /\ logs tr t m | KGet => True end.
Definition okpc (e : env) (w2 : option wr) (tr : list event) (t : nat) (p : pc) : Prop :=
  match p with
  | LRead cols m | IUnlock cols m => cols = [] /\ logs tr t m
  | LRun w cols m => logs tr t m /\
      match cols with
      | [] => w = Init \/ okw e w2 w
      | [c] => c = e_color e /\ okw2 e w
      | _ => False
      end
  | LPrint cols m => logs tr t m /\
      match cols with [] => True | [c] => c = e_color e | _ => False end
  | ILock k | ITest k | IOpen k | IStat k | IClose k | IFd k | IWriter k => okk tr t k
  | IW2 w k => okk tr t k
  | IW1 w k => okk tr t k /\ okw e w2 w
  | GUnlock (Some w) | SLock w | S2 w => okset e w2 w
  | GUnlock None => False
  | S1 w => okw e w2 w
  | Crashed => exists m, logs tr t m /\ is_binary (m_prio m) = false /\ has_nul (m_buf m) = false
  | _ => True
  end.

(** ctrl.writer2 never becomes NULL again. *)
Definition w2le (w2 w2' : option wr) : Prop := w2 <> None -> w2' <> None.
Lemma okw_mono : forall e w2 w2' w, w2le w2 w2' -> okw e w2 w -> okw e w2' w.
Proof. unfold w2le. intros e w2 w2' []; cbn; tauto. Qed.
Lemma okset_mono : forall e w2 w2' w, w2le w2 w2' -> okset e w2 w -> okset e w2' w.
Proof. unfold w2le. intros e w2 w2' []; cbn; tauto. Qed.
Lemma logs_mono : forall tr ev t m, logs tr t m -> logs (tr ++ ev) t m.
Proof. intros. apply in_app_iff. left. assumption. Qed.
Lemma okk_mono : forall tr ev t k, okk tr t k -> okk (tr ++ ev) t k.
Proof. intros tr ev t [cols m|]; cbn; [|tauto]. intros (A & B). split; [exact A|apply logs_mono; exact B]. Qed.
Lemma okpc_mono : forall e w2 w2' tr ev t p, w2le w2 w2' -> okpc e w2 tr t p -> okpc e w2' (tr ++ ev) t p.
Proof.
  intros e w2 w2' tr ev t p L H. destruct p; cbn in *; try exact I; try (apply okk_mono; assumption);
    try (apply (okset_mono e w2); assumption); try (apply (okw_mono e w2); assumption);
    try (split; [tauto|apply logs_mono; tauto]).
  - split; [apply logs_mono; tauto|]. destruct H as (_ & H). destruct cols as [|c [|]]; try tauto. destruct H as [H|H]; [tauto|right; apply (okw_mono e w2); assumption].
  - split; [apply logs_mono; tauto|tauto].
  - split; [apply okk_mono; tauto|apply (okw_mono e w2); tauto].
  - destruct w; [apply (okset_mono e w2); assumption|exact H].
  - destruct H as (m & A & B). exists m. split; [apply logs_mono; exact A|exact B].
Qed.

Record InvB (e : env) (s : state) (tr : list event) : Prop := mkInvB {
  b_w : s_writer s = Init \/ okw e (s_writer2 s) (s_writer s);
  b_w2 : forall w2, s_writer2 s = Some w2 -> okw2 e w2;
  b_got : forall t w, In (EvGot t w) tr -> exists w', w = Some w' /\ okset e (s_writer2 s) w';
  b_pc : forall t, okpc e (s_writer2 s) tr t (s_th s t);
  b_crash : forall t, In (EvCrash t) tr -> s_th s t = Crashed
}.

Lemma legal_app : forall tr ev, legal (tr ++ ev) -> legal tr.
Proof. intros tr ev H tr1 t w tr2 E. apply (H tr1 t w (tr2 ++ ev)). rewrite E, <- app_assoc. reflexivity. Qed.

Lemma okw2_okw : forall e w2 w, okw2 e w -> okset e w2 w -> e_stderr e = false -> False.
Proof. intros e w2 w (A & B) C E. rewrite (B E) in C. cbn in C. congruence. Qed.

Lemma inv_b : forall e s tr, reaches e s tr -> legal tr -> InvB e s tr.
Proof.
  intros e. apply (reaches_ind2 e (fun s tr => legal tr -> InvB e s tr)).
  { intros _. constructor; cbn; try tauto; discriminate. }
  intros s tr t o a s' ev R IH H Lg. specialize (IH (legal_app _ _ Lg)). destruct IH as [Bw Bw2 Bg Bp Bc].
  pose proof (inv_hst e s tr R t) as Hs. pose proof (Bp t) as Bt.
  assert (Le : w2le (s_writer2 s) (s_writer2 s')).
  { clear -H. unfold w2le. cases H; congruence. }
  assert (W2 : forall w2, s_writer2 s' = Some w2 -> okw2 e w2).
  { clear Lg. intros w2 E. cases H; rewrite ?Q in *; try (apply Bw2; assumption); try (apply Bw2; congruence).
    - inversion E. subst. cbn in Hs. destruct Hs as (_ & [(-> & _)|(-> & _)]); (split; [reflexivity|intros X]); [|reflexivity].
      rewrite X in Q0. discriminate.
    - inversion E. subst. cbn in Bt. split; [destruct w2; cbn in *; try tauto; intuition congruence|congruence]. }
  assert (Pt : okpc e (s_writer2 s') (tr ++ ev) t (s_th s' t)).
  { clear Bp Bc W2. cases H; rewrite ?upd_same, ?Q in *; cbn [okpc okk hst] in *; try exact I; try (exact Bt);
      try (split; [reflexivity|]); try (apply in_app_iff; right; left; reflexivity); try (apply okk_mono; assumption);
      try (split; [tauto|apply logs_mono; tauto]); try (apply logs_mono; tauto).
    - destruct (Lg tr t w [] eq_refl) as [(f & ->)|(t' & Hg)]; [exact I|]. destruct (Bg _ _ Hg) as (w' & E & Ok). inversion E. exact Ok.
    - destruct Bt as (-> & Bt). split; [apply logs_mono; exact Bt|exact Bw].
    - destruct Bt as (A & B). split; [|apply logs_mono; exact A]. destruct cols as [|c [|]]; [reflexivity|destruct B as (_ & B & _); discriminate|contradiction].
    - destruct Bt as (A & B). split; [apply logs_mono; exact A|]. destruct cols as [|c [|]]; tauto.
    - destruct Bt as (A & B). split; [apply logs_mono; exact A|exact B].
    - destruct Bt as (A & B). split; [apply logs_mono; exact A|]. destruct cols as [|c [|]]; tauto.
    - destruct Bt as (A & B). split; [apply logs_mono; exact A|]. destruct cols as [|c [|]]; cbn in B.
      + destruct B as [B|(B & _)]; [discriminate|]. split; [exact B|]. apply Bw2. reflexivity.
      + destruct B as (_ & B & _). discriminate.
      + contradiction.
    - destruct Bt as (A & B). exfalso. destruct cols as [|c [|]]; cbn in B.
      + destruct B as [B|(_ & B)]; [discriminate|congruence].
      + destruct B as (_ & B & _). discriminate.
      + contradiction.
    - destruct Bt as (A & B). split; [apply logs_mono; exact A|]. destruct cols as [|c [|]]; tauto.
    - destruct Bt as (A & B). split; [apply logs_mono; exact A|]. destruct l as [|c [|]]; tauto.
    - destruct Bt as (A & B). split; [apply logs_mono; exact A|]. destruct l as [|c [|]]; tauto.
    - destruct Bt as (A & B). exists m. split; [apply logs_mono; exact A|]. split; [assumption|].
      match goal with E : stderr_text _ _ _ = Bug _ |- _ => unfold stderr_text in E; destruct (has_nul (m_buf m)); [discriminate|reflexivity] end.
    - split; [apply okk_mono; exact Bt|]. split; [reflexivity|discriminate].
    - split; [apply okk_mono; exact Bt|]. apply orb_false_iff in Q0. destruct Hs as (_ & [(-> & _)|(-> & _)]); cbn in *; [tauto|intuition congruence].
    - destruct Bw as [Bw|Bw]; [contradiction|]. destruct (s_writer s); cbn in Bw; try contradiction; try congruence.
      destruct Bw as (_ & Bw). destruct (s_writer2 s) as [w2|]; [|congruence]. destruct (Bw2 w2 eq_refl) as (A & _). destruct w2; cbn in *; try exact I; congruence.
    - destruct Bw as [Bw|Bw]; [contradiction|]. destruct (s_writer s); cbn in *; try exact I; try contradiction. split; [assumption|exact Bw].
    - discriminate.
    - destruct w; cbn in *; try contradiction; try assumption; try congruence. tauto.
    - destruct Bt as (m & A & B). exists m. split; [apply logs_mono; exact A|exact B]. }
  assert (Wr : s_writer s' = Init \/ okw e (s_writer2 s') (s_writer s')).
  { destruct Bw as [Bw|Bw].
    - clear Bp Bc Pt Lg. cases H; rewrite ?Q in *; cbn [okpc] in *; try (left; assumption); try (left; reflexivity); right; tauto.
    - pose proof (okw_mono e _ _ _ Le Bw) as Bw'. clear Bp Bc Pt Lg. cases H; rewrite ?Q in *; cbn [okpc] in *; try (right; assumption); try (left; reflexivity); right; tauto. }
  assert (Gt : forall t0 w, In (EvGot t0 w) (tr ++ ev) -> exists w', w = Some w' /\ okset e (s_writer2 s') w').
  { intros t0 w Hin. apply in_app_iff in Hin. destruct Hin as [Hin|Hin].
    - destruct (Bg _ _ Hin) as (w' & A & B). exists w'. split; [exact A|apply (okset_mono e (s_writer2 s)); assumption].
    - clear Bp Bc Pt Lg Wr W2. cases H; cbn [In] in Hin; repeat (destruct Hin as [Hin|Hin]; try discriminate Hin); try contradiction.
      inversion Hin. subst. rewrite ?Q in Bt. cbn [okpc] in Bt. destruct w; [|contradiction]. exists w. split; [reflexivity|exact Bt]. }
  constructor; try assumption.
  - intros t'. destruct (Nat.eq_dec t' t) as [->|Hn]; [exact Pt|]. rewrite (step_frame _ _ _ _ _ _ _ t' H Hn).
    apply (okpc_mono e (s_writer2 s)); [exact Le|apply Bp].
  - intros t' Hin. apply in_app_iff in Hin. destruct Hin as [Hin|Hin].
    + specialize (Bc _ Hin). destruct (Nat.eq_dec t' t) as [->|Hn]; [|rewrite (step_frame _ _ _ _ _ _ _ t' H Hn); exact Bc].
      unfold step in H. rewrite Bc in H. inversion H. subst. exact Bc.
    + clear Bp Bc Pt Lg Wr W2. cases H; cbn [In] in Hin; repeat (destruct Hin as [Hin|Hin]; try discriminate Hin); try contradiction;
        inversion Hin; subst; apply upd_same.
Qed.
