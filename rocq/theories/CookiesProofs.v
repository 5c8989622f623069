(** Invariant of the tag registry. *)
From Coq Require Import ZArith String List Bool Lia ZifyBool ZifyNat Arith.
From Verif Require Import Bytes BytesProofs Parse Cookies CookiesSpec.
Import ListNotations.
Open Scope Z_scope.

(** ** Trace functions and append *)
Lemma inits_app : forall a b, inits (a ++ b) = inits a ++ inits b.
Proof. induction a as [|e a IH]; intros b; [reflexivity|]. destruct e; cbn [inits app]; rewrite IH; reflexivity. Qed.
Lemma sets_app : forall t a b, sets t (a ++ b) = sets t a ++ sets t b.
Proof.
  intros t. induction a as [|e a IH]; intros b; [reflexivity|]. destruct e; cbn [sets app]; try apply IH.
  destruct (Nat.eqb t0 t); rewrite IH; reflexivity.
Qed.
Lemma visits_app : forall t a b, visits t (a ++ b) = visits t a ++ visits t b.
Proof.
  intros t. induction a as [|e a IH]; intros b; [reflexivity|]. destruct e; cbn [visits app]; try apply IH.
  destruct (Nat.eqb t0 t); rewrite IH; reflexivity.
Qed.
Lemma hooks_app : forall c a b, hooks c (a ++ b) = (hooks c a + hooks c b)%nat.
Proof. intros. unfold hooks. rewrite filter_app, app_length. reflexivity. Qed.
Lemma trace_level_app : forall c a b, trace_level c (a ++ b) = fold_left (level_event c) b (trace_level c a).
Proof. intros. unfold trace_level. apply fold_left_app. Qed.
Lemma no_call_app : forall t a b, no_call t a -> no_call t b -> no_call t (a ++ b).
Proof. intros t a b Ha Hb o H. apply in_app_iff in H. destruct H; [apply (Ha o)|apply (Hb o)]; assumption. Qed.
Lemma no_call_nil : forall t, no_call t [].
Proof. intros t o []. Qed.
Lemma prefix_app : forall p a b, prefix p a -> prefix p (a ++ b).
Proof. intros p a b (q & ->). exists (q ++ b). rewrite app_assoc. reflexivity. Qed.
Lemma prefix_refl : forall a, prefix a a.
Proof. intros a. exists []. symmetry. apply app_nil_r. Qed.

Lemma upd_same : forall A (f : nat -> A) i v, upd f i v i = v.
Proof. intros. unfold upd. rewrite Nat.eqb_refl. reflexivity. Qed.
Lemma upd_other : forall A (f : nat -> A) i j v, j <> i -> upd f i v j = f j.
Proof. intros A f i j v H. unfold upd. destruct (Nat.eqb_spec j i); [contradiction|reflexivity]. Qed.

Lemma clamp_spec : forall l, clamp l = Z.max 0 (Z.min 7 l).
Proof.
  intros l. unfold clamp, ULOG_DEBUG. destruct (Z.ltb_spec l 0); [cbn; lia|]. destruct (l >? 7) eqn:E; lia.
Qed.

Lemma chain_upd : forall next c v l p, ~ In c l -> chain next p l -> chain (upd next c v) p l.
Proof.
  intros next c v l. induction l as [|x l IH]; intros p Hn H; [exact H|]. destruct H as (-> & H). split; [reflexivity|].
  rewrite upd_other; [|intros E; apply Hn; left; exact E]. apply IH; [|exact H]. intros Hi. apply Hn. right. exact Hi.
Qed.

(** ** Per thread conditions *)

(** Inside the critical section. *)
Definition cs (p : pc) : bool :=
  match p with
  | Test _ _ _ | SetNext _ _ _ | SetHead _ _ _ | SetLvl _ _ _ | RdHook _ _ | Unlock _ _ _
  | TRead _ _ | TWalk _ _ _ | TUnlock _ _ _ | NRead _ | NWalk _ _ _ | NUnlock _ _
  | FRead | FUnlock _ | HSet _ | HUnlock => true
  | _ => false
  end.

Definition lookup_tag (cf : cfg) (n : list Z) (l : list nat) : option nat := find (fun q => bytes_eqb (c_name cf q) n) l.

Definition kmatch (cf : cfg) (c : nat) (k : kont) (tr1 : list event) (o : call) (tr2 : list event) : Prop :=
  match k with
  | KInit => o = CInit c
  | KLog p => o = CLog c p
  | KSet l => o = CSet c l
  | KGet => o = CGet c
  | KSetTag n l => o = CSetTag n l /\ exists tra, prefix tra tr2 /\ lookup_tag cf n (rev (inits (tr1 ++ tra))) = Some c
  end.

Definition choice (cf : cfg) (c : nat) (v : Z) (t : nat) (tr1 : list event) (o : call) (tr2 : list event) : Prop :=
  exists trp, prefix trp tr2 /\
    v = (let e := env_level cf c in
         if e <? 0 then let d := trace_level 0 (tr1 ++ EvCall t o :: trp) in if d <? 0 then ULOG_INFO else d else e).

Definition nonzero (l : list nat) : list nat := filter (fun q => negb (Nat.eqb q 0)) l.

Definition cond (cf : cfg) (head : option nat) (next : nat -> option nat) (t : nat)
  (tr1 : list event) (o : call) (tr2 : list event) (p : pc) : Prop :=
  let tr := tr1 ++ EvCall t o :: tr2 in
  match p with
  | Idle => True
  | Check c k | Env c k => kmatch cf c k tr1 o tr2 /\ sets t tr2 = []
  | Env2 c k => kmatch cf c k tr1 o tr2 /\ sets t tr2 = [] /\ In 0%nat (inits tr) /\ env_level cf c < 0
  | Lock c v k | Test c v k => kmatch cf c k tr1 o tr2 /\ sets t tr2 = [] /\ 0 <= v <= 7 /\ choice cf c v t tr1 o tr2
  | SetNext c v k | SetLvl c v k => kmatch cf c k tr1 o tr2 /\ sets t tr2 = [] /\ 0 <= v <= 7 /\ choice cf c v t tr1 o tr2 /\ ~ In c (inits tr)
  | SetHead c v k => kmatch cf c k tr1 o tr2 /\ sets t tr2 = [] /\ 0 <= v <= 7 /\ choice cf c v t tr1 o tr2 /\ ~ In c (inits tr) /\ next c = head
  | RdHook c k | Unlock c _ k | Hook c _ k | After c k => kmatch cf c k tr1 o tr2 /\ sets t tr2 = [] /\ In c (inits tr)
  | TLock n l | TRead n l => o = CSetTag n l /\ sets t tr2 = []
  | TWalk n l p => o = CSetTag n l /\ sets t tr2 = [] /\
      exists l1 l2, rev (inits tr) = l1 ++ l2 /\ chain next p l2 /\ lookup_tag cf n l1 = None
  | TUnlock n l f => o = CSetTag n l /\ sets t tr2 = [] /\ lookup_tag cf n (rev (inits tr)) = f
  | NLock m | NRead m => o = CNames m
  | NWalk m p acc => o = CNames m /\
      exists l1 l2, rev (inits tr) = l1 ++ l2 /\ chain next p l2 /\ acc = map (c_name cf) l1 /\ zlen acc <= Z.max 0 m
  | NUnlock m acc => o = CNames m /\ acc = firstn (Z.to_nat m) (map (c_name cf) (rev (inits tr)))
  | FLock | FRead => o = CForeach /\ visits t tr2 = []
  | FUnlock p => o = CForeach /\ visits t tr2 = [] /\ chain next p (rev (inits tr))
  | FWalk p => o = CForeach /\ exists tra l2, prefix tra tr2 /\ chain next p l2 /\ incl l2 (inits tr) /\
      visits t tr2 ++ nonzero l2 = nonzero (rev (inits (tr1 ++ tra)))
  | HLock f | HSet f => o = CHook f
  | HUnlock => exists f, o = CHook f
  end.

Definition pcinv (cf : cfg) (s : state) (tr : list event) (t : nat) (p : pc) : Prop :=
  p = Idle \/ exists tr1 o tr2, tr = tr1 ++ EvCall t o :: tr2 /\ no_call t tr2 /\ cond cf (s_head s) (s_next s) t tr1 o tr2 p.

(** The tag linked but not yet initialised. *)
Definition pend (s : state) : list nat :=
  match s_lock s with
  | Some t => match s_th s t with SetLvl c _ _ => [c] | _ => [] end
  | None => []
  end.

(** Pending hook call. *)
Definition hp (p : pc) (c : nat) : Prop :=
  match p with
  | RdHook c' _ | Unlock c' (Some _) _ | Hook c' (Some _) _ => c' = c
  | _ => False
  end.

Record Inv (cf : cfg) (s : state) (tr : list event) : Prop := mkInv {
  i_chain : chain (s_next s) (s_head s) (pend s ++ rev (inits tr));
  i_nodup : NoDup (inits tr);
  i_level : forall c, s_level s c = trace_level c tr;
  i_in : forall c, In c (inits tr) -> 0 <= s_level s c <= 7;
  i_out : forall c, ~ In c (inits tr) -> s_level s c = -1;
  i_lock : forall t, s_lock s = Some t <-> cs (s_th s t) = true;
  i_pc : forall t, pcinv cf s tr t (s_th s t);
  i_h1 : forall c, (hooks c tr <= 1)%nat;
  i_h2 : forall c, (0 < hooks c tr)%nat -> In c (inits tr);
  i_h3 : forall t c, hp (s_th s t) c -> hooks c tr = 0%nat;
  i_h4 : forall t1 t2 c, hp (s_th s t1) c -> hp (s_th s t2) c -> t1 = t2;
  i_oob : forall t, ~ In (EvOob t) tr
}.

Lemma hp_in : forall cf s tr t c, Inv cf s tr -> hp (s_th s t) c -> In c (inits tr).
Proof.
  intros cf s tr t c I H. destruct (i_pc _ _ _ I t) as [E|(tr1 & o & tr2 & E & _ & C)]; [rewrite E in H; contradiction|].
  destruct (s_th s t); cbn in H; try contradiction; subst; cbn [cond] in C; try (destruct h; [|contradiction]); subst; tauto.
Qed.

(** Events of a step belong to the stepping thread. *)
Definition mine (t : nat) (e : event) : Prop :=
  match e with
  | EvCall t' _ | EvSet t' _ _ | EvLog t' _ _ _ | EvGet t' _ _ | EvInited t' _ | EvTag t' _ _ | EvNames t' _ _
  | EvVisit t' _ | EvInit t' _ _ | EvForeach t' | EvHooked t' | EvOob t' => t' = t
  | EvRunHook _ _ => True
  end.

Lemma step_mine : forall cf s t o s' e, step cf s t o = (s', e) -> Forall (mine t) e.
Proof.
  intros cf s t o s' e H. unfold step, after in H. destruct (s_th s t);
    repeat match goal with
    | H : context [match ?x with _ => _ end] |- _ => destruct x
    end; inversion H; subst; repeat constructor.
Qed.

Lemma mine_other : forall t t' e, t' <> t -> Forall (mine t) e -> no_call t' e /\ sets t' e = [] /\ visits t' e = [].
Proof.
  intros t t' e Hne H. induction H as [|x e Hx H IH]; [split; [apply no_call_nil|split; reflexivity]|].
  destruct IH as (I1 & I2 & I3).
  split; [|split].
  - intros o [E|Hi]; [subst x; cbn in Hx; congruence|apply (I1 o Hi)].
  - destruct x; cbn [sets]; try exact I2. cbn in Hx. subst t0. destruct (Nat.eqb_spec t t'); [congruence|exact I2].
  - destruct x; cbn [visits]; try exact I3. cbn in Hx. subst t0. destruct (Nat.eqb_spec t t'); [congruence|exact I3].
Qed.

Lemma kmatch_app : forall cf c k tr1 o tr2 e, kmatch cf c k tr1 o tr2 -> kmatch cf c k tr1 o (tr2 ++ e).
Proof.
  intros cf c k tr1 o tr2 e H. destruct k; cbn in *; try exact H. destruct H as (H & tra & P & L). split; [exact H|].
  exists tra. split; [apply prefix_app; exact P|exact L].
Qed.
Lemma choice_app : forall cf c v t tr1 o tr2 e, choice cf c v t tr1 o tr2 -> choice cf c v t tr1 o (tr2 ++ e).
Proof. intros cf c v t tr1 o tr2 e (pre & P & E). exists pre. split; [apply prefix_app; exact P|exact E]. Qed.

Lemma app_cons_assoc : forall (tr1 : list event) x tr2 e, (tr1 ++ x :: tr2) ++ e = tr1 ++ x :: (tr2 ++ e).
Proof. intros. rewrite <- app_assoc. reflexivity. Qed.

(** Conditions of a thread survive the steps of the others. *)
Lemma frame : forall cf head next head' next' t tr1 o tr2 p e,
  cond cf head next t tr1 o tr2 p ->
  sets t e = [] -> visits t e = [] ->
  (forall q l2, chain next q l2 -> incl l2 (inits (tr1 ++ EvCall t o :: tr2)) -> chain next' q l2) ->
  (cs p = true -> inits e = [] /\ head' = head /\ next' = next) ->
  cond cf head' next' t tr1 o (tr2 ++ e) p.
Proof.
  intros cf head next head' next' t tr1 o tr2 p e C Es Ev Hch Hcs. pose proof (app_cons_assoc tr1 (EvCall t o) tr2 e) as A.
  destruct p; cbn [cond cs] in *; rewrite <- ?A, ?inits_app in *; rewrite ?sets_app, ?visits_app, ?Es, ?Ev, ?app_nil_r;
    try (destruct (Hcs eq_refl) as (Ei & -> & ->); rewrite ?Ei, ?app_nil_r);
    try (decompose [and] C; repeat split; try assumption; try (apply kmatch_app; assumption); try (apply choice_app; assumption);
         try (apply in_app_iff; left; assumption); lia).
  all: try tauto.
  destruct C as (Co & tra & l2 & P & Ch & In2 & Vi). split; [exact Co|]. exists tra, l2.
    split; [apply prefix_app; exact P|]. split; [apply Hch; [exact Ch|exact In2]|]. split; [|exact Vi].
    intros x Hx. apply in_app_iff. left. apply In2. exact Hx.
Qed.

Lemma hooks_mine_pos : forall c e, hooks c e = 0%nat \/ (0 < hooks c e)%nat.
Proof. intros. lia. Qed.

(** Rebuilding the invariant after a step of thread [t]. *)
Lemma rebuild : forall cf s tr t s' e p', Inv cf s tr -> Forall (mine t) e -> s_th s' = upd (s_th s) t p' ->
  s_lock s' = (if cs p' then Some t else if cs (s_th s t) then None else s_lock s) ->
  (cs p' = true -> cs (s_th s t) = true \/ s_lock s = None) ->
  chain (s_next s') (s_head s') (pend s' ++ rev (inits (tr ++ e))) ->
  NoDup (inits (tr ++ e)) ->
  (forall c, s_level s' c = trace_level c (tr ++ e)) ->
  (forall c, In c (inits (tr ++ e)) -> 0 <= s_level s' c <= 7) ->
  (forall c, ~ In c (inits (tr ++ e)) -> s_level s' c = -1) ->
  (forall q l2, chain (s_next s) q l2 -> incl l2 (inits tr) -> chain (s_next s') q l2) ->
  (cs (s_th s t) = false -> inits e = [] /\ s_head s' = s_head s /\ s_next s' = s_next s) ->
  pcinv cf s' (tr ++ e) t p' ->
  (forall c, hp p' c -> (hp (s_th s t) c \/ (hooks c tr = 0%nat /\ forall t', ~ hp (s_th s t') c)) /\ hooks c e = 0%nat) ->
  (forall c, (0 < hooks c e)%nat -> hp (s_th s t) c /\ ~ hp p' c /\ hooks c e = 1%nat) ->
  (forall t', ~ In (EvOob t') e) -> Inv cf s' (tr ++ e).
Proof.
  intros cf s tr t s' e p' I Hm Hth Hlk Hlk2 Hch Hnd Hl1 Hl2 Hl3 Hnx Hfr Hpc Hh1 Hh2 Hoob.
  assert (Hoth : forall t', t' <> t -> s_th s' t' = s_th s t') by (intros t' Hne; rewrite Hth; apply upd_other; exact Hne).
  assert (Hme : s_th s' t = p') by (rewrite Hth; apply upd_same).
  assert (Hothcs : forall t', t' <> t -> cs (s_th s t) = true -> cs (s_th s t') = false).
  { intros t' Hne Hc. destruct (cs (s_th s t')) eqn:E; [|reflexivity]. apply (i_lock _ _ _ I) in E, Hc. congruence. }
  constructor; try assumption.
  - (* lock *) intros t'. destruct (Nat.eq_dec t' t) as [->|Hne].
    + rewrite Hme, Hlk. destruct (cs p') eqn:E; [split; intros; reflexivity|].
      destruct (cs (s_th s t)) eqn:E2; [split; intros; discriminate|]. split; [|intros; discriminate].
      intros H. apply (i_lock _ _ _ I) in H. congruence.
    + rewrite (Hoth t' Hne), Hlk. pose proof (i_lock _ _ _ I t') as L. destruct (cs p') eqn:E.
      * split; [intros H; congruence|]. intros H. destruct (Hlk2 eq_refl) as [H2|H2].
        -- rewrite (Hothcs t' Hne H2) in H. discriminate.
        -- apply L in H. congruence.
      * destruct (cs (s_th s t)) eqn:E2; [|exact L]. rewrite (Hothcs t' Hne eq_refl). split; intros; discriminate.
  - (* threads *) intros t'. destruct (Nat.eq_dec t' t) as [->|Hne]; [rewrite Hme; exact Hpc|].
    rewrite (Hoth t' Hne). destruct (i_pc _ _ _ I t') as [E|(tr1 & o & tr2 & E & Nc & C)]; [left; exact E|]. right.
    destruct (mine_other t t' e Hne Hm) as (M1 & M2 & M3).
    exists tr1, o, (tr2 ++ e). split; [rewrite E; apply app_cons_assoc|]. split; [apply no_call_app; assumption|].
    apply (frame cf (s_head s) (s_next s)); try assumption.
    + rewrite <- E. exact Hnx.
    + intros Hc. apply Hfr. destruct (cs (s_th s t)) eqn:E2; [|reflexivity]. rewrite (Hothcs t' Hne eq_refl) in Hc. discriminate.
  - (* h1 *) intros c. rewrite hooks_app. destruct (hooks_mine_pos c e) as [H|H].
    + rewrite H. pose proof (i_h1 _ _ _ I c). lia.
    + destruct (Hh2 c H) as (H2 & _ & H3). rewrite (i_h3 _ _ _ I t c H2). lia.
  - (* h2 *) intros c. rewrite hooks_app, inits_app. intros H. apply in_app_iff. left. destruct (hooks_mine_pos c e) as [H0|H0].
    + apply (i_h2 _ _ _ I). lia.
    + destruct (Hh2 c H0) as (H2 & _ & _). apply (hp_in cf s tr t c I H2).
  - (* h3 *) intros t' c. rewrite hooks_app. destruct (Nat.eq_dec t' t) as [->|Hne].
    + rewrite Hme. intros H. destruct (Hh1 c H) as ([H1|(H1 & _)] & H2); [|lia]. rewrite (i_h3 _ _ _ I t c H1). lia.
    + rewrite (Hoth t' Hne). intros H. rewrite (i_h3 _ _ _ I t' c H). destruct (hooks_mine_pos c e) as [H0|H0]; [lia|].
      destruct (Hh2 c H0) as (H2 & _ & _). exfalso. apply Hne. apply (i_h4 _ _ _ I _ _ c); assumption.
  - (* h4 *) intros t1 t2 c H1 H2.
    destruct (Nat.eq_dec t1 t) as [->|N1]; destruct (Nat.eq_dec t2 t) as [->|N2]; try reflexivity.
    + rewrite Hme in H1. rewrite (Hoth t2 N2) in H2. destruct (Hh1 c H1) as ([H3|(_ & H3)] & _).
      * apply (i_h4 _ _ _ I _ _ c); assumption.
      * exfalso. apply (H3 _ H2).
    + rewrite Hme in H2. rewrite (Hoth t1 N1) in H1. destruct (Hh1 c H2) as ([H3|(_ & H3)] & _).
      * apply (i_h4 _ _ _ I _ _ c); assumption.
      * exfalso. apply (H3 _ H1).
    + rewrite (Hoth t1 N1) in H1. rewrite (Hoth t2 N2) in H2. apply (i_h4 _ _ _ I _ _ c); assumption.
  - (* oob *) intros t' H. apply in_app_iff in H. destruct H as [H|H]; [apply (i_oob _ _ _ I t' H)|apply (Hoob t' H)].
Qed.

Lemma init_inv : forall cf, Inv cf init [].
Proof.
  intros cf. constructor; cbn; try (intros; lia); try (intros; contradiction); try constructor; try (intros; reflexivity); try (intros; discriminate).
Qed.

Definition is_setlvl (p : pc) : bool := match p with SetLvl _ _ _ => true | _ => false end.

Lemma pend_nil : forall s, (forall t, s_lock s = Some t -> is_setlvl (s_th s t) = false) -> pend s = [].
Proof. intros s H. unfold pend. destruct (s_lock s) as [t|]; [|reflexivity]. specialize (H t eq_refl). destruct (s_th s t); try reflexivity. discriminate. Qed.

(** Steps that change neither the list nor the levels. *)
Lemma rebuild_quiet : forall cf s tr t s' e p', Inv cf s tr -> Forall (mine t) e -> s_th s' = upd (s_th s) t p' ->
  s_lock s' = (if cs p' then Some t else if cs (s_th s t) then None else s_lock s) ->
  (cs p' = true -> cs (s_th s t) = true \/ s_lock s = None) ->
  is_setlvl (s_th s t) = false -> is_setlvl p' = false ->
  s_head s' = s_head s -> s_next s' = s_next s -> inits e = [] ->
  (forall c, s_level s' c = fold_left (level_event c) e (s_level s c)) ->
  (forall c, In c (inits tr) -> 0 <= s_level s' c <= 7) ->
  (forall c, ~ In c (inits tr) -> s_level s' c = -1) ->
  pcinv cf s' (tr ++ e) t p' ->
  (forall c, hp p' c -> hp (s_th s t) c /\ hooks c e = 0%nat) ->
  (forall c, (0 < hooks c e)%nat -> hp (s_th s t) c /\ ~ hp p' c /\ hooks c e = 1%nat) ->
  (forall t', ~ In (EvOob t') e) -> Inv cf s' (tr ++ e).
Proof.
  intros cf s tr t s' e p' I Hm Hth Hlk Hlk2 Hs1 Hs2 Hhd Hnx Hin Hl1 Hl2 Hl3 Hpc Hh1 Hh2 Hoob.
  assert (Ein : inits (tr ++ e) = inits tr) by (rewrite inits_app, Hin, app_nil_r; reflexivity).
  apply (rebuild cf s tr t s' e p'); try assumption.
  - rewrite Ein, Hhd, Hnx. assert (pend s' = pend s) as ->; [|apply (i_chain _ _ _ I)].
    unfold pend. rewrite Hlk. destruct (cs p') eqn:E.
    + rewrite Hth, upd_same. destruct (Hlk2 eq_refl) as [H|H].
      * apply (i_lock _ _ _ I) in H. rewrite H. destruct p'; try discriminate Hs2; destruct (s_th s t); try discriminate Hs1; reflexivity.
      * rewrite H. destruct p'; try discriminate Hs2; reflexivity.
    + destruct (cs (s_th s t)) eqn:E2.
      * apply (i_lock _ _ _ I) in E2. rewrite E2. destruct (s_th s t); try discriminate Hs1; reflexivity.
      * destruct (s_lock s) as [t'|] eqn:E3; [|reflexivity]. rewrite Hth. rewrite upd_other; [reflexivity|].
        intros ->. apply (i_lock _ _ _ I) in E3. congruence.
  - rewrite Ein. apply (i_nodup _ _ _ I).
  - intros c. rewrite trace_level_app, Hl1, (i_level _ _ _ I). reflexivity.
  - rewrite Ein. exact Hl2.
  - rewrite Ein. exact Hl3.
  - intros q l2 H _. rewrite Hnx. exact H.
  - intros _. repeat split; assumption.
  - intros c H. destruct (Hh1 c H) as (H1 & H2). split; [left; exact H1|exact H2].
Qed.

Lemma env_level_range : forall cf c, -1 <= env_level cf c <= 7.
Proof.
  intros cf c. assert (P : forall x, 0 <= parse_level x <= 7).
  { intros x. unfold parse_level, isdigit, isupper, ULOG_DEBUG.
    destruct ((48 <=? x) && (x <=? 57)) eqn:E1.
    - destruct (x - 48 >? 7) eqn:E; lia.
    - destruct ((65 <=? x) && (x <=? 90)) eqn:E2; [|cbn; lia].
      assert (H : 0 <= znth (x - 65) level_tab <= 7).
      { assert (K : Forall (fun v => 0 <= v <= 7) level_tab) by (repeat constructor; vm_compute; discriminate).
        rewrite Forall_forall in K. apply K. unfold znth. replace (x - 65 <? 0) with false by lia. apply nth_In.
        change (length level_tab) with 26%nat. lia. }
      destruct (znth (x - 65) level_tab >? 7) eqn:E; lia. }
  unfold env_level.
  destruct (first_char (c_name cf c) =? 0); [|destruct (c_env cf _) as [v|]];
    (destruct (c_env cf (bytes_of_string "ULOG_LEVEL")) as [w|]);
    try pose proof (P (first_char v)); try pose proof (P (first_char w));
    match goal with |- context [if ?x <? 0 then _ else _] => destruct (x <? 0) eqn:E end; lia.
Qed.

Lemma nonzero_cons : forall q l, nonzero (q :: l) = (if Nat.eqb q 0 then [] else [q]) ++ nonzero l.
Proof. intros q l. unfold nonzero. cbn [filter]. destruct (Nat.eqb q 0); reflexivity. Qed.

Lemma lookup_tag_none_app : forall cf n l1 l2, lookup_tag cf n l1 = None -> lookup_tag cf n (l1 ++ l2) = lookup_tag cf n l2.
Proof.
  intros cf n l1 l2. unfold lookup_tag. induction l1 as [|x l1 IH]; intros H; [reflexivity|]. cbn [find app] in *.
  destruct (bytes_eqb (c_name cf x) n); [discriminate|apply IH; exact H].
Qed.


Lemma step_inv : forall cf s tr t o s' e, Inv cf s tr -> step cf s t o = (s', e) -> Inv cf s' (tr ++ e).
Proof.
  intros cf s tr t o0 s' e I H. pose proof (step_mine _ _ _ _ _ _ H) as Hm.
  pose proof (i_pc _ _ _ I t) as Hpc. unfold step in H.
  assert (Lk : cs (s_th s t) = true -> s_lock s = Some t) by apply (i_lock _ _ _ I).
  assert (Acq : forall p', (s', e) = (acquire s t p', []) ->
     cs (s_th s t) = false -> cs p' = true -> is_setlvl p' = false -> (forall c, ~ hp p' c) -> pcinv cf s tr t p' -> Inv cf s' (tr ++ e)).
  { intros p' Heq Hcs Hcs' Hsl Hhp Hp. inversion Heq. subst s' e. clear Heq. unfold acquire. destruct (s_lock s) as [t'|] eqn:El.
    - rewrite app_nil_r. exact I.
    - apply (rebuild_quiet cf s tr t _ [] p'); try assumption; cbn; try reflexivity.
      + rewrite Hcs'. reflexivity.
      + intros _. right. exact El.
      + destruct (s_th s t); try reflexivity; discriminate.
      + apply (i_in _ _ _ I).
      + apply (i_out _ _ _ I).
      + rewrite app_nil_r. destruct Hp as [Hp|Hp]; [left; exact Hp|right; exact Hp].
      + intros c Hc. destruct (Hhp c Hc).
      + intros c Hc. lia.
      + intros t' []. }
  assert (Quiet : forall p', (s', e) = (goto s t p', []) -> cs p' = cs (s_th s t) -> is_setlvl (s_th s t) = false -> is_setlvl p' = false ->
     (forall c, hp p' c -> hp (s_th s t) c) -> pcinv cf s tr t p' -> Inv cf s' (tr ++ e)).
  { intros p' Heq Hcs Hs1 Hs2 Hhp Hp. inversion Heq. subst s' e. clear Heq.
    apply (rebuild_quiet cf s tr t _ [] p'); try assumption; cbn; try reflexivity.
    + rewrite Hcs. destruct (cs (s_th s t)) eqn:E; [apply Lk; reflexivity|reflexivity].
    + intros Hc. left. congruence.
    + apply (i_in _ _ _ I).
    + apply (i_out _ _ _ I).
    + rewrite app_nil_r. exact Hp.
    + intros c Hc. split; [apply Hhp; exact Hc|reflexivity].
    + intros c Hc. lia.
    + intros t' []. }
  destruct (s_th s t) eqn:Ep.
  - (* Idle *)
    inversion H. subst s' e. clear H Hpc.
    assert (exists p', start s t o0 = goto s t p' /\ cs p' = false /\ is_setlvl p' = false /\ (forall c, ~ hp p' c) /\
             cond cf (s_head s) (s_next s) t tr o0 [] p') as (p' & -> & Hcs & Hsl & Hhp & Hc).
    { destruct o0; cbn [start]; eexists; (split; [reflexivity|]); cbn; repeat split; try reflexivity; intros; tauto. }
    apply (rebuild_quiet cf s tr t _ _ p'); rewrite ?Ep; try assumption; cbn; try reflexivity.
    + rewrite Hcs. reflexivity.
    + congruence.
    + apply (i_in _ _ _ I).
    + apply (i_out _ _ _ I).
    + right. exists tr, o0, []. split; [reflexivity|]. split; [apply no_call_nil|exact Hc].
    + intros c Hc'. destruct (Hhp c Hc').
    + intros c Hc'. lia.
    + intros t' [Hi|[]]. discriminate.
  - (* Check *)
    destruct Hpc as [?|(tr1 & o & tr2 & E & Nc & C)]; [discriminate|]. cbn [cond] in C.
    apply (Quiet _ (eq_sym H)); try reflexivity; destruct (Z.ltb_spec (s_level s c) 0) as [L|L]; try reflexivity; try (intros ? []).
    + right. exists tr1, o, tr2. split; [exact E|]. split; [exact Nc|exact C].
    + right. exists tr1, o, tr2. split; [exact E|]. split; [exact Nc|]. cbn [cond]. destruct C as (C1 & C2). split; [exact C1|]. split; [exact C2|].
      rewrite <- E. destruct (in_dec Nat.eq_dec c (inits tr)) as [Hi|Hi]; [exact Hi|]. rewrite (i_out _ _ _ I c Hi) in L. lia.
  - (* Env *)
    destruct Hpc as [?|(tr1 & o & tr2 & E & Nc & C)]; [discriminate|]. cbn [cond] in C. destruct C as (C1 & C2).
    pose proof (env_level_range cf c) as Rg. cbn zeta in H.
    apply (Quiet _ (eq_sym H)); try reflexivity; destruct (Z.ltb_spec (env_level cf c) 0) as [L|L]; try reflexivity;
      try (destruct (s_level s 0 >=? 0) eqn:L0); try reflexivity; try (intros ? []);
      right; exists tr1, o, tr2; (split; [exact E|]); (split; [exact Nc|]); cbn [cond]; rewrite <- ?E; repeat split; try assumption; try lia.
    + destruct (in_dec Nat.eq_dec 0%nat (inits tr)) as [Hi|Hi]; [exact Hi|]. rewrite (i_out _ _ _ I _ Hi) in L0. discriminate.
    + unfold ULOG_INFO. lia.
    + unfold ULOG_INFO. lia.
    + exists tr2. split; [apply prefix_refl|]. cbn zeta. rewrite <- ?E. rewrite <- (i_level _ _ _ I).
      replace (env_level cf c <? 0) with true by lia. replace (s_level s 0%nat <? 0) with true by lia. reflexivity.
    + exists tr2. split; [apply prefix_refl|]. cbn zeta. replace (env_level cf c <? 0) with false by lia. reflexivity.
    + exists tr2. split; [apply prefix_refl|]. cbn zeta. replace (env_level cf c <? 0) with false by lia. reflexivity.
  - (* Env2 *)
    destruct Hpc as [?|(tr1 & o & tr2 & E & Nc & C)]; [discriminate|]. cbn [cond] in C. destruct C as (C1 & C2 & C3 & C4).
    cbn zeta in H. rewrite <- E in C3. pose proof (i_in _ _ _ I _ C3) as R0.
    apply (Quiet _ (eq_sym H)); try reflexivity; try (intros ? []).
    replace (s_level s 0 <? 0) with false by lia.
    right. exists tr1, o, tr2. split; [exact E|]. split; [exact Nc|]. cbn [cond]; rewrite <- ?E; repeat split; try assumption; try lia.
    exists tr2. split; [apply prefix_refl|]. cbn zeta. rewrite <- ?E. rewrite <- (i_level _ _ _ I).
    replace (env_level cf c <? 0) with true by lia. replace (s_level s 0%nat <? 0) with false by lia. reflexivity.
  - (* Lock *)
    destruct Hpc as [?|(tr1 & o & tr2 & E & Nc & C)]; [discriminate|].
    apply (Acq _ (eq_sym H)); try reflexivity; try (intros ? []).
    right. exists tr1, o, tr2. split; [exact E|]. split; [exact Nc|]. exact C.
  - (* Test *)
    destruct Hpc as [?|(tr1 & o & tr2 & E & Nc & C)]; [discriminate|]. cbn [cond] in C.
    apply (Quiet _ (eq_sym H)); try reflexivity; destruct (Z.ltb_spec (s_level s c) 0) as [L|L]; try reflexivity; try (intros ? []);
      right; exists tr1, o, tr2; (split; [exact E|]); (split; [exact Nc|]); cbn [cond]; rewrite <- E in *; decompose [and] C; repeat split; try assumption; try lia.
    + intros Hi. pose proof (i_in _ _ _ I c Hi). lia.
    + destruct (in_dec Nat.eq_dec c (inits tr)) as [Hi|Hi]; [exact Hi|]. rewrite (i_out _ _ _ I c Hi) in L. lia.
  - (* SetNext *)
    destruct Hpc as [?|(tr1 & o & tr2 & E & Nc & C)]; [discriminate|]. cbn [cond] in C. inversion H. subst s' e. clear H Acq Quiet.
    rewrite <- E in C. destruct C as (C1 & C2 & C3 & C4 & C5). specialize (Lk eq_refl).
    assert (P0 : pend s = []) by (unfold pend; rewrite Lk, Ep; reflexivity).
    assert (Cin : ~ In c (rev (inits tr))) by (rewrite <- in_rev; exact C5).
    apply (rebuild cf s tr t _ [] (SetHead c v k)); rewrite ?app_nil_r, ?Ep; try assumption; cbn; try reflexivity; rewrite ?app_nil_r.
    + intros _. left. reflexivity.
    + unfold pend. cbn. rewrite Lk, upd_same. cbn [app]. apply chain_upd; [exact Cin|].
      pose proof (i_chain _ _ _ I) as Hch. rewrite P0 in Hch. exact Hch.
    + apply (i_nodup _ _ _ I).
    + apply (i_level _ _ _ I).
    + apply (i_in _ _ _ I).
    + apply (i_out _ _ _ I).
    + intros q l2 Hc Hi. apply chain_upd; [|exact Hc]. intros Hx. apply C5. apply Hi. exact Hx.
    + intros; discriminate.
    + right. exists tr1, o, tr2. split; [exact E|]. split; [exact Nc|]. cbn. rewrite <- E. repeat split; try assumption; try lia.
      apply upd_same.
    + intros x [].
    + intros x Hx. lia.
    + intros x [].
  - (* SetHead *)
    destruct Hpc as [?|(tr1 & o & tr2 & E & Nc & C)]; [discriminate|]. cbn [cond] in C. inversion H. subst s' e. clear H Acq Quiet.
    rewrite <- E in C. destruct C as (C1 & C2 & C3 & C4 & C5 & C6). specialize (Lk eq_refl).
    assert (P0 : pend s = []) by (unfold pend; rewrite Lk, Ep; reflexivity).
    apply (rebuild cf s tr t _ [] (SetLvl c v k)); rewrite ?app_nil_r, ?Ep; try assumption; cbn; try reflexivity; rewrite ?app_nil_r.
    + intros _. left. reflexivity.
    + unfold pend. cbn. rewrite Lk, upd_same. cbn [app chain]. split; [reflexivity|]. rewrite C6.
      pose proof (i_chain _ _ _ I) as Hch. rewrite P0 in Hch. exact Hch.
    + apply (i_nodup _ _ _ I).
    + apply (i_level _ _ _ I).
    + apply (i_in _ _ _ I).
    + apply (i_out _ _ _ I).
    + intros q l2 Hc Hi. exact Hc.
    + intros; discriminate.
    + right. exists tr1, o, tr2. split; [exact E|]. split; [exact Nc|]. cbn. rewrite <- E. repeat split; try assumption; lia.
    + intros x [].
    + intros x Hx. lia.
    + intros x [].
  - (* SetLvl *)
    destruct Hpc as [?|(tr1 & o & tr2 & E & Nc & C)]; [discriminate|]. cbn [cond] in C. inversion H. subst s' e. clear H Acq Quiet.
    rewrite <- E in C. destruct C as (C1 & C2 & C3 & C4 & C5). specialize (Lk eq_refl).
    assert (P0 : pend s = [c]) by (unfold pend; rewrite Lk, Ep; reflexivity).
    assert (Ei : inits (tr ++ [EvInit t c v]) = inits tr ++ [c]) by (rewrite inits_app; reflexivity).
    apply (rebuild cf s tr t _ [EvInit t c v] (RdHook c k)); rewrite ?Ei, ?Ep; try assumption; cbn; try reflexivity.
    + intros _. left. reflexivity.
    + unfold pend. cbn. rewrite Lk, upd_same. cbn [app]. rewrite rev_app_distr. cbn [rev app].
      pose proof (i_chain _ _ _ I) as Hch. rewrite P0 in Hch. exact Hch.
    + apply NoDup_rev in C5 || idtac. rewrite <- (rev_involutive (inits tr ++ [c])). apply NoDup_rev. rewrite rev_app_distr. cbn [rev app].
      constructor; [rewrite <- in_rev; exact C5|apply NoDup_rev; apply (i_nodup _ _ _ I)].
    + intros c'. rewrite trace_level_app. cbn [fold_left level_event]. rewrite <- (i_level _ _ _ I). unfold upd.
      destruct (Nat.eqb_spec c' c); destruct (Nat.eqb_spec c c'); congruence.
    + intros c' Hi. unfold upd. destruct (Nat.eqb_spec c' c); [exact C3|]. apply (i_in _ _ _ I). apply in_app_iff in Hi.
      destruct Hi as [Hi|[Hi|[]]]; [exact Hi|congruence].
    + intros c' Hi. unfold upd. destruct (Nat.eqb_spec c' c) as [->|]; [exfalso; apply Hi; apply in_app_iff; right; left; reflexivity|].
      apply (i_out _ _ _ I). intros Hx. apply Hi. apply in_app_iff. left. exact Hx.
    + intros q l2 Hc _. exact Hc.
    + intros; discriminate.
    + right. exists tr1, o, (tr2 ++ [EvInit t c v]). split; [rewrite E at 1; apply app_cons_assoc|].
      split; [apply no_call_app; [exact Nc|intros o' [Hx|[]]; discriminate]|]. cbn [cond]. rewrite <- app_cons_assoc, <- E, Ei.
      split; [apply kmatch_app; exact C1|]. split; [rewrite sets_app, C2; reflexivity|]. apply in_app_iff. right. left. reflexivity.
    + intros x Hx. subst x. split; [|reflexivity]. right.
      assert (Hh : hooks c tr = 0%nat).
      { pose proof (i_h2 _ _ _ I c) as Q. destruct (hooks c tr) as [|n] eqn:Eh; [reflexivity|]. exfalso. apply C5. apply Q. lia. }
      split; [exact Hh|]. intros t' Hx. apply C5. apply (hp_in cf s tr t' c I Hx).
    + intros x Hx. lia.
    + intros x [Hx|[]]. discriminate.
  - (* RdHook *)
    destruct Hpc as [?|(tr1 & o & tr2 & E & Nc & C)]; [discriminate|].
    apply (Quiet _ (eq_sym H)); try reflexivity.
    + intros x Hx. cbn in *. destruct (s_hook s); [exact Hx|contradiction].
    + right. exists tr1, o, tr2. split; [exact E|]. split; [exact Nc|]. exact C.
  - (* Unlock *)
    destruct Hpc as [?|(tr1 & o & tr2 & E & Nc & C)]; [discriminate|]. inversion H. subst s' e. clear H Acq Quiet.
    apply (rebuild_quiet cf s tr t _ [] (Hook c h k)); rewrite ?Ep; try assumption; cbn; try reflexivity; try (intros; discriminate).
    + apply (i_in _ _ _ I).
    + apply (i_out _ _ _ I).
    + rewrite app_nil_r. right. exists tr1, o, tr2. split; [exact E|]. split; [exact Nc|]. exact C.
    + intros x Hx. split; [destruct h; exact Hx|reflexivity].
    + intros x Hx. lia.
    + intros x [].
  - (* Hook *)
    destruct Hpc as [?|(tr1 & o & tr2 & E & Nc & C)]; [discriminate|]. inversion H. subst s' e. clear H Acq Quiet.
    assert (Hin : inits (match h with Some f => [EvRunHook f c] | None => [] end) = []) by (destruct h; reflexivity).
    apply (rebuild_quiet cf s tr t _ _ (After c k)); rewrite ?Ep; try assumption; cbn; try reflexivity; try (intros; discriminate).
    + intros x. destruct h; reflexivity.
    + apply (i_in _ _ _ I).
    + apply (i_out _ _ _ I).
    + right. exists tr1, o, (tr2 ++ match h with Some f => [EvRunHook f c] | None => [] end).
      split; [rewrite E; apply app_cons_assoc|].
      split; [apply no_call_app; [exact Nc|destruct h; [intros o' [Hx|[]]; discriminate|apply no_call_nil]]|].
      cbn [cond] in *. rewrite <- app_cons_assoc, inits_app. destruct C as (C1 & C2 & C3).
      split; [apply kmatch_app; exact C1|]. split; [rewrite sets_app, C2; destruct h; reflexivity|]. apply in_app_iff. left. exact C3.
    + intros x [].
    + intros x Hx. destruct h as [f|]; [|cbn in Hx; lia]. unfold hooks in *. cbn in *. destruct (Nat.eqb_spec c x) as [->|]; cbn in *; [|lia].
      repeat split; tauto.
    + intros x Hx. destruct h; [|destruct Hx]. destruct Hx as [Hx|[]]; discriminate.
  - (* After *)
    destruct Hpc as [?|(tr1 & o & tr2 & E & Nc & C)]; [discriminate|]. cbn [cond] in C. rewrite <- E in C. destruct C as (C1 & C2 & C3).
    assert (G : forall s1 e1 lv, s' = mkState (s_lock s) (s_head s) (s_hook s) (s_next s) lv (upd (s_th s) t Idle) -> e = e1 -> s1 = s' ->
       inits e = [] -> (forall c', hooks c' e = 0%nat) -> (forall t', ~ In (EvOob t') e) ->
       (forall c', lv c' = fold_left (level_event c') e (s_level s c')) ->
       (forall c', In c' (inits tr) -> 0 <= lv c' <= 7) -> (forall c', ~ In c' (inits tr) -> lv c' = -1) -> Inv cf s' (tr ++ e)).
    { intros s1 e1 lv -> -> -> G1 G2 G3 G4 G5 G6.
      apply (rebuild_quiet cf s tr t _ _ Idle); rewrite ?Ep; try assumption; cbn; try reflexivity; try (intros; discriminate).
      - left. reflexivity.
      - intros x [].
      - intros x Hx. rewrite G2 in Hx. lia. }
    clear Acq Quiet. unfold after in H.
    assert (GS : forall l, (forall c', upd (s_level s) c (clamp l) c' = if Nat.eqb c c' then Z.max 0 (Z.min 7 l) else s_level s c') /\
       (forall c', In c' (inits tr) -> 0 <= upd (s_level s) c (clamp l) c' <= 7) /\
       (forall c', ~ In c' (inits tr) -> upd (s_level s) c (clamp l) c' = -1)).
    { intros l. unfold upd. split; [|split]; intros c'.
      - destruct (Nat.eqb_spec c' c); destruct (Nat.eqb_spec c c'); try congruence. apply clamp_spec.
      - intros Hi. destruct (Nat.eqb_spec c' c); [rewrite clamp_spec; lia|apply (i_in _ _ _ I); exact Hi].
      - intros Hi. destruct (Nat.eqb_spec c' c) as [->|]; [contradiction|apply (i_out _ _ _ I); exact Hi]. }
    destruct k as [|prio|l| |n l]; inversion H; subst s' e;
      try (eapply G; [reflexivity|reflexivity|reflexivity|reflexivity|intros; reflexivity| |intros; reflexivity|apply (i_in _ _ _ I)|apply (i_out _ _ _ I)];
           intros t' [Hx|[]]; discriminate);
      destruct (GS l) as (GS1 & GS2 & GS3);
      (eapply G; [reflexivity|reflexivity|reflexivity|reflexivity|intros; reflexivity| |exact GS1|exact GS2|exact GS3];
        intros t' Hx; cbn in Hx; repeat destruct Hx as [Hx|Hx]; discriminate || contradiction).
  - (* TLock *)
    destruct Hpc as [?|(tr1 & o & tr2 & E & Nc & C)]; [discriminate|].
    apply (Acq _ (eq_sym H)); try reflexivity; try (intros ? []).
    right. exists tr1, o, tr2. split; [exact E|]. split; [exact Nc|]. exact C.
  - (* TRead *)
    destruct Hpc as [?|(tr1 & o & tr2 & E & Nc & C)]; [discriminate|].
    apply (Quiet _ (eq_sym H)); try reflexivity; try (intros ? []).
    right. exists tr1, o, tr2. split; [exact E|]. split; [exact Nc|]. cbn [cond] in *. destruct C as (C1 & C2).
    split; [exact C1|]. split; [exact C2|]. exists [], (rev (inits tr)). rewrite <- E. split; [reflexivity|]. split; [|reflexivity].
    pose proof (i_chain _ _ _ I) as Hch. unfold pend in Hch. rewrite (Lk eq_refl), Ep in Hch. exact Hch.
  - (* TWalk *)
    destruct Hpc as [?|(tr1 & o & tr2 & E & Nc & C)]; [discriminate|]. cbn [cond] in C. destruct C as (C1 & C2 & l1 & l2 & C3 & C4 & C5).
    rewrite <- E in C3.
    apply (Quiet _ (eq_sym H)); try reflexivity; try (destruct p as [q|]; [destruct (bytes_eqb _ _)|]; reflexivity).
    { intros x Hx. destruct p as [q|]; [destruct (bytes_eqb _ _)|]; destruct Hx. }
    right. exists tr1, o, tr2. split; [exact E|]. split; [exact Nc|]. destruct p as [q|].
    + destruct l2 as [|q' l2]; [discriminate C4|]. destruct C4 as (Eq & C4). assert (q' = q) by congruence. subst q'.
      destruct (bytes_eqb (c_name cf q) n) eqn:Eb; cbn [cond]; rewrite <- E; (split; [exact C1|]); (split; [exact C2|]).
      * rewrite C3, lookup_tag_none_app by exact C5. unfold lookup_tag. cbn [find]. rewrite Eb. reflexivity.
      * exists (l1 ++ [q]), l2. split; [rewrite <- app_assoc; exact C3|]. split; [exact C4|].
        rewrite lookup_tag_none_app by exact C5. unfold lookup_tag. cbn [find]. rewrite Eb. reflexivity.
    + destruct l2 as [|q' l2]; [|destruct C4; discriminate]. cbn [cond]. rewrite <- E. split; [exact C1|]. split; [exact C2|].
      rewrite C3, app_nil_r. exact C5.
  - (* TUnlock *)
    destruct Hpc as [?|(tr1 & o & tr2 & E & Nc & C)]; [discriminate|]. cbn [cond] in C. destruct C as (C1 & C2 & C3).
    destruct found as [c|]; inversion H; subst s' e; clear H Acq Quiet.
    + apply (rebuild_quiet cf s tr t _ [] (Check c (KSetTag n l))); rewrite ?Ep; try assumption; cbn; try reflexivity; try (intros; discriminate).
      * apply (i_in _ _ _ I).
      * apply (i_out _ _ _ I).
      * rewrite app_nil_r. right. exists tr1, o, tr2. split; [exact E|]. split; [exact Nc|]. cbn. split; [|exact C2].
        split; [exact C1|]. exists tr2. split; [apply prefix_refl|]. rewrite inits_app in *. exact C3.
      * intros x [].
      * intros x Hx. lia.
      * intros x [].
    + apply (rebuild_quiet cf s tr t _ [EvTag t n (-1)] Idle); rewrite ?Ep; try assumption; cbn; try reflexivity; try (intros; discriminate).
      * apply (i_in _ _ _ I).
      * apply (i_out _ _ _ I).
      * left. reflexivity.
      * intros x [].
      * intros x Hx. lia.
      * intros x [Hx|[]]. discriminate.
  - (* NLock *)
    destruct Hpc as [?|(tr1 & o & tr2 & E & Nc & C)]; [discriminate|].
    apply (Acq _ (eq_sym H)); try reflexivity; try (intros ? []).
    right. exists tr1, o, tr2. split; [exact E|]. split; [exact Nc|]. exact C.
  - (* NRead *)
    destruct Hpc as [?|(tr1 & o & tr2 & E & Nc & C)]; [discriminate|].
    apply (Quiet _ (eq_sym H)); try reflexivity; try (intros ? []).
    right. exists tr1, o, tr2. split; [exact E|]. split; [exact Nc|]. cbn [cond] in *.
    split; [exact C|]. exists [], (rev (inits tr)). rewrite <- E. split; [reflexivity|]. split; [|split; [reflexivity|change (zlen (@nil (list Z))) with 0; lia]].
    pose proof (i_chain _ _ _ I) as Hch. unfold pend in Hch. rewrite (Lk eq_refl), Ep in Hch. exact Hch.
  - (* NWalk *)
    destruct Hpc as [?|(tr1 & o & tr2 & E & Nc & C)]; [discriminate|]. cbn [cond] in C. destruct C as (C1 & l1 & l2 & C3 & C4 & C5 & C6).
    rewrite <- E in C3.
    assert (HL : zlen acc = Z.of_nat (length (map (c_name cf) l1))) by (rewrite C5; reflexivity).
    destruct p as [q|].
    + destruct l2 as [|q' l2]; [discriminate C4|]. destruct C4 as (Eq & C4). assert (q' = q) by congruence. subst q'.
      destruct (Z.ltb_spec (zlen acc) m) as [L|L].
      * replace (zlen acc <? Z.max 0 m) with true in H by lia.
        apply (Quiet _ (eq_sym H)); try reflexivity; try (intros ? []).
        right. exists tr1, o, tr2. split; [exact E|]. split; [exact Nc|]. cbn [cond]. rewrite <- E. split; [exact C1|].
        exists (l1 ++ [q]), l2. split; [rewrite <- app_assoc; exact C3|]. split; [exact C4|]. split; [rewrite C5, map_app; reflexivity|].
        rewrite zlen_app. change (zlen [c_name cf q]) with 1. lia.
      * apply (Quiet _ (eq_sym H)); try reflexivity; try (intros ? []).
        right. exists tr1, o, tr2. split; [exact E|]. split; [exact Nc|]. cbn [cond]. rewrite <- E. split; [exact C1|].
        rewrite C3, map_app, <- C5. rewrite firstn_app. rewrite (firstn_all2 acc) by (unfold zlen in *; lia).
        replace (Z.to_nat m - length acc)%nat with 0%nat by (unfold zlen in *; lia). cbn [firstn]. rewrite app_nil_r. reflexivity.
    + destruct l2 as [|q' l2]; [|destruct C4; discriminate].
      apply (Quiet _ (eq_sym H)); try reflexivity; try (intros ? []).
      right. exists tr1, o, tr2. split; [exact E|]. split; [exact Nc|]. cbn [cond]. rewrite <- E. split; [exact C1|].
      rewrite C3, app_nil_r, <- C5. symmetry. apply firstn_all2. unfold zlen in *. lia.
  - (* NUnlock *)
    destruct Hpc as [?|(tr1 & o & tr2 & E & Nc & C)]; [discriminate|]. inversion H; subst s' e; clear H Acq Quiet.
    apply (rebuild_quiet cf s tr t _ [EvNames t m acc] Idle); rewrite ?Ep; try assumption; cbn; try reflexivity; try (intros; discriminate).
    * apply (i_in _ _ _ I).
    * apply (i_out _ _ _ I).
    * left. reflexivity.
    * intros x [].
    * intros x Hx. lia.
    * intros x [Hx|[]]. discriminate.
  - (* FLock *)
    destruct Hpc as [?|(tr1 & o & tr2 & E & Nc & C)]; [discriminate|].
    apply (Acq _ (eq_sym H)); try reflexivity; try (intros ? []).
    right. exists tr1, o, tr2. split; [exact E|]. split; [exact Nc|]. exact C.
  - (* FRead *)
    destruct Hpc as [?|(tr1 & o & tr2 & E & Nc & C)]; [discriminate|].
    apply (Quiet _ (eq_sym H)); try reflexivity; try (intros ? []).
    right. exists tr1, o, tr2. split; [exact E|]. split; [exact Nc|]. cbn [cond] in *. destruct C as (C1 & C2).
    split; [exact C1|]. split; [exact C2|]. rewrite <- E.
    pose proof (i_chain _ _ _ I) as Hch. unfold pend in Hch. rewrite (Lk eq_refl), Ep in Hch. exact Hch.
  - (* FUnlock *)
    destruct Hpc as [?|(tr1 & o & tr2 & E & Nc & C)]; [discriminate|]. cbn [cond] in C. destruct C as (C1 & C2 & C3).
    inversion H; subst s' e; clear H Acq Quiet.
    apply (rebuild_quiet cf s tr t _ [] (FWalk p)); rewrite ?Ep; try assumption; cbn; try reflexivity; try (intros; discriminate).
    * apply (i_in _ _ _ I).
    * apply (i_out _ _ _ I).
    * rewrite app_nil_r. right. exists tr1, o, tr2. split; [exact E|]. split; [exact Nc|]. cbn. split; [exact C1|].
      exists tr2, (rev (inits tr)). split; [apply prefix_refl|]. rewrite <- E in *. split; [exact C3|].
      split; [intros x Hx; apply in_rev; exact Hx|]. rewrite C2. cbn [app]. rewrite E, !inits_app. reflexivity.
    * intros x [].
    * intros x Hx. lia.
    * intros x [].
  - (* FWalk *)
    destruct Hpc as [?|(tr1 & o & tr2 & E & Nc & C)]; [discriminate|]. cbn [cond] in C.
    destruct C as (C1 & tra & l2 & C2 & C3 & C4 & C5). destruct p as [q|]; inversion H; subst s' e; clear H Acq Quiet.
    + destruct l2 as [|q' l2]; [discriminate C3|]. destruct C3 as (Eq & C3). assert (q' = q) by congruence. subst q'.
      assert (Hin : inits (if Nat.eqb q 0 then [] else [EvVisit t q]) = []) by (destruct (Nat.eqb q 0); reflexivity).
      apply (rebuild_quiet cf s tr t _ _ (FWalk (s_next s q))); rewrite ?Ep; try assumption; cbn; try reflexivity; try (intros; discriminate).
      * intros x. destruct (Nat.eqb q 0); reflexivity.
      * apply (i_in _ _ _ I).
      * apply (i_out _ _ _ I).
      * right. exists tr1, o, (tr2 ++ if Nat.eqb q 0 then [] else [EvVisit t q]).
        split; [rewrite E; apply app_cons_assoc|].
        split; [apply no_call_app; [exact Nc|destruct (Nat.eqb q 0); [apply no_call_nil|intros o' [Hx|[]]; discriminate]]|].
        cbn [cond]. split; [exact C1|]. exists tra, l2. split; [apply prefix_app; exact C2|]. split; [exact C3|].
        rewrite <- app_cons_assoc, inits_app, Hin, app_nil_r. split; [intros x Hx; apply C4; right; exact Hx|].
        rewrite <- C5, visits_app, nonzero_cons, app_assoc. f_equal. f_equal. destruct (Nat.eqb q 0); cbn [visits]; [reflexivity|].
        rewrite Nat.eqb_refl. reflexivity.
      * intros x [].
      * intros x Hx. destruct (Nat.eqb q 0); cbn in Hx; lia.
      * intros x Hx. destruct (Nat.eqb q 0); [destruct Hx|destruct Hx as [Hx|[]]; discriminate].
    + apply (rebuild_quiet cf s tr t _ [EvForeach t] Idle); rewrite ?Ep; try assumption; cbn; try reflexivity; try (intros; discriminate).
      * apply (i_in _ _ _ I).
      * apply (i_out _ _ _ I).
      * left. reflexivity.
      * intros x [].
      * intros x Hx. lia.
      * intros x [Hx|[]]. discriminate.
  - (* HLock *)
    destruct Hpc as [?|(tr1 & o & tr2 & E & Nc & C)]; [discriminate|].
    apply (Acq _ (eq_sym H)); try reflexivity; try (intros ? []).
    right. exists tr1, o, tr2. split; [exact E|]. split; [exact Nc|]. exact C.
  - (* HSet *)
    destruct Hpc as [?|(tr1 & o & tr2 & E & Nc & C)]; [discriminate|]. inversion H; subst s' e; clear H Acq Quiet.
    apply (rebuild_quiet cf s tr t _ [] HUnlock); rewrite ?Ep; try assumption; cbn; try reflexivity; try (intros; discriminate).
    * apply Lk. reflexivity.
    * intros _. left. reflexivity.
    * apply (i_in _ _ _ I).
    * apply (i_out _ _ _ I).
    * rewrite app_nil_r. right. exists tr1, o, tr2. split; [exact E|]. split; [exact Nc|]. exists f. exact C.
    * intros x [].
    * intros x Hx. lia.
    * intros x [].
  - (* HUnlock *)
    destruct Hpc as [?|(tr1 & o & tr2 & E & Nc & C)]; [discriminate|]. inversion H; subst s' e; clear H Acq Quiet.
    apply (rebuild_quiet cf s tr t _ [EvHooked t] Idle); rewrite ?Ep; try assumption; cbn; try reflexivity; try (intros; discriminate).
    * apply (i_in _ _ _ I).
    * apply (i_out _ _ _ I).
    * left. reflexivity.
    * intros x [].
    * intros x Hx. lia.
    * intros x [Hx|[]]. discriminate.
Qed.

Lemma run_inv : forall cf sched s tr s' e, Inv cf s tr -> run cf s sched = (s', e) -> Inv cf s' (tr ++ e).
Proof.
  intros cf. induction sched as [|(t & o) sched IH]; intros s tr s' e I H; cbn [run] in H.
  - inversion H. subst. rewrite app_nil_r. exact I.
  - destruct (step cf s t o) as [s1 e1] eqn:E1. destruct (run cf s1 sched) as [s2 e2] eqn:E2. inversion H. subst s' e.
    rewrite app_assoc. apply (IH s1); [|exact E2]. apply (step_inv cf s tr t o); assumption.
Qed.

Lemma reaches_inv : forall cf s tr, reaches cf s tr -> Inv cf s tr.
Proof. intros cf s tr (sched & H). apply (run_inv cf sched init [] s tr (init_inv cf) H). Qed.
