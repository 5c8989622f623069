From Coq Require Import ZArith String List Bool Lia ZifyBool ZifyNat Arith.
From Verif Require Import Bytes BytesProofs Parse Iov Klog KlogProofs Shd ShdProofs Threadx ThreadxSpec.
Import ListNotations.
Open Scope Z_scope.

Lemma upd_same m c k : upd m c k c = k. Proof. unfold upd. now rewrite Nat.eqb_refl. Qed.
Lemma upd_other m c k x : x <> c -> upd m c k x = m x. Proof. unfold upd. intros. now destruct (Nat.eqb_spec x c). Qed.

Lemma walk_linked m p l : linked m p l -> forall fuel, (length l <= fuel)%nat -> walk fuel m p = Ok l.
Proof.
  induction 1; intros fuel H0; [destruct fuel; reflexivity|]. cbn [length] in H0. destruct fuel; [lia|].
  cbn [walk]. rewrite IHlinked by lia. reflexivity.
Qed.
Lemma linked_upd m p l c k : linked m p l -> ~ In c l -> linked (upd m c k) p l.
Proof.
  induction 1; intros HN; [constructor|]. constructor.
  rewrite upd_other by (intros ->; apply HN; now left). apply IHlinked. intros X; apply HN; now right.
Qed.
Lemma linked_level m p l c v : linked m p l -> linked (upd m c (with_level (m c) v)) p l.
Proof.
  induction 1; [constructor|]. constructor.
  destruct (Nat.eq_dec c0 c) as [->|D]; [rewrite upd_same; exact IHlinked|rewrite upd_other by exact D; exact IHlinked].
Qed.

Lemma sound_init names : sound (init names) [0%nat].
Proof.
  unfold sound, init; cbn [s_mem s_list]. split; [|split; [|split; [|split]]].
  - constructor. cbn. constructor.
  - constructor; [intros []|constructor].
  - reflexivity.
  - intros c. destruct c; cbn; [split; [lia|auto]|]. split; [intros [X|[]]; discriminate|lia].
  - intros c. destruct c; cbn; lia.
Qed.
Lemma sound_insert s l c v : sound s l -> c_level (s_mem s c) < 0 -> 0 <= v <= 7 ->
  sound (mkSt (s_ready s) (upd (s_mem s) c (mkCookie (c_name (s_mem s c)) v (s_list s))) (Some c)) (c :: l).
Proof.
  intros (L & N & E & I & R) Hc Hv. unfold sound; cbn [s_mem s_list].
  assert (HN : ~ In c l) by (rewrite I; lia).
  split; [|split; [|split; [|split]]].
  - constructor. rewrite upd_same. cbn [c_next]. now apply linked_upd.
  - now constructor.
  - destruct l; [discriminate|exact E].
  - intros x. destruct (Nat.eq_dec x c) as [->|D].
    + rewrite upd_same. cbn. split; [lia|auto].
    + rewrite upd_other by exact D. rewrite <- I. cbn. split; [intros [X|X]; [congruence|exact X]|auto].
  - intros x. destruct (Nat.eq_dec x c) as [->|D]; [rewrite upd_same; cbn; lia|rewrite upd_other by exact D; apply R].
Qed.
Lemma sound_level s l c v : sound s l -> 0 <= c_level (s_mem s c) -> 0 <= v <= 7 ->
  sound (mkSt (s_ready s) (upd (s_mem s) c (with_level (s_mem s c) v)) (s_list s)) l.
Proof.
  intros (L & N & E & I & R) Hc Hv. unfold sound; cbn [s_mem s_list].
  split; [now apply linked_level|]. split; [exact N|]. split; [exact E|]. split.
  - intros x. rewrite I. destruct (Nat.eq_dec x c) as [->|D]; [rewrite upd_same; cbn; lia|rewrite upd_other by exact D; lia].
  - intros x. destruct (Nat.eq_dec x c) as [->|D]; [rewrite upd_same; cbn; lia|rewrite upd_other by exact D; apply R].
Qed.
Lemma sound_default s l : sound s l -> 0 <= c_level (s_mem s 0%nat).
Proof.
  intros (_ & _ & E & I & _). apply I. destruct l as [|a l]; [discriminate|].
  rewrite <- E. assert (G : forall l, l <> [] -> In (last l 1%nat) l).
  { clear. induction l as [|a l IH]; [congruence|]. intros _. destruct l; [now left|]. right. apply IH. discriminate. }
  apply G. discriminate.
Qed.

(** What a call in progress may rely on: what was true stays true. *)
Definition ext (s s' : st) : Prop :=
  (s_ready s = true -> s_ready s' = true) /\ forall c, 0 <= c_level (s_mem s c) -> 0 <= c_level (s_mem s' c).
Lemma ext_refl s : ext s s. Proof. split; auto. Qed.
Lemma ext_trans a b c : ext a b -> ext b c -> ext a c.
Proof. intros [A1 A2] [B1 B2]. split; auto. Qed.

Fixpoint good (p : prog) (s : st) : Prop :=
  match p with
  | Ret v => -1 <= v <= 7
  | GetReady k => forall b s', ext s s' -> (b = true -> s_ready s' = true) -> (s_ready s = true -> b = true) -> good (k b) s'
  | GetLevel c k => forall v s', ext s s' -> -1 <= v <= 7 -> (0 <= v -> 0 <= c_level (s_mem s' c)) -> (c = 0%nat -> 0 <= v) ->
                    (0 <= c_level (s_mem s c) -> 0 <= v) -> good (k v) s'
  | SetLevel c v k => 0 <= v <= 7 /\ 0 <= c_level (s_mem s c) /\ forall s', ext s s' -> good k s'
  | Section (Insert c v) _ k => 0 <= v <= 7 /\ forall s', ext s s' -> 0 <= c_level (s_mem s' c) -> good (k Unit) s'
  | Section Walk _ k => forall l s', ext s s' -> good (k (Visited l)) s'
  | Section (Find n) _ k =>
    (forall s', ext s s' -> good (k (Found None)) s') /\
    (forall c v s', ext s s' -> 0 <= c_level (s_mem s' c) -> 0 <= v <= 7 -> good (k (Found (Some (c, v)))) s')
  | Print prio _ _ k => 0 <= prio < 8 /\ forall s', ext s s' -> good k s'
  end.
Lemma good_ext p s s' : good p s -> ext s s' -> good p s'.
Proof.
  destruct p as [v|k|c k|c v k|x f k|pr c t k]; cbn [good]; intros G E.
  - exact G.
  - intros b s2 E2 H H0. apply G; [eapply ext_trans; eauto|exact H|]. intros X. apply H0. now apply E.
  - intros v s2 E2 H1 H2 H3 H4. apply G; auto; [eapply ext_trans; eauto|]. intros X. apply H4. now apply E.
  - destruct G as (G1 & G2 & G3). split; [exact G1|]. split; [now apply E|]. intros s2 E2. apply G3. eapply ext_trans; eauto.
  - destruct x.
    + destruct G as (G1 & G3). split; [exact G1|]. intros s2 E2 H. apply G3; [eapply ext_trans; eauto|exact H].
    + intros l s2 E2. apply G. eapply ext_trans; eauto.
    + destruct G as (G1 & G3). split; [intros s2 E2; apply G1; eapply ext_trans; eauto|].
      intros c v s2 E2. apply G3. eapply ext_trans; eauto.
  - destruct G as (G1 & G3). split; [exact G1|]. intros s2 E2. apply G3. eapply ext_trans; eauto.
Qed.

Ltac ge := eauto using ext_refl, ext_trans.
Lemma good_init_cookie c k s :
  (forall s', ext s s' -> (s_ready s = true -> 0 <= c_level (s_mem s' c)) -> good k s') -> good (ulog_init_cookie c k) s.
Proof.
  intros H. unfold ulog_init_cookie. cbn [good]. intros b s1 E1 R1 R2. destruct b; cbn [good].
  - intros d s2 E2 D1 D2 D3 _. destruct (Z.geb_spec d 0); [|specialize (D3 eq_refl); lia]. cbn [good].
    intros v s3 E3 V1 V2 V3 _. split; [specialize (V3 eq_refl); destruct (Z.ltb_spec v 0); lia|].
    intros s4 E4 L4. apply H; [ge|]. auto.
  - apply H; [exact E1|]. intros X. specialize (R2 X). discriminate.
Qed.
Lemma good_init c k s :
  (forall s', ext s s' -> (s_ready s = true -> 0 <= c_level (s_mem s' c)) -> good k s') -> good (ulog_init c k) s.
Proof.
  intros H. unfold ulog_init. cbn [good]. intros b s1 E1 R1 R2. destruct b; cbn [good].
  - intros d s2 E2 D1 D2 D3 _. destruct (Z.ltb_spec d 0).
    + apply good_init_cookie. intros s3 E3 L3. apply H; [ge|]. intros X. apply L3. apply E2. apply R1. reflexivity.
    + apply H; [ge|]. intros _. apply D2. lia.
  - apply H; [exact E1|]. intros X. specialize (R2 X). discriminate.
Qed.
Lemma clamp_range v : 0 <= clamp v <= 7.
Proof. unfold clamp. destruct (Z.ltb_spec v 0); [cbn; lia|]. destruct (Z.gtb_spec v 7); lia. Qed.
Lemma good_set_level c v k s : (forall s', ext s s' -> good k s') -> good (ulog_set_level c v k) s.
Proof.
  intros H. unfold ulog_set_level. cbn [good]. intros b s1 E1 R1 R2. destruct b; [|apply H; exact E1].
  apply good_init. intros s2 E2 L2. cbn [good]. split; [apply clamp_range|]. split; [apply L2; auto|]. intros s3 E3. apply H. ge.
Qed.

Lemma good_program x s : bare (EvCall x) -> good (program x) s.
Proof.
  destruct x as [c|c|c v|c|n v|n| |p c t|p c t]; cbn [bare program]; intros B.
  - apply good_init. intros. cbn. lia.
  - apply good_init_cookie. intros. cbn. lia.
  - apply good_set_level. intros. cbn. lia.
  - unfold ulog_get_level. cbn [good]. intros b s1 E1 R1 R2. destruct b; [|cbn; lia]. apply good_init. intros s2 E2 L2. cbn [good].
    intros v s3 E3 V _ _ _. exact V.
  - unfold ulog_set_tag_level. cbn [good]. intros b s1 E1 R1 R2. destruct b; [|cbn; lia]. cbn [good]. split; [intros; cbn; lia|].
    intros c w s2 E2 L2 W. apply good_set_level. intros; cbn; lia.
  - unfold ulog_get_tag_level. cbn [good]. intros b s1 E1 R1 R2. destruct b; [|cbn; lia]. cbn [good]. split; [intros; cbn; lia|].
    intros c w s2 E2 L2 W. lia.
  - unfold ulog_foreach. cbn [good]. intros b s1 E1 R1 R2. destruct b; [|cbn; lia]. cbn [good]. intros; cbn; lia.
  - unfold ulog_log. set (rest := GetLevel c (fun l => if Z.land p 7 <=? l then _ else _)). assert (G : forall s, good rest s).
    { intros s0. unfold rest. cbn [good]. intros v s1 E1 V _ _ _. destruct (Z.land p 7 <=? v); [|cbn; lia]. cbn [good].
      intros b s2 E2 _ _. destruct b; cbn [good]; [|lia]. split; [exact B|]. intros; cbn; lia. }
    cbn [good]. intros v s1 E1 V _ _ _. destruct (v <? 0); [|apply G]. apply good_init_cookie. intros; apply G.
  - cbn. lia.
Qed.

Definition bare_calls (m : mach) : Prop := Forall (fun p => good p (m_st m)) (m_calls m).

Lemma step_prog_sound fuel s p l : sound s l -> (length l <= fuel)%nat -> good p s ->
  exists s' p' o l', step_prog fuel s p true = Ok (s', p', o) /\ sound s' l' /\ (length l' <= S (length l))%nat /\ ext s s' /\ good p' s' /\
    (forall v, o = OVisit v -> v = l /\ s' = s) /\ (forall v, o = ORet v -> -1 <= v <= 7).
Proof.
  intros S F G. destruct p as [v|k|c k|c v k|x f k|pr c t k]; cbn [step_prog good] in *.
  - do 4 eexists. split; [reflexivity|]. split; [exact S|]. split; [lia|]. split; [apply ext_refl|]. split; [exact G|].
    split; intros v0 E; [discriminate|injection E as <-; exact G].
  - do 4 eexists. split; [reflexivity|]. split; [exact S|]. split; [lia|]. split; [apply ext_refl|].
    split; [apply G; auto using ext_refl|]. split; intros v0 E; discriminate.
  - do 4 eexists. split; [reflexivity|]. split; [exact S|]. split; [lia|]. split; [apply ext_refl|].
    split; [|split; intros v0 E; discriminate]. apply G; auto using ext_refl; [apply S|].
    intros ->. now apply (sound_default _ l).
  - destruct G as (G1 & G2 & G3). do 4 eexists. split; [reflexivity|]. split; [apply sound_level; eassumption|]. split; [lia|].
    assert (E : ext s (mkSt (s_ready s) (upd (s_mem s) c (with_level (s_mem s c) v)) (s_list s))).
    { split; [auto|]. cbn. intros x. destruct (Nat.eq_dec x c) as [->|D]; [rewrite upd_same; cbn; lia|now rewrite upd_other]. }
    split; [exact E|]. split; [apply G3; exact E|]. split; intros v0 X; discriminate.
  - destruct x as [c v| |n]; cbn [do_section].
    + destruct G as (G1 & G2). cbn [bind]. destruct (Z.ltb_spec (c_level (s_mem s c)) 0) as [H|H].
      * do 4 eexists. split; [reflexivity|]. split; [apply sound_insert; eassumption|]. split; [cbn; lia|].
        match goal with |- ext s ?x /\ _ => assert (E : ext s x) end.
        { split; [auto|]. cbn. intros x. destruct (Nat.eq_dec x c) as [->|D]; [rewrite upd_same; cbn; lia|now rewrite upd_other]. }
        split; [exact E|]. split; [apply G2; [exact E|]; cbn; rewrite upd_same; cbn; lia|]. split; intros v0 X; discriminate.
      * do 4 eexists. split; [reflexivity|]. split; [exact S|]. split; [lia|]. split; [apply ext_refl|].
        split; [apply G2; [apply ext_refl|exact H]|]. split; intros v0 X; discriminate.
    + rewrite (walk_linked _ _ l) by (auto; apply S). cbn [bind]. do 4 eexists. split; [reflexivity|]. split; [exact S|]. split; [lia|].
      split; [apply ext_refl|]. split; [apply G, ext_refl|]. split; intros v0 X; [injection X as <-; auto|discriminate].
    + rewrite (walk_linked _ _ l) by (auto; apply S). cbn [bind]. destruct G as (G1 & G2).
      do 4 eexists. split; [reflexivity|]. split; [exact S|]. split; [lia|]. split; [apply ext_refl|].
      split; [|split; intros v0 X; discriminate]. destruct (find _ l) as [c|] eqn:E; cbn [option_map]; [|apply G1, ext_refl].
      apply find_some in E. destruct E as [E _]. destruct S as (_ & _ & _ & I & R). apply I in E. specialize (R c). apply G2; [apply ext_refl|lia|lia].
  - destruct G as (G1 & G2). unfold amba_log. destruct (Z.leb_spec 0 pr); [|lia]. destruct (Z.ltb_spec pr 8); [|lia]. cbn [andb].
    destruct (nth _ _ _) as [mk co]. cbn [bind]. do 4 eexists. split; [reflexivity|]. split; [exact S|]. split; [lia|].
    split; [apply ext_refl|]. split; [apply G2, ext_refl|]. split; intros v0 X; discriminate.
Qed.

Lemma set_nth_forall (P : prog -> Prop) l i p : Forall P l -> P p -> Forall P (set_nth l i p).
Proof. intros H Hp. revert i. induction H; intros i; [destruct i; constructor|]. destruct i; cbn; constructor; auto. Qed.

Lemma step_sound fuel m e l : sound (m_st m) l -> bare_calls m -> (length l <= fuel)%nat -> locked e -> bare e ->
  exists m' o l', step fuel m e = Ok (m', o) /\ sound (m_st m') l' /\ (length l' <= S (length l))%nat /\ bare_calls m' /\
    (forall v, o = OVisit v -> v = l /\ m_st m' = m_st m) /\ (forall v, o = ORet v -> -1 <= v <= 7).
Proof.
  intros S B F HL HB. unfold bare_calls in *. destruct e as [|x|i lock]; cbn [step].
  - do 3 eexists. split; [reflexivity|]. split; [exact S|]. split; [lia|]. split; [|split; discriminate]. cbn.
    eapply Forall_impl; [|exact B]. intros p G. eapply good_ext; [exact G|]. split; auto.
  - do 3 eexists. split; [reflexivity|]. split; [exact S|]. split; [lia|]. split; [|split; discriminate]. cbn.
    apply Forall_app. split; [exact B|]. constructor; [|constructor]. now apply good_program.
  - cbn [locked] in HL. subst lock. destruct (nth_error (m_calls m) i) as [p|] eqn:E.
    + pose proof (proj1 (Forall_forall _ _) B p (nth_error_In _ _ E)) as G. cbv beta in G.
      destruct (step_prog_sound fuel (m_st m) p l S F G) as (s' & p' & o & l' & -> & S' & F' & X & G' & V & R). cbn [bind].
      do 3 eexists. split; [reflexivity|]. split; [exact S'|]. split; [exact F'|]. cbn. split; [|auto].
      apply set_nth_forall; [|exact G']. eapply Forall_impl; [|exact B]. intros q Gq. exact (good_ext _ _ _ Gq X).
    + do 3 eexists. split; [reflexivity|]. split; [exact S|]. split; [lia|]. split; [exact B|]. split; discriminate.
Qed.

Lemma run_sound fuel evs : forall m l, sound (m_st m) l -> bare_calls m -> (length l + length evs <= fuel)%nat ->
  Forall locked evs -> Forall bare evs ->
  exists m' os l', run fuel m evs = Ok (m', os) /\ sound (m_st m') l' /\ bare_calls m' /\ (length l' <= length l + length evs)%nat /\
    Forall (fun o => match o with ORet v => -1 <= v <= 7 | _ => True end) os.
Proof.
  induction evs as [|e evs IH]; intros m l S B F HL HB; cbn [run].
  - do 3 eexists. split; [reflexivity|]. split; [exact S|]. split; [exact B|]. split; [cbn; lia|]. constructor.
  - inversion HL; subst. inversion HB; subst. cbn [length] in F.
    destruct (step_sound fuel m e l S B) as (m1 & o & l1 & -> & S1 & F1 & B1 & _ & R1); auto; [lia|]. cbn [bind].
    destruct (IH m1 l1 S1 B1) as (m2 & os & l2 & -> & S2 & B2 & F2 & R2); auto; [lia|]. cbn [bind].
    do 3 eexists. split; [reflexivity|]. split; [exact S2|]. split; [exact B2|]. split; [cbn; lia|].
    constructor; [|exact R2]. destruct o; auto.
Qed.

(** ** Calls alone *)
Lemma sets_refl s c : sets s s c (c_level (s_mem s c)).
Proof. unfold sets. auto. Qed.

Lemma alone_init_cookie fuel s l c k : sound s l -> s_ready s = true ->
  exists s' l', alone fuel s (ulog_init_cookie c k) = alone fuel s' k /\ sound s' l' /\ (length l' <= S (length l))%nat /\
    sets s s' c (level_in_force s c).
Proof.
  intros S R. unfold ulog_init_cookie. cbn [alone]. rewrite R. cbn [alone].
  pose proof (sound_default _ _ S) as D. destruct (Z.geb_spec (c_level (s_mem s 0%nat)) 0); [|lia]. cbn [alone do_section].
  destruct (Z.ltb_spec (c_level (s_mem s 0%nat)) 0); [lia|]. cbn [bind]. unfold level_in_force.
  destruct (Z.ltb_spec (c_level (s_mem s c)) 0) as [H1|H1]; destruct (Z.leb_spec 0 (c_level (s_mem s c))); try lia.
  - do 2 eexists. split; [reflexivity|]. split; [apply sound_insert; eauto; destruct S as (_ & _ & _ & _ & Rg); specialize (Rg 0%nat); lia|].
    split; [cbn; lia|]. unfold sets. cbn. rewrite upd_same. cbn. split; [reflexivity|]. split; [reflexivity|]. split.
    + intros x X. now rewrite upd_other.
    + intros x. destruct (Nat.eq_dec x c) as [->|X]; [now rewrite upd_same|now rewrite upd_other].
  - exists s, l. split; [reflexivity|]. split; [exact S|]. split; [lia|]. apply sets_refl.
Qed.
Lemma alone_init fuel s l c k : sound s l -> s_ready s = true ->
  exists s' l', alone fuel s (ulog_init c k) = alone fuel s' k /\ sound s' l' /\ (length l' <= S (length l))%nat /\
    sets s s' c (level_in_force s c).
Proof.
  intros S R. unfold ulog_init. cbn [alone]. rewrite R. cbn [alone]. destruct (Z.ltb_spec (c_level (s_mem s c)) 0).
  - now apply alone_init_cookie.
  - exists s, l. split; [reflexivity|]. split; [exact S|]. split; [lia|]. unfold level_in_force.
    destruct (Z.leb_spec 0 (c_level (s_mem s c))); [apply sets_refl|lia].
Qed.
Lemma force_range s l c : sound s l -> 0 <= level_in_force s c <= 7.
Proof.
  intros S. pose proof (sound_default _ _ S). destruct S as (_ & _ & _ & _ & R). unfold level_in_force.
  pose proof (R c). pose proof (R 0%nat). destruct (Z.leb_spec 0 (c_level (s_mem s c))); lia.
Qed.
Lemma alone_set_level fuel s l c v k : sound s l -> s_ready s = true ->
  exists s' l', alone fuel s (ulog_set_level c v k) = alone fuel s' k /\ sound s' l' /\ (length l' <= S (length l))%nat /\
    sets s s' c (clamp v).
Proof.
  intros S R. unfold ulog_set_level. cbn [alone]. rewrite R.
  destruct (alone_init fuel s l c (SetLevel c (clamp v) k) S R) as (s' & l' & -> & S' & F & E1 & E2 & E3 & E4). cbn [alone].
  pose proof (force_range s l c S). do 2 eexists. split; [reflexivity|]. split; [apply sound_level; eauto using clamp_range; lia|]. split; [lia|].
  unfold sets. cbn. rewrite upd_same. cbn. split; [exact E1|]. split; [reflexivity|]. split.
  - intros x X. rewrite upd_other by exact X. auto.
  - intros x. destruct (Nat.eq_dec x c) as [->|X]; [rewrite upd_same; cbn; auto|rewrite upd_other by exact X; auto].
Qed.

(** ** Samples *)
Lemma put_field_ok A R src : zlen A + zlen R = BUF_SIZE -> exists R', let d := ztake (BUF_SIZE - zlen A) src in
  zlen (A ++ d) + zlen R' = BUF_SIZE /\ put_field (A ++ R) (zlen A) src = Ok ((A ++ d) ++ R', zlen d).
Proof.
  intros H. unfold put_field. pose proof (zlen_nonneg A). pose proof (zlen_nonneg R). pose proof (zlen_nonneg src).
  set (d := ztake (BUF_SIZE - zlen A) src).
  assert (Hd : zlen d = Z.max 0 (Z.min (zlen src) (BUF_SIZE - zlen A))) by (unfold d; rewrite zlen_ztake; lia).
  cbn zeta. destruct (Z.ltb_spec (zlen A) BUF_SIZE).
  - rewrite read_prefix by lia. cbn [bind]. fold d. rewrite write_next by (auto; lia). cbn [bind].
    exists (zdrop (zlen d) R). rewrite zlen_app, zlen_zdrop, <- app_assoc. split; [lia|]. do 2 f_equal. lia.
  - assert (d = []) as -> by (apply zlen_zero_nil; lia). exists R. rewrite app_nil_r. split; [lia|reflexivity].
Qed.
Definition thn_part (thread : option (list Z)) : list Z :=
  match thread with Some s => ztake (BUF_SIZE - 1) s ++ [0] | None => [] end.
Lemma put_name_ok stack thread : zlen stack = BUF_SIZE ->
  exists R, zlen (thn_part thread) + zlen R = BUF_SIZE /\
    put_thread_name stack thread = Ok (thn_part thread ++ R, zlen (thn_part thread), match thread with Some _ => 1 | None => 0 end).
Proof.
  intros HS. destruct thread as [t|]; cbn [thn_part put_thread_name].
  - pose proof (zlen_nonneg t). rewrite mem_write_ok by (rewrite ?zlen_app, ?zlen_ztake; change (zlen [0]) with 1; unfold BUF_SIZE in *; lia).
    cbn [bind]. rewrite ztake_0. cbn [app]. exists (zdrop (0 + zlen (ztake (BUF_SIZE - 1) t ++ [0])) stack).
    rewrite zlen_zdrop, zlen_app, zlen_ztake. change (zlen [0]) with 1. split; [unfold BUF_SIZE in *; lia|].
    do 3 f_equal. destruct (Z.geb_spec (zlen t) BUF_SIZE); unfold BUF_SIZE in *; lia.
  - exists stack. change (zlen (@nil Z)) with 0. split; [lia|reflexivity].
Qed.
Lemma shd_put_ok stack index prio thread tag log : zlen stack = BUF_SIZE ->
  exists R, let T := thn_part thread in let G := ztake (BUF_SIZE - zlen T) tag in
    let L := ztake (BUF_SIZE - zlen T - zlen G) log in let A := T ++ G ++ L in
    zlen A + zlen R = BUF_SIZE /\
    ulog_shd_put stack index prio thread tag log =
      Ok (mkBlob (u16 index) (put_level prio log) (match thread with Some _ => 1 | None => 0 end) (zlen T) (zlen G) (zlen L)
            (if zlen R =? 0 then ztake (BUF_SIZE - 1) A ++ [0] else A ++ R)).
Proof.
  intros HS. unfold ulog_shd_put. destruct (put_name_ok stack thread HS) as (R1 & H1 & ->). cbn [bind]. cbn zeta.
  set (T := thn_part thread) in *. set (G := ztake (BUF_SIZE - zlen T) tag). set (L := ztake (BUF_SIZE - zlen T - zlen G) log).
  destruct (put_field_ok T R1 tag H1) as (R2 & H2 & ->). cbn [bind]. cbn zeta in H2. fold G in H2. fold G.
  replace (zlen T + zlen G) with (zlen (T ++ G)) by (now rewrite zlen_app).
  destruct (put_field_ok (T ++ G) R2 log H2) as (R3 & H3 & ->). cbn [bind]. cbn zeta in H3.
  replace (BUF_SIZE - zlen (T ++ G)) with (BUF_SIZE - zlen T - zlen G) in * by (rewrite zlen_app; lia).
  fold L in H3. fold L. rewrite <- (app_assoc T G L) in *. rewrite !zlen_app in *. exists R3. split; [lia|].
  pose proof (zlen_nonneg R3). pose proof (zlen_nonneg L).
  destruct (Z.eqb_spec (zlen T + zlen G + zlen L) BUF_SIZE) as [E|E].
  - assert (R3 = []) as -> by (apply zlen_zero_nil; lia). rewrite app_nil_r. change (zlen (@nil Z) =? 0) with true. cbv iota.
    unfold store. rewrite mem_write_ok by (rewrite ?zlen_app; change (zlen [0]) with 1; unfold BUF_SIZE in *; lia).
    cbn [bind]. change (BUF_SIZE - 1 + zlen [0]) with BUF_SIZE. rewrite zdrop_all by (rewrite !zlen_app; lia).
    reflexivity.
  - cbn [bind]. destruct (Z.eqb_spec (zlen R3) 0); [lia|]. reflexivity.
Qed.

(** A message that begins with the seven bytes of a colour. *)
Lemma fill_colour i p tid T G pre m R sec nsec pname : length pre = 7%nat -> znth 0 pre = 27 ->
  fill_raw_entry (mkBlob i p tid (zlen T) (zlen G) (zlen (pre ++ m)) (T ++ G ++ (pre ++ m) ++ R)) sec nsec pname =
  Ok (mkRaw 0 (if zlen T =? 0 then 0 else s32 tid) sec nsec 0
        (Z.lor p (Z.shiftl (znth (Z.land (znth 5 pre - 48) 7) shdcolor) PRIO_COLOR_SHIFT)) pname T G (Some m)).
Proof.
  intros H7 H0. unfold fill_raw_entry. cbn [b_thn b_tag b_log b_buf b_tid b_prio].
  pose proof (zlen_nonneg T) as HT. pose proof (zlen_nonneg G) as HG. pose proof (zlen_nonneg m) as Hm. pose proof (zlen_nonneg R) as HR.
  assert (Hp : zlen pre = 7) by (unfold zlen; lia).
  pose proof (read_mid [] T (G ++ (pre ++ m) ++ R) 0 (zlen T) eq_refl eq_refl) as E1. cbn [app] in E1. rewrite E1. cbn [bind].
  rewrite (read_mid T G ((pre ++ m) ++ R)) by reflexivity. cbn [bind].
  assert (E3 : forall j, (j < 7)%nat -> load (T ++ G ++ (pre ++ m) ++ R) (zlen T + zlen G + Z.of_nat j) = Ok (nth j pre (-1))).
  { intros j Hj. unfold load. rewrite !zlen_app.
    destruct (Z.leb_spec 0 (zlen T + zlen G + Z.of_nat j)); [|lia].
    destruct (Z.ltb_spec (zlen T + zlen G + Z.of_nat j) (zlen T + (zlen G + (zlen pre + zlen m + zlen R)))); [|lia]. cbn [andb].
    f_equal. unfold znth. rewrite app_assoc. rewrite app_nth2 by (rewrite app_length; unfold zlen; lia).
    replace (Z.to_nat (zlen T + zlen G + Z.of_nat j) - length (T ++ G))%nat with j by (rewrite app_length; unfold zlen; lia).
    rewrite <- app_assoc. apply app_nth1. lia. }
  change (znth 0 pre) with (nth 0 pre (-1)) in H0. change (znth 5 pre) with (nth 5 pre (-1)).
  pose proof (E3 0%nat ltac:(lia)) as E30. pose proof (E3 5%nat ltac:(lia)) as E35. change (Z.of_nat 5) with 5 in E35.
  rewrite Z.add_0_r in E30. rewrite E30. cbn [bind]. rewrite H0. rewrite zlen_app, Hp.
  destruct (Z.geb_spec (7 + zlen m) 7); [|lia]. cbn [Z.eqb Pos.eqb andb]. rewrite E35. cbn [bind].
  replace (T ++ G ++ (pre ++ m) ++ R) with ((T ++ G ++ pre) ++ m ++ R) by (now rewrite <- !app_assoc).
  rewrite read_mid by (rewrite ?zlen_app; lia). reflexivity.
Qed.
