(** Lemmas for C162. *)
From Coq Require Import ZArith String List Bool Arith Lia ZifyBool ZifyNat.
From Verif Require Import Bytes Unload UnloadSpec.
Import ListNotations.
Open Scope Z_scope.

Lemma bytes_eqb_refl' : forall a, bytes_eqb a a = true.
Proof. induction a as [|x a IH]; [reflexivity|]. cbn. rewrite Z.eqb_refl. exact IH. Qed.

(** The chain of the list. *)
Fixpoint linked (m : nat -> option cell) (p : option nat) (us : list nat) : Prop :=
  match us with
  | [] => p = None
  | c :: us => p = Some c /\ exists e, m c = Some e /\ linked m (e_next e) us
  end.

Lemma linked_ext : forall us m m' p,
  (forall c e, In c us -> m c = Some e -> exists e', m' c = Some e' /\ e_next e' = e_next e) -> linked m p us -> linked m' p us.
Proof.
  induction us as [|c us IH]; intros m m' p X L; [exact L|].
  destruct L as (Hp & e & He & L). split; [exact Hp|]. destruct (X c e (or_introl eq_refl) He) as (e' & He' & N).
  exists e'. split; [exact He'|]. rewrite N. apply IH with (m := m); [|exact L]. intros d f Hd Hf. exact (X d f (or_intror Hd) Hf).
Qed.

(** With or without the chain. *)
Record sim (k : bool) (s : state) (w : world) : Prop := mkSim {
  sim_cells : forall c, match assoc c (w_loaded w) with
                        | None => s_mem s c = None
                        | Some n => exists e, s_mem s c = Some e /\ e_name e = n /\ e_level e = level_in w c
                        end;
  sim_chain : k = true -> linked (s_mem s) (s_head s) (map fst (w_used w));
  sim_used : forall c v, assoc c (w_used w) = Some v -> 0 <= v /\ assoc c (w_loaded w) <> None;
  sim_zero : assoc 0%nat (w_loaded w) <> None
}.

Lemma assoc_in : forall A c (l : list (nat * A)), In c (map fst l) <-> assoc c l <> None.
Proof.
  induction l as [|[d x] l IH]; [cbn; tauto|]. cbn. destruct (Nat.eqb_spec c d) as [->|N].
  - split; [intros _; discriminate|left; reflexivity].
  - rewrite <- IH. split; [intros [E|H]; [congruence|exact H]|right; assumption].
Qed.
Lemma assoc_app : forall A c (a b : list (nat * A)), assoc c (a ++ b) = match assoc c a with Some x => Some x | None => assoc c b end.
Proof. induction a as [|[d x] a IH]; intros b; cbn; [reflexivity|]. destruct (Nat.eqb c d); [reflexivity|apply IH]. Qed.

Lemma sim0 : forall k, sim k start world0.
Proof.
  intros k. constructor; cbn; try discriminate.
  - intros [|c]; cbn; [eexists; split; [reflexivity|split; reflexivity]|reflexivity].
  - reflexivity.
Qed.

Lemma sim_get : forall k s w c, sim k s w -> assoc c (w_loaded w) <> None ->
  exists e, s_mem s c = Some e /\ e_name e = name_in w c /\ e_level e = level_in w c.
Proof.
  intros k s w c S H. pose proof (sim_cells _ _ _ S c) as X. unfold name_in. destruct (assoc c (w_loaded w)); [exact X|congruence].
Qed.

Lemma sim_use : forall k env s w c, sim k s w -> assoc c (w_loaded w) <> None ->
  exists s', ulog_init env s c = Ok s' /\ sim k s' (use env w c).
Proof.
  intros k env s w c S H. destruct (sim_get _ _ _ _ S H) as (e & He & Hn & Hl).
  unfold ulog_init, get. rewrite He. cbn [bind]. rewrite Hl. unfold level_in at 1.
  unfold use. destruct (assoc c (w_used w)) as [v|] eqn:Ea.
  { destruct (sim_used _ _ _ S _ _ Ea) as [V _]. replace (v <? 0) with false by lia. exists s. split; [reflexivity|exact S]. }
  change (-1 <? 0) with true. cbv iota. unfold init_cookie, get. rewrite He. cbn [bind].
  destruct (sim_get _ _ _ _ S (sim_zero _ _ _ S)) as (d & Hd & _ & Hdl). rewrite Hd. cbn [bind].
  rewrite Hl. unfold level_in at 1. rewrite Ea. change (-1 <? 0) with true. cbv iota.
  eexists. split; [reflexivity|].
  set (lv := if 0 <=? env (name_in w c) then env (name_in w c) else match assoc 0%nat (w_used w) with Some d => d | None => 6 end).
  match goal with |- sim _ (mkSt (put _ _ (Some (mkCell _ ?L _))) _) _ => assert (EL : L = lv) end.
  { unfold lv. rewrite Hn, Hdl. unfold level_in. destruct (assoc 0%nat (w_used w)) as [v|] eqn:E0.
    - destruct (sim_used _ _ _ S _ _ E0) as [V _]. destruct (Z.leb_spec 0 (env (name_in w c))).
      + replace (env (name_in w c) <? 0) with false by lia. cbn. replace (env (name_in w c) <? 0) with false by lia. reflexivity.
      + replace (env (name_in w c) <? 0) with true by lia. replace (0 <=? v) with true by lia. cbn. replace (v <? 0) with false by lia. reflexivity.
    - change (0 <=? -1) with false. rewrite andb_false_r. destruct (Z.leb_spec 0 (env (name_in w c))).
      + replace (env (name_in w c) <? 0) with false by lia. reflexivity.
      + replace (env (name_in w c) <? 0) with true by lia. reflexivity. }
  rewrite EL. assert (LV : 0 <= lv).
  { unfold lv. destruct (Z.leb_spec 0 (env (name_in w c))); [lia|]. destruct (assoc 0%nat (w_used w)) eqn:E0; [|lia]. apply (sim_used _ _ _ S _ _ E0). }
  assert (Nin : ~ In c (map fst (w_used w))) by (rewrite assoc_in, Ea; tauto).
  constructor; cbn [w_loaded w_used s_mem s_head map fst].
  - intros x. unfold put, level_in. cbn [w_used assoc]. destruct (Nat.eqb_spec x c) as [->|Nx].
    + destruct (assoc c (w_loaded w)) as [n|] eqn:El; [|congruence]. eexists. split; [reflexivity|]. split; [|reflexivity].
      cbn. rewrite Hn. unfold name_in. rewrite El. reflexivity.
    + exact (sim_cells _ _ _ S x).
  - intros Kt. split; [reflexivity|]. unfold put. rewrite Nat.eqb_refl. eexists. split; [reflexivity|]. cbn [e_next].
    apply linked_ext with (m := s_mem s); [|exact (sim_chain _ _ _ S Kt)]. intros x f Hx Hf.
    destruct (Nat.eqb_spec x c) as [->|Nx]; [contradiction|]. exists f. split; [exact Hf|reflexivity].
  - intros x v. cbn [assoc]. destruct (Nat.eqb_spec x c) as [->|Nx]; [|apply (sim_used _ _ _ S)].
    intros [= <-]. split; [exact LV|exact H].
  - exact (sim_zero _ _ _ S).
Qed.

Lemma use_used : forall env w c, assoc c (w_used (use env w c)) <> None.
Proof. intros env w c. unfold use. destruct (assoc c (w_used w)) eqn:E; [congruence|]. cbn. rewrite Nat.eqb_refl. discriminate. Qed.
Lemma use_loaded : forall env w c, w_loaded (use env w c) = w_loaded w.
Proof. intros env w c. unfold use. destruct (assoc c (w_used w)); reflexivity. Qed.
Lemma use_again : forall env w c, assoc c (w_used w) <> None -> use env w c = w.
Proof. intros env w c H. unfold use. destruct (assoc c (w_used w)); [reflexivity|congruence]. Qed.

Lemma change_keys : forall w c v, map fst (w_used (change w c v)) = map fst (w_used w).
Proof.
  intros w c v. cbn. rewrite map_map. apply map_ext. intros [x y]. cbn. destruct (Nat.eqb_spec x c) as [->|N]; reflexivity.
Qed.
Lemma change_assoc : forall w c v x, assoc x (w_used (change w c v)) =
  match assoc x (w_used w) with None => None | Some y => Some (if Nat.eqb x c then Z.max 0 (Z.min 7 v) else y) end.
Proof.
  intros w c v x. cbn. induction (w_used w) as [|[a y] l IH]; [reflexivity|]. cbn.
  destruct (Nat.eqb_spec a c) as [->|N]; cbn; destruct (Nat.eqb_spec x c) as [->|Nx].
  - rewrite ?Nat.eqb_refl. reflexivity.
  - rewrite ?(proj2 (Nat.eqb_neq x c) Nx) in *. exact IH.
  - destruct (Nat.eqb_spec c a); [congruence|]. rewrite ?Nat.eqb_refl in IH. exact IH.
  - destruct (Nat.eqb_spec x a); [reflexivity|]. exact IH.
Qed.

Lemma sim_set : forall k env s w c v, sim k s w -> assoc c (w_loaded w) <> None ->
  exists s', set_level env s c v = Ok s' /\ sim k s' (change (use env w c) c v).
Proof.
  intros k env s w c v S H. destruct (sim_use k env _ _ _ S H) as (s1 & E1 & S1).
  unfold set_level. rewrite E1. cbn [bind].
  assert (H1 : assoc c (w_loaded (use env w c)) <> None) by (rewrite use_loaded; exact H).
  pose proof (use_used env w c) as U. set (w1 := use env w c) in *.
  destruct (sim_get _ _ _ _ S1 H1) as (e & He & Hn & Hl). unfold get. rewrite He. cbn [bind].
  eexists. split; [reflexivity|].
  set (L := if (if v <? 0 then 0 else v) >? 7 then 7 else if v <? 0 then 0 else v).
  assert (EL : L = Z.max 0 (Z.min 7 v)) by (unfold L; destruct (Z.ltb_spec v 0); destruct (_ >? 7) eqn:E7; lia).
  rewrite EL. constructor.
  - intros x. cbn [s_mem change w_loaded]. unfold put. unfold level_in. rewrite change_assoc.
    pose proof (sim_cells _ _ _ S1 x) as X. unfold level_in in X. cbn [change w_loaded]. destruct (Nat.eqb_spec x c) as [->|N].
    + destruct (assoc c (w_loaded w1)) as [n|] eqn:En; [|congruence]. eexists. split; [reflexivity|]. cbn.
      split; [rewrite Hn; unfold name_in; rewrite En; reflexivity|]. destruct (assoc c (w_used w1)); [reflexivity|congruence].
    + destruct (assoc x (w_loaded w1)); [|exact X]. destruct X as (f & Hf & Hfn & Hfl). exists f. split; [exact Hf|]. split; [exact Hfn|].
      rewrite Hfl. destruct (assoc x (w_used w1)); reflexivity.
  - intros Kt. rewrite change_keys. cbn [s_mem s_head]. apply linked_ext with (m := s_mem s1); [|exact (sim_chain _ _ _ S1 Kt)].
    intros x f _ Hf. unfold put. destruct (Nat.eqb_spec x c) as [->|N].
    + eexists. split; [reflexivity|]. cbn. congruence.
    + exists f. split; [exact Hf|reflexivity].
  - intros x y. rewrite change_assoc. destruct (assoc x (w_used w1)) as [z|] eqn:Ez; [|discriminate]. intros [= <-].
    cbn [change w_loaded]. destruct (sim_used _ _ _ S1 _ _ Ez) as [A B]. split; [|exact B]. destruct (Nat.eqb x c); [|exact A]. apply Z.le_max_l.
  - exact (sim_zero _ _ _ S1).
Qed.

Lemma foreach_chain : forall us s p fuel, linked (s_mem s) p us -> (length us <= fuel)%nat ->
  foreach fuel s p = Ok (filter (fun c => negb (Nat.eqb c 0)) us).
Proof.
  induction us as [|c us IH]; intros s p fuel L F; [cbn in L; subst p; destruct fuel; reflexivity|].
  destruct L as (-> & e & He & L). destruct fuel as [|fuel]; [cbn in F; lia|]. cbn [foreach]. unfold get. rewrite He. cbn [bind].
  rewrite (IH s (e_next e) fuel L ltac:(cbn in F; lia)). cbn. destruct (Nat.eqb c 0); reflexivity.
Qed.

Lemma search_chain : forall us k s w p fuel name, sim k s w -> (forall c, In c (map fst us) -> assoc c (w_loaded w) <> None) ->
  linked (s_mem s) p (map fst us) -> (length us <= fuel)%nat ->
  search fuel s name p = Ok (option_map fst (find (fun q : nat * Z => bytes_eqb (name_in w (fst q)) name) us)).
Proof.
  induction us as [|[c y] us IH]; intros k s w p fuel name S A L F; [cbn in L; subst p; destruct fuel; reflexivity|].
  destruct L as (-> & e & He & L). destruct fuel as [|fuel]; [cbn in F; lia|]. cbn [search]. unfold get. rewrite He. cbn [bind].
  destruct (sim_get k s w c S (A c (or_introl eq_refl))) as (e' & He' & Hn & _). assert (e' = e) by (cbn [fst] in *; congruence). subst e'.
  rewrite Hn. cbn [find fst]. destruct (bytes_eqb (name_in w c) name); [reflexivity|].
  apply IH with (k := k); [exact S|intros x Hx; apply A; right; exact Hx|exact L|cbn in F; lia].
Qed.

Lemma names_chain : forall us k s w p n, sim k s w -> (forall c, In c (map fst us) -> assoc c (w_loaded w) <> None) ->
  linked (s_mem s) p (map fst us) -> tag_names s n p = Ok (map (fun q : nat * Z => name_in w (fst q)) (firstn n us)).
Proof.
  induction us as [|[c y] us IH]; intros k s w p n S A L; [cbn in L; subst p; destruct n; reflexivity|].
  destruct L as (-> & e & He & L). destruct n as [|n]; [reflexivity|]. cbn [tag_names]. unfold get. rewrite He. cbn [bind].
  destruct (sim_get k s w c S (A c (or_introl eq_refl))) as (e' & He' & Hn & _). assert (e' = e) by (cbn [fst] in *; congruence). subst e'.
  rewrite (IH k s w (e_next e) n S); [cbn; rewrite Hn; reflexivity|intros x Hx; apply A; right; exact Hx|exact L].
Qed.

Lemma open_mem : forall l m c, fold_left (fun (m : nat -> option cell) (x : nat * list Z) => fun c => if Nat.eqb c (fst x) then Some (mkCell (snd x) (-1) None) else m c) l m c
  = match assoc c (rev l) with Some n => Some (mkCell n (-1) None) | None => m c end.
Proof.
  induction l as [|[d n] l IH]; intros m c; [reflexivity|]. cbn [fold_left rev]. rewrite IH, assoc_app. cbn.
  destruct (assoc c (rev l)); [reflexivity|]. destruct (Nat.eqb c d); reflexivity.
Qed.
Lemma assoc_rev : forall A (l : list (nat * A)) c, NoDup (map fst l) -> assoc c (rev l) = assoc c l.
Proof.
  induction l as [|[d x] l IH]; intros c N; [reflexivity|]. inversion N; subst. cbn [rev]. rewrite assoc_app, IH by assumption. cbn.
  destruct (Nat.eqb_spec c d) as [->|Nx].
  - destruct (assoc d l) eqn:E; [|reflexivity]. exfalso. match goal with H : ~ In _ _ |- _ => apply H; apply assoc_in; cbn; congruence end.
  - destruct (assoc c l); reflexivity.
Qed.
Lemma close_mem : forall l (m : nat -> option cell) c, fold_left (fun (m : nat -> option cell) (x : nat) => fun c => if Nat.eqb c x then None else m c) l m c
  = if existsb (Nat.eqb c) l then None else m c.
Proof.
  induction l as [|d l IH]; intros m c; [reflexivity|]. cbn [fold_left existsb]. rewrite IH.
  destruct (Nat.eqb c d); cbn; destruct (existsb (Nat.eqb c) l); reflexivity.
Qed.
Lemma assoc_filter : forall A (l : list (nat * A)) ds c, assoc c (filter (fun p => negb (existsb (Nat.eqb (fst p)) ds)) l)
  = if existsb (Nat.eqb c) ds then None else assoc c l.
Proof.
  induction l as [|[d x] l IH]; intros ds c; cbn; [destruct (existsb _ ds); reflexivity|].
  destruct (Nat.eqb_spec c d) as [->|N].
  - destruct (existsb (Nat.eqb d) ds) eqn:E; cbn; [rewrite IH, E; reflexivity|rewrite Nat.eqb_refl; reflexivity].
  - destruct (existsb (Nat.eqb d) ds); cbn; [apply IH|]. destruct (Nat.eqb_spec c d); [congruence|]. apply IH.
Qed.
Lemma existsb_nat : forall c l, existsb (Nat.eqb c) l = true <-> In c l.
Proof. intros c l. rewrite existsb_exists. split; [intros (x & Hx & E); apply Nat.eqb_eq in E; congruence|intros H; exists c; split; [exact H|apply Nat.eqb_refl]]. Qed.

Lemma filter_all : forall A (f : A -> bool) l, (forall x, In x l -> f x = true) -> filter f l = l.
Proof. induction l as [|x l IH]; intros H; [reflexivity|]. cbn. rewrite (H x (or_introl eq_refl)), IH; [reflexivity|]. intros y Hy. apply H. right. exact Hy. Qed.
Lemma filter_length_le' : forall A (f : A -> bool) l, (length (filter f l) <= length l)%nat.
Proof. induction l as [|x l IH]; cbn; [lia|]. destruct (f x); cbn; lia. Qed.

Lemma sim_step : forall k env s w o fuel, sim k s w -> legal w o -> (if k then keeps w o else direct o) -> (length (w_used w) <= fuel)%nat ->
  exists s', step fuel env s o = Ok (s', snd (expected env w o)) /\ sim k s' (fst (expected env w o)).
Proof.
  intros k env s w o fuel S L K F.
  assert (A : forall c, In c (map fst (w_used w)) -> assoc c (w_loaded w) <> None).
  { intros c Hc. apply assoc_in in Hc. destruct (assoc c (w_used w)) eqn:E; [|congruence]. apply (sim_used _ _ _ S _ _ E). }
  destruct o as [l|l|c|c v|c|name v|n|]; cbn [step expected snd fst] in *.
  - eexists. split; [reflexivity|]. destruct L as [N L]. constructor; cbn [w_loaded w_used s_mem s_head].
    + intros c. rewrite open_mem, assoc_rev, assoc_app by exact N. destruct (assoc c l) as [n|] eqn:E.
      * eexists. split; [reflexivity|]. split; [reflexivity|]. cbn. unfold level_in. cbn [w_used].
        destruct (assoc c (w_used w)) eqn:Eu; [|reflexivity]. exfalso.
        apply (A c); [apply assoc_in; congruence|]. apply L. apply assoc_in. congruence.
      * exact (sim_cells _ _ _ S c).
    + intros Kt. apply linked_ext with (m := s_mem s); [|exact (sim_chain _ _ _ S Kt)]. intros c e Hc He. rewrite open_mem, assoc_rev by exact N.
      destruct (assoc c l) eqn:E; [|exists e; split; [exact He|reflexivity]]. exfalso. apply (A c Hc). apply L. apply assoc_in. congruence.
    + intros c v E. rewrite assoc_app. destruct (sim_used _ _ _ S _ _ E) as [V B]. split; [exact V|]. destruct (assoc c l); [discriminate|exact B].
    + rewrite assoc_app. destruct (assoc 0%nat l); [discriminate|exact (sim_zero _ _ _ S)].
  - eexists. split; [reflexivity|]. constructor; cbn [w_loaded w_used s_mem s_head].
    + intros c. rewrite close_mem, assoc_filter. pose proof (sim_cells _ _ _ S c) as X. unfold level_in in *. cbn [w_used]. rewrite assoc_filter.
      destruct (existsb (Nat.eqb c) l); [reflexivity|exact X].
    + intros Kt. subst k. cbv iota in K. assert (Free : forall c, In c (map fst (w_used w)) -> existsb (Nat.eqb c) l = false).
      { intros c Hc. destruct (existsb (Nat.eqb c) l) eqn:E; [|reflexivity]. apply existsb_nat in E. apply assoc_in in Hc. exfalso. exact (Hc (K c E)). }
      rewrite filter_all by (intros x Hx; rewrite Free by (apply in_map; exact Hx); reflexivity).
      apply linked_ext with (m := s_mem s); [|exact (sim_chain _ _ _ S eq_refl)]. intros c e Hc He. rewrite close_mem, (Free c Hc).
      exists e. split; [exact He|reflexivity].
    + intros c v. rewrite !assoc_filter. destruct (existsb (Nat.eqb c) l); [discriminate|]. apply (sim_used _ _ _ S).
    + rewrite assoc_filter. destruct (existsb (Nat.eqb 0) l) eqn:E; [apply existsb_nat in E; contradiction|exact (sim_zero _ _ _ S)].
  - destruct (sim_use k env _ _ _ S L) as (s1 & E1 & S1). rewrite E1. cbn. exists s1. split; [reflexivity|exact S1].
  - destruct (sim_set k env _ _ _ v S L) as (s1 & E1 & S1). rewrite E1. cbn [bind]. exists s1. split; [reflexivity|exact S1].
  - unfold get_level. destruct (sim_use k env _ _ _ S L) as (s1 & E1 & S1). rewrite E1. cbn [bind].
    assert (L1 : assoc c (w_loaded (use env w c)) <> None) by (rewrite use_loaded; exact L).
    destruct (sim_get _ _ _ _ S1 L1) as (e & He & _ & Hl). unfold get. rewrite He. cbn [bind]. exists s1. rewrite Hl. split; [reflexivity|exact S1].
  - destruct k; [|contradiction]. unfold set_tag_level. rewrite (search_chain (w_used w) true s w (s_head s) fuel name S A (sim_chain _ _ _ S eq_refl) F). cbn [bind].
    destruct (find _ (w_used w)) as [[c y]|] eqn:Ef; cbn [option_map fst snd bind].
    + apply find_some in Ef. destruct Ef as [Hin _]. assert (Hc : In c (map fst (w_used w))) by (apply in_map_iff; exists (c, y); auto).
      destruct (sim_set true env _ _ _ v S (A c Hc)) as (s1 & E1 & S1). rewrite E1. cbn [bind]. exists s1. split; [reflexivity|].
      rewrite use_again in S1 by (apply assoc_in; exact Hc). exact S1.
    + exists s. split; [reflexivity|exact S].
  - destruct k; [|contradiction]. rewrite (names_chain (w_used w) true s w (s_head s) n S A (sim_chain _ _ _ S eq_refl)). cbn [bind]. exists s. split; [reflexivity|exact S].
  - destruct k; [|contradiction]. rewrite (foreach_chain _ s _ fuel (sim_chain _ _ _ S eq_refl)) by (rewrite map_length; exact F). cbn [bind]. exists s. split; [reflexivity|exact S].
Qed.

Lemma expected_used : forall env w o, (length (w_used (fst (expected env w o))) <= S (length (w_used w)))%nat.
Proof.
  intros env w o. assert (U : forall c, (length (w_used (use env w c)) <= S (length (w_used w)))%nat).
  { intros c. unfold use. destruct (assoc c (w_used w)); cbn; lia. }
  destruct o as [l|l|c|c v|c|name v|n|]; cbn [expected fst w_used change]; try lia; rewrite ?map_length; auto.
  - match goal with |- context [filter ?f ?l] => pose proof (filter_length_le' _ f l) end. lia.
  - destruct (find _ _); cbn [fst change w_used]; rewrite ?map_length; lia.
Qed.

Lemma sim_run : forall k env l s w fuel, sim k s w -> all_along legal env w l -> all_along (fun w o => if k then keeps w o else direct o) env w l ->
  (length (w_used w) + length l <= fuel)%nat ->
  exists s', run fuel env s l = Ok (s', snd (expectations env w l)).
Proof.
  intros k env. induction l as [|o l IH]; intros s w fuel S L K F; [exists s; reflexivity|].
  destruct L as [L1 L2]. destruct K as [K1 K2].
  destruct (sim_step k env s w o fuel S L1 K1 ltac:(lia)) as (s1 & E1 & S1).
  pose proof (expected_used env w o) as B. cbn [length] in F. destruct (IH s1 _ fuel S1 L2 K2 ltac:(lia)) as (s2 & E2).
  exists s2. cbn [run expectations]. rewrite E1. cbn [bind]. destruct (expected env w o) as [w1 x]. cbn [fst snd] in *.
  rewrite E2. cbn [bind]. destruct (expectations env w1 l). reflexivity.
Qed.
