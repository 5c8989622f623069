(** Lemmas on the threads of ShdLock.v. *)
From Coq Require Import ZArith List Bool Arith Lia ZifyBool ZifyNat.
From Verif Require Import Bytes ShdLock.
Import ListNotations.
Open Scope Z_scope.

Section K.
Variable k0 : Z.

Definition base (g : ctrl) : Z := (k0 + Z.of_nat (length (g_samples g))) mod 65536.
Definition quiet (h : thread) : Prop := match h_calls h with [] => True | [(_, PLock)] => True | _ => False end.
Definition mid (g : ctrl) (p : pc) : Prop :=
  match p with
  | PBefore k _ => g_enabled g = false /\ k = base g /\ g_index g = (base g + 1) mod 65536
  | PAfter _ => g_enabled g = false /\ g_index g = base g
  | _ => False
  end.
Definition holding (d : nat) (g : ctrl) (h : thread) : Prop :=
  match h_calls h with
  | [(m, p)] => d = 1%nat /\
    match p with
    | PLock => False
    | PCheck | PIndex | PUnlock => g_enabled g = true /\ g_index g = base g
    | POff k => g_enabled g = true /\ k = base g /\ g_index g = (base g + 1) mod 65536
    | POn => g_enabled g = false /\ g_index g = base g
    | _ => mid g p
    end
  | [(n, q); (m, p)] => match q with PLock => d = 1%nat | PCheck | PUnlock => d = 2%nat | _ => False end /\ mid g p
  | _ => False
  end.
Definition local (j : nat) (g : ctrl) (h : thread) : Prop :=
  match g_owner g with
  | Some (i, d) => if Nat.eqb i j then holding d g h else quiet h
  | None => quiet h /\ g_enabled g = true /\ g_index g = base g
  end.

(** What a thread has still to store. *)
Fixpoint outer (l : list (msg * pc)) : list (list Z) :=
  match l with
  | [] => []
  | [(m, p)] => match p with PLock | PCheck | PIndex | POff _ | PBefore _ _ => [text m] | _ => [] end
  | _ :: l => outer l
  end.
Definition pend (h : thread) : list (list Z) := outer (h_calls h) ++ map text (h_todo h).
Definition of_thread (i : nat) (s : list (nat * Z * list Z)) : list (list Z) :=
  map snd (filter (fun x => Nat.eqb (fst (fst x)) i) s).

Ltac fin := split; [repeat split; auto|split; [first [left; reflexivity|right; split; [solve [eauto]|solve [eauto]]]|left; split; reflexivity]].

Lemma of_thread_app i s u : of_thread i (s ++ u) = of_thread i s ++ of_thread i u.
Proof. unfold of_thread. rewrite filter_app, map_app. reflexivity. Qed.
Lemma base_app g o e x s : base (mkCtrl o e x (g_samples g ++ [s])) = (base g + 1) mod 65536.
Proof. unfold base. cbn. rewrite app_length. cbn. rewrite Nat2Z.inj_add. rewrite Zplus_mod_idemp_l. f_equal. lia. Qed.

(** A step of thread [i]: its own state stays right, the lock is its own if it changes anything, and
    what is stored is what it had to store. *)
Lemma step_ok i g h g' h' : local i g h -> step i g h = Some (g', h') ->
  local i g' h' /\
  (g' = g \/ ((g_owner g = None \/ exists d, g_owner g = Some (i, d)) /\ ((g_owner g' = None /\ g_enabled g' = true /\ g_index g' = base g') \/ exists d, g_owner g' = Some (i, d)))) /\
  ((g_samples g' = g_samples g /\ pend h' = pend h) \/
   (exists t, g_samples g' = g_samples g ++ [(i, base g, t)] /\ pend h = t :: pend h')).
Proof.
  destruct g as (o, e, x, s), h as (cs, td). unfold step. cbn [h_calls h_todo g_owner g_enabled g_index g_samples].
  destruct cs as [|(m, p) cs].
  { destruct td as [|m td]; [discriminate|]. intros L [= <- <-]. split; [|split; [left; reflexivity|left; split; reflexivity]].
    revert L. unfold local, holding, quiet. cbn. destruct o as [(j, d)|]; [destruct (Nat.eqb j i)|]; auto. intros []. }
  unfold local. cbn [g_owner].
  destruct o as [(j, d)|].
  - destruct (Nat.eqb_spec j i) as [->|N].
    + (* the owner *)
      destruct cs as [|(m2, p2) cs].
      * unfold holding at 1. cbn [h_calls]. intros (-> & L).
        destruct p; cbn in L; try contradiction.
        -- destruct L as (-> & L). intros [= <- <-]. cbn. rewrite Nat.eqb_refl. unfold holding. cbn. fin.
        -- destruct L as (-> & L). intros [= <- <-]. cbn. rewrite Nat.eqb_refl. unfold holding. cbn. unfold u16. rewrite L. fin.
        -- destruct L as (-> & L & L2). intros [= <- <-]. cbn. rewrite Nat.eqb_refl. unfold holding. cbn. fin.
        -- destruct L as (-> & L & L2). destruct l.
           ++ intros [= <- <-]. cbn. rewrite Nat.eqb_refl. unfold holding. cbn -[base]. split; [|split].
              ** split; [reflexivity|]. split; [reflexivity|]. rewrite (base_app (mkCtrl (Some (i, 1%nat)) false x s)). exact L2.
              ** right. eauto 6.
              ** right. eexists. split; [rewrite L; reflexivity|reflexivity].
           ++ intros [= <- <-]. cbn. rewrite Nat.eqb_refl. unfold holding. cbn. fin.
        -- destruct L as (-> & L). destruct l; intros [= <- <-]; cbn; rewrite Nat.eqb_refl; unfold holding; cbn; fin.
        -- destruct L as (-> & L). intros [= <- <-]. cbn. rewrite Nat.eqb_refl. unfold holding. cbn. fin.
        -- destruct L as (-> & L). intros [= <- <-]. cbn. unfold quiet. cbn. fin.
      * destruct cs; unfold holding at 1; cbn [h_calls]; [|intros []]. intros (L & M).
        destruct p; try contradiction.
        -- subst d. intros [= <- <-]. cbn. rewrite Nat.eqb_refl. unfold holding. cbn. fin.
        -- subst d. intros [= <- <-]. cbn. rewrite Nat.eqb_refl. unfold holding. cbn -[mid].
           assert (e = false) as -> by (destruct p2; cbn in M; try contradiction; apply M). fin.
        -- subst d. intros [= <- <-]. cbn. rewrite Nat.eqb_refl. unfold holding. cbn -[mid]. split; [|split; [right; split; right; eauto|left; split; reflexivity]].
           split; [reflexivity|]. destruct p2; cbn in M |- *; try contradiction; exact M.
    + (* the lock is another's *)
      unfold quiet. cbn. destruct p; try contradiction. destruct cs; [|contradiction].
      discriminate.
  - (* the lock is free *)
    unfold quiet. cbn. intros (Q & E & X). destruct p; try contradiction. destruct cs; [|contradiction]. intros [= <- <-].
    cbn. rewrite Nat.eqb_refl. unfold holding. cbn. fin.
Qed.

(** ** Every thread *)
Record inv (progs : list (list msg)) (w : ctrl * list thread) : Prop := {
  i_len : length (snd w) = length progs;
  i_local : forall j h, nth_error (snd w) j = Some h -> local j (fst w) h;
  i_owner : forall i d, g_owner (fst w) = Some (i, d) -> (i < length progs)%nat;
  i_free : g_owner (fst w) = None -> g_enabled (fst w) = true /\ g_index (fst w) = base (fst w);
  i_index : forall n i k t, nth_error (g_samples (fst w)) n = Some (i, k, t) -> k = (k0 + Z.of_nat n) mod 65536 /\ (i < length progs)%nat;
  i_pend : forall j h p, nth_error (snd w) j = Some h -> nth_error progs j = Some p ->
    of_thread j (g_samples (fst w)) ++ pend h = map text p }.

Lemma upd_len {A} : forall (l : list A) n a, length (upd n a l) = length l.
Proof. induction l; intros [|n] b; cbn; auto. Qed.
Lemma upd_same {A} : forall (l : list A) n a, (n < length l)%nat -> nth_error (upd n a l) n = Some a.
Proof. induction l; intros [|n] b H; cbn in *; try lia; auto. apply IHl. lia. Qed.
Lemma upd_other {A} : forall (l : list A) n m a, n <> m -> nth_error (upd n a l) m = nth_error l m.
Proof. induction l; intros [|n] [|m] b H; cbn; auto; congruence. Qed.

Lemma turn_inv progs w i : inv progs w -> inv progs (turn w i).
Proof.
  intros [A B O F X P]. destruct w as (g, hs). cbn [fst snd] in *. unfold turn. cbn [fst snd].
  destruct (nth_error hs i) as [h|] eqn:N; [|split; assumption].
  destruct (step i g h) as [(g', h')|] eqn:E; [|split; assumption].
  destruct (step_ok _ _ _ _ _ (B _ _ N) E) as (L & G & S).
  assert (I : (i < length hs)%nat). { apply nth_error_Some. rewrite N. discriminate. }
  split; cbn [fst snd].
  - rewrite upd_len. exact A.
  - intros j hj. destruct (Nat.eq_dec i j) as [<-|NE].
    + rewrite upd_same by exact I. intros [= <-]. exact L.
    + rewrite upd_other by exact NE. intros Hj. pose proof (B _ _ Hj) as Lj.
      destruct G as [->|(G1 & G2)]; [exact Lj|].
      assert (Q : quiet hj).
      { unfold local in Lj. destruct G1 as [G1|(d & G1)]; rewrite G1 in Lj; [apply Lj|].
        destruct (Nat.eqb_spec i j); [contradiction|exact Lj]. }
      unfold local. destruct G2 as [(G2 & G3)|(d & G2)]; rewrite G2; [auto|].
      destruct (Nat.eqb_spec i j); [contradiction|exact Q].
  - intros i' d' O'. destruct G as [->|(G1 & G2)]; [eapply O; eassumption|].
    destruct G2 as [(G2 & _)|(d & G2)]; [congruence|]. assert (i' = i) as -> by congruence. lia.
  - intros O'. destruct G as [->|(G1 & G2)]; [auto|]. destruct G2 as [(_ & G2)|(d & G2)]; [exact G2|congruence].
  - destruct S as [(-> & _)|(t & -> & _)]; [exact X|]. intros n i' k t' Hn.
    destruct (lt_dec n (length (g_samples g))) as [H|H].
    + rewrite nth_error_app1 in Hn by exact H. eapply X. exact Hn.
    + rewrite nth_error_app2 in Hn by lia. destruct (n - length (g_samples g))%nat eqn:Z0; [|destruct n0; discriminate].
      cbn in Hn. assert (n = length (g_samples g)) as -> by lia. injection Hn as <- <- _. split; [reflexivity|lia].
  - intros j hj p. destruct (Nat.eq_dec i j) as [<-|NE].
    + rewrite upd_same by exact I. intros [= <-] Hp. rewrite <- (P _ _ _ N Hp).
      destruct S as [(-> & ->)|(t & -> & ->)]; [reflexivity|]. rewrite of_thread_app. unfold of_thread at 2. cbn. rewrite Nat.eqb_refl. cbn.
      rewrite <- app_assoc. reflexivity.
    + rewrite upd_other by exact NE. intros Hj Hp. rewrite <- (P _ _ _ Hj Hp).
      destruct S as [(-> & _)|(t & -> & _)]; [reflexivity|]. rewrite of_thread_app. unfold of_thread at 2. cbn.
      destruct (Nat.eqb_spec i j); [contradiction|]. cbn. rewrite app_nil_r. reflexivity.
Qed.
Lemma runs_inv progs : forall sched w, inv progs w -> inv progs (runs w sched).
Proof. induction sched; intros w I; cbn; [exact I|]. apply IHsched, turn_inv, I. Qed.
Lemma begin_inv progs : 0 <= k0 < 65536 -> inv progs (begin k0 progs).
Proof.
  intros R. assert (B0 : k0 = base (mkCtrl None true k0 [])) by (unfold base; cbn; rewrite Z.add_0_r, Z.mod_small by lia; reflexivity).
  split; cbn [begin fst snd g_owner g_samples g_enabled g_index].
  - apply map_length.
  - intros j h H. rewrite nth_error_map in H. destruct (nth_error progs j); [|discriminate]. cbn in H. injection H as <-. unfold local. cbn -[base]. auto.
  - discriminate.
  - auto.
  - intros [|n]; discriminate.
  - intros j h p H Hp. rewrite nth_error_map, Hp in H. cbn in H. injection H as <-. reflexivity.
Qed.

(** ** No deadlock *)
Definition finished (h : thread) : bool := match h_calls h, h_todo h with [], [] => true | _, _ => false end.
Lemma some_step progs w : inv progs w -> forallb finished (snd w) = false ->
  exists i h, nth_error (snd w) i = Some h /\ step i (fst w) h <> None.
Proof.
  intros V N. destruct w as (g, hs). cbn [fst snd] in *.
  destruct (g_owner g) as [(i, d)|] eqn:O.
  - pose proof (i_owner _ _ V i d O) as L. rewrite <- (i_len _ _ V) in L. cbn in L.
    destruct (nth_error hs i) as [h|] eqn:H; [|apply nth_error_None in H; lia]. exists i, h. split; [exact H|].
    pose proof (i_local _ _ V i h H) as K. cbn in K. unfold local in K. rewrite O, Nat.eqb_refl in K.
    unfold holding in K. unfold step. destruct (h_calls h) as [|(m, p) cs]; [contradiction|].
    destruct p; try (destruct l); try discriminate. rewrite O, Nat.eqb_refl. discriminate.
  - assert (E : exists h, In h hs /\ finished h = false).
    { clear - N. induction hs as [|h hs IH]; [discriminate|]. cbn in N. destruct (finished h) eqn:F; [|exists h; cbn; auto].
      destruct (IH N) as (h' & I & F'). exists h'. cbn. auto. }
    destruct E as (h & I & F). apply In_nth_error in I. destruct I as (i & I). exists i, h. split; [exact I|].
    pose proof (i_local _ _ V i h I) as K. cbn in K. unfold local in K. rewrite O in K. destruct K as (K & _).
    unfold quiet in K. unfold step. unfold finished in F. destruct (h_calls h) as [|(m, p) cs].
    + destruct (h_todo h); discriminate.
    + destruct p; try contradiction. rewrite O. discriminate.
Qed.
End K.

(** ** Every step brings the end nearer *)
Fixpoint weight (m : msg) : nat := match m with Msg _ b a => (9 + list_sum (map weight b) + list_sum (map weight a))%nat end.
Definition weights (l : list msg) : nat := list_sum (map weight l).
Definition left (c : msg * pc) : nat :=
  let 'Msg _ b a := fst c in
  match snd c with
  | PLock => 8 + weights b + weights a | PCheck => 7 + weights b + weights a | PIndex => 6 + weights b + weights a | POff _ => 5 + weights b + weights a
  | PBefore _ l => 4 + weights l + weights a | PAfter l => 3 + weights l | POn => 2 | PUnlock => 1
  end%nat.
Definition togo (h : thread) : nat := (list_sum (map left (h_calls h)) + weights (h_todo h))%nat.
Lemma weight_eq t b a : weight (Msg t b a) = (9 + weights b + weights a)%nat.
Proof. reflexivity. Qed.
Lemma step_less i g h g' h' : step i g h = Some (g', h') -> (togo h' < togo h)%nat.
Proof.
  destruct h as (cs, td). unfold step. cbn [h_calls h_todo].
  destruct cs as [|(m, p) cs].
  { destruct td as [|m td]; [discriminate|]. intros [= <- <-]. unfold togo. cbn [h_calls h_todo]. change (weights (m :: td)) with (weight m + weights td)%nat.
    destruct m. rewrite weight_eq. cbn. lia. }
  destruct m as [t b a]. unfold togo.
  assert (W : forall n l, weights (n :: l) = (weight n + weights l)%nat) by reflexivity.
  assert (LK : forall n, (left (n, PLock) < weight n)%nat) by (intros [t1 b1 a1]; rewrite weight_eq; cbn; lia).
  destruct p.
  - destruct (g_owner g) as [(j, d)|]; [destruct (Nat.eqb j i); [|discriminate]|]; intros [= <- <-]; cbn; lia.
  - destruct (g_enabled g); intros [= <- <-]; cbn; lia.
  - intros [= <- <-]; cbn; lia.
  - intros [= <- <-]; cbn; lia.
  - destruct l as [|n l]; intros [= <- <-]; cbn [h_calls h_todo map list_sum fold_right left fst snd]; [lia|]. specialize (LK n). rewrite W.
    change (fold_right Init.Nat.add 0%nat) with list_sum. cbn [list_sum fold_right]. unfold list_sum. cbn [fold_right]. lia.
  - destruct l as [|n l]; intros [= <- <-]; cbn [h_calls h_todo map list_sum fold_right left fst snd]; [lia|]. specialize (LK n). rewrite W.
    unfold list_sum. cbn [fold_right]. lia.
  - intros [= <- <-]; cbn; lia.
  - intros [= <- <-]; cbn; lia.
Qed.
