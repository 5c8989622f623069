(** Lemmas for property C152. *)
From Coq Require Import ZArith String List Bool Lia ZifyBool ZifyNat Arith.
From Verif Require Import Bytes BytesProofs Ring RingSpec RingRefine RingHistory RingInv RingObs RingLemmas RingLemmas2 WaitQ WaitQProofs PropsWaitQ LinSpec LinProofs PropsLin ConcSpec.
Import ListNotations.
Open Scope Z_scope.

(** ** Positions *)

Definition rank {A} (f : A -> bool) (L : list A) (p : nat) : nat := length (filter f (firstn p L)).

Lemma firstn_step : forall {A} (L : list A) p x, nth_error L p = Some x -> firstn (S p) L = firstn p L ++ [x].
Proof.
  induction L as [|y L IH]; intros p x H; destruct p; try discriminate.
  - injection H as ->. reflexivity.
  - cbn [nth_error] in H. change (firstn (S (S p)) (y :: L)) with (y :: firstn (S p) L). rewrite (IH p x H). reflexivity.
Qed.
Lemma firstn_le : forall {A} (L : list A) p q, (p <= q)%nat -> exists M, firstn q L = firstn p L ++ M.
Proof.
  intros A L p q H. exists (skipn p (firstn q L)). rewrite <- (firstn_skipn p (firstn q L)) at 1.
  rewrite firstn_firstn. replace (Nat.min p q) with p by lia. reflexivity.
Qed.
Lemma rank_le : forall {A} (f : A -> bool) L p q, (p <= q)%nat -> (rank f L p <= rank f L q)%nat.
Proof.
  intros A f L p q H. destruct (firstn_le L p q H) as (M & E). unfold rank. rewrite E, filter_app, app_length. lia.
Qed.
Lemma rank_lt : forall {A} (f : A -> bool) L p q x, (p < q)%nat -> nth_error L p = Some x -> f x = true ->
  (rank f L p < rank f L q)%nat.
Proof.
  intros A f L p q x H Hp Hf. pose proof (rank_le f L (S p) q ltac:(lia)) as H1. unfold rank in *.
  rewrite (firstn_step L p x Hp), filter_app, app_length in H1. cbn [filter] in H1. rewrite Hf in H1. cbn [length] in H1. lia.
Qed.
Lemma rank_lt_inv : forall {A} (f : A -> bool) L p q, (rank f L p < rank f L q)%nat -> (p < q)%nat.
Proof. intros A f L p q H. destruct (Nat.lt_ge_cases p q) as [|C]; [assumption|]. pose proof (rank_le f L q p C). lia. Qed.
Lemma rank_inj : forall {A} (f : A -> bool) L p q x y, nth_error L p = Some x -> nth_error L q = Some y -> f x = true -> f y = true ->
  rank f L p = rank f L q -> p = q.
Proof.
  intros A f L p q x y Hp Hq Hx Hy E. destruct (Nat.lt_trichotomy p q) as [C|[C|C]]; [|exact C|].
  - pose proof (rank_lt f L p q x C Hp Hx). lia.
  - pose proof (rank_lt f L q p y C Hq Hy). lia.
Qed.

Lemma nth_filter : forall {A} (f : A -> bool) L i x, nth_error (filter f L) i = Some x ->
  exists p, nth_error L p = Some x /\ f x = true /\ rank f L p = i.
Proof.
  induction L as [|y L IH]; intros i x H; cbn [filter] in H; [destruct i; discriminate|].
  destruct (f y) eqn:Ef.
  - destruct i.
    + injection H as ->. exists O. cbn. auto.
    + cbn [nth_error] in H. destruct (IH i x H) as (p & A1 & A2 & A3). exists (S p). split; [exact A1|]. split; [exact A2|].
      unfold rank in *. cbn [firstn filter]. rewrite Ef. cbn [length]. lia.
  - destruct (IH i x H) as (p & A1 & A2 & A3). exists (S p). split; [exact A1|]. split; [exact A2|].
    unfold rank in *. cbn [firstn filter]. rewrite Ef. exact A3.
Qed.
Lemma filter_nth : forall {A} (f : A -> bool) L p x, nth_error L p = Some x -> f x = true ->
  nth_error (filter f L) (rank f L p) = Some x.
Proof.
  induction L as [|y L IH]; intros p x H Hf; [destruct p; discriminate|]. destruct p.
  - injection H as ->. cbn. rewrite Hf. reflexivity.
  - cbn [nth_error] in H. unfold rank in *. cbn [firstn filter]. specialize (IH p x H Hf).
    destruct (f y); [cbn [length nth_error]|]; exact IH.
Qed.

Lemma filt_split : forall {A} (f : A -> bool) L P x Q, filter f L = P ++ x :: Q ->
  exists A0 B0, L = A0 ++ x :: B0 /\ filter f A0 = P /\ filter f B0 = Q.
Proof.
  induction L as [|y L IH]; intros P x Q H; cbn [filter] in H; [destruct P; discriminate|].
  destruct (f y) eqn:Ef.
  - destruct P as [|z P]; cbn [app] in H.
    + injection H as -> <-. exists [], L. auto.
    + injection H as -> H. destruct (IH P x Q H) as (A0 & B0 & -> & E1 & E2). exists (z :: A0), B0.
      cbn [app filter]. rewrite Ef, E1. auto.
  - destruct (IH P x Q H) as (A0 & B0 & -> & E1 & E2). exists (y :: A0), B0. cbn [app filter]. rewrite Ef. auto.
Qed.

Lemma split_at : forall {A} (L : list A) p x, nth_error L p = Some x -> L = firstn p L ++ x :: skipn (S p) L.
Proof.
  induction L as [|y L IH]; intros p x H; destruct p; try discriminate.
  - injection H as ->. reflexivity.
  - cbn [nth_error] in H. cbn [firstn skipn app]. f_equal. apply IH. exact H.
Qed.
Lemma nth_firstn : forall {A} (L : list A) p q, (q < p)%nat -> nth_error (firstn p L) q = nth_error L q.
Proof.
  induction L as [|y L IH]; intros p q H; [rewrite firstn_nil; reflexivity|]. destruct p; [lia|]. destruct q; [reflexivity|].
  cbn [firstn nth_error]. apply IH. lia.
Qed.

(** ** Calls of a task *)

Lemma flat_split : forall {A B} (g : A -> list B) bs P x Q, flat_map g bs = P ++ x :: Q ->
  exists b1 b b2 P1 Q1, bs = b1 ++ b :: b2 /\ g b = P1 ++ x :: Q1 /\ P = flat_map g b1 ++ P1.
Proof.
  intros A B g. induction bs as [|b bs IH]; intros P x Q H; cbn [flat_map] in H; [destruct P; discriminate|].
  destruct (Nat.lt_ge_cases (length P) (length (g b))) as [C|C].
  - exists [], b, bs, P, (skipn (S (length P)) (g b)). split; [reflexivity|]. split; [|reflexivity].
    assert (X : nth_error (g b) (length P) = Some x).
    { rewrite <- (nth_error_app1 (g b) (flat_map g bs)) by lia. rewrite H. rewrite nth_error_app2 by lia.
      rewrite Nat.sub_diag. reflexivity. }
    assert (Y : P = firstn (length P) (g b)).
    { transitivity (firstn (length P) (g b ++ flat_map g bs)).
      - rewrite H, firstn_app, Nat.sub_diag, firstn_all. cbn. rewrite app_nil_r. reflexivity.
      - rewrite firstn_app. replace (length P - length (g b))%nat with O by lia. cbn. rewrite app_nil_r. reflexivity. }
    rewrite Y at 1. apply split_at. exact X.
  - assert (Y : P = g b ++ skipn (length (g b)) P).
    { rewrite <- (firstn_skipn (length (g b)) P) at 1. f_equal.
      transitivity (firstn (length (g b)) (P ++ x :: Q)).
      - rewrite firstn_app. replace (length (g b) - length P)%nat with O by lia. cbn. rewrite app_nil_r. reflexivity.
      - rewrite <- H, firstn_app, Nat.sub_diag, firstn_all. cbn. apply app_nil_r. }
    rewrite Y, <- app_assoc in H. apply app_inv_head in H.
    destruct (IH _ _ _ H) as (b1 & b0 & b2 & P1 & Q1 & -> & E1 & E2).
    exists (b :: b1), b0, b2, P1, Q1. split; [reflexivity|]. split; [exact E1|]. cbn [flat_map]. rewrite <- app_assoc, <- E2. exact Y.
Qed.

Definition one (b : call * list (op * out) * out) (tail : list label) (t : nat) : list label :=
  let '(c, l, x) := b in Inv t c :: map (eff t) l ++ tail.

Lemma eff_split : forall t l P y Q, map (eff t) l = P ++ y :: Q -> exists l0 p l1, l = l0 ++ p :: l1 /\ P = map (eff t) l0 /\ y = eff t p.
Proof.
  intros t l P y Q H. symmetry in H. apply eq_sym in H.
  destruct (map_eq_app _ _ _ _ H) as (l0 & l1 & -> & E1 & E2). destruct l1 as [|p l1]; [discriminate|].
  cbn [map] in E2. injection E2 as E2 _. exists l0, p, l1. auto.
Qed.

(** An operation of a task lies in one of its calls. *)
Lemma eff_call : forall t W P o x Q, explained true t W -> W = P ++ Eff t o x :: Q ->
  exists P0 c l0 l1 y, P = P0 ++ Inv t c :: map (eff t) l0 /\ done true c (l0 ++ (o, x) :: l1) y.
Proof.
  assert (S1 : forall t c l x P o z Q, Inv t c :: map (eff t) l ++ [Res t x] = P ++ Eff t o z :: Q ->
    exists l0 l1, P = Inv t c :: map (eff t) l0 /\ l = l0 ++ (o, z) :: l1).
  { intros t c l x P o z Q H. destruct P as [|p P]; [discriminate|]. cbn [app] in H. injection H as <- H.
    destruct Q as [|q Q] using rev_ind.
    - change (Eff t o z :: []) with ([] ++ [Eff t o z]) in H. rewrite app_assoc in H. apply app_inj_tail in H. destruct H; discriminate.
    - clear IHQ. rewrite app_comm_cons, app_assoc in H. apply app_inj_tail in H. destruct H as [H _].
      destruct (eff_split _ _ _ _ _ H) as (l0 & p & l1 & -> & -> & E). exists l0, l1. split; [reflexivity|].
      unfold eff in E. destruct p. cbn in E. injection E as -> ->. reflexivity. }
  assert (C1 : forall t W P o x Q, calls true t W -> W = P ++ Eff t o x :: Q ->
    exists P0 c l0 l1 y, P = P0 ++ Inv t c :: map (eff t) l0 /\ done true c (l0 ++ (o, x) :: l1) y).
  { intros t W P o x Q H E. destruct (calls_blocks true t W H) as (bs & Eb & F). rewrite Eb in E.
    destruct (flat_split _ _ _ _ _ E) as (b1 & [[c l] y] & b2 & P1 & Q1 & -> & E1 & E2). cbn [block] in E1.
    destruct (S1 _ _ _ _ _ _ _ _ E1) as (l0 & l1 & -> & ->). exists (flat_map (block t) b1), c, l0, l1, y. split; [exact E2|].
    apply Forall_app in F. destruct F as [_ F]. inversion F; subst. assumption. }
  intros t W P o x Q [H|(tr0 & c & l & l' & y & -> & H & Hd)] E; [eapply C1; eassumption|].
  destruct (Nat.lt_ge_cases (length P) (length tr0)) as [C|C].
  - assert (X : exists Q', tr0 = P ++ Eff t o x :: Q').
    { exists (skipn (S (length P)) tr0).
      assert (X : nth_error tr0 (length P) = Some (Eff t o x)).
      { rewrite <- (nth_error_app1 tr0 (Inv t c :: map (eff t) l)) by lia. rewrite E, nth_error_app2, Nat.sub_diag by lia. reflexivity. }
      pose proof (split_at _ _ _ X) as Y. rewrite Y at 1. f_equal.
      transitivity (firstn (length P) (tr0 ++ Inv t c :: map (eff t) l)).
      - rewrite firstn_app. replace (length P - length tr0)%nat with O by lia. cbn. rewrite app_nil_r. reflexivity.
      - rewrite E, firstn_app, Nat.sub_diag, firstn_all. cbn. apply app_nil_r. }
    destruct X as (Q' & X). eapply C1; [exact H|exact X].
  - assert (X : exists P', P = tr0 ++ P').
    { exists (skipn (length tr0) P). rewrite <- (firstn_skipn (length tr0) P) at 1. f_equal.
      transitivity (firstn (length tr0) (P ++ Eff t o x :: Q)).
      - rewrite firstn_app. replace (length tr0 - length P)%nat with O by lia. cbn. rewrite app_nil_r. reflexivity.
      - rewrite <- E, firstn_app, Nat.sub_diag, firstn_all. cbn. apply app_nil_r. }
    destruct X as (P' & ->). rewrite <- app_assoc in E. apply app_inv_head in E.
    destruct P' as [|p P']; [discriminate|]. cbn [app] in E. injection E as <- E.
    destruct (eff_split _ _ _ _ _ E) as (l0 & p & l1 & -> & -> & Ep). unfold eff in Ep. destruct p. cbn in Ep. injection Ep as -> ->.
    exists tr0, c, l0, (l1 ++ l'), y. split; [reflexivity|]. rewrite <- app_assoc in Hd. exact Hd.
Qed.

(** A result of a task is that of its last call. *)
Lemma res_call : forall t W P x Q, explained true t W -> W = P ++ Res t x :: Q ->
  exists P0 c l, P = P0 ++ Inv t c :: map (eff t) l /\ done true c l x.
Proof.
  assert (S1 : forall t c l x P z Q, Inv t c :: map (eff t) l ++ [Res t x] = P ++ Res t z :: Q ->
    P = Inv t c :: map (eff t) l /\ x = z).
  { intros t c l x P z Q H. destruct P as [|p P]; [discriminate|]. cbn [app] in H. injection H as <- H.
    destruct Q as [|q Q] using rev_ind.
    - change (Res t z :: []) with ([] ++ [Res t z]) in H. rewrite app_assoc in H. apply app_inj_tail in H. destruct H as [H E].
      injection E as ->. rewrite H, app_nil_r. auto.
    - clear IHQ. rewrite app_comm_cons, app_assoc in H. apply app_inj_tail in H. destruct H as [H _].
      destruct (eff_split _ _ _ _ _ H) as (l0 & p & l1 & _ & _ & E). destruct p. discriminate. }
  assert (C1 : forall t W P x Q, calls true t W -> W = P ++ Res t x :: Q ->
    exists P0 c l, P = P0 ++ Inv t c :: map (eff t) l /\ done true c l x).
  { intros t W P x Q H E. destruct (calls_blocks true t W H) as (bs & Eb & F). rewrite Eb in E.
    destruct (flat_split _ _ _ _ _ E) as (b1 & [[c l] y] & b2 & P1 & Q1 & -> & E1 & E2). cbn [block] in E1.
    destruct (S1 _ _ _ _ _ _ _ E1) as (-> & ->). exists (flat_map (block t) b1), c, l. split; [exact E2|].
    apply Forall_app in F. destruct F as [_ F]. inversion F; subst. assumption. }
  intros t W P x Q [H|(tr0 & c & l & l' & y & -> & H & Hd)] E; [eapply C1; eassumption|].
  destruct (Nat.lt_ge_cases (length P) (length tr0)) as [C|C].
  - assert (X : exists Q', tr0 = P ++ Res t x :: Q').
    { exists (skipn (S (length P)) tr0).
      assert (X : nth_error tr0 (length P) = Some (Res t x)).
      { rewrite <- (nth_error_app1 tr0 (Inv t c :: map (eff t) l)) by lia. rewrite E, nth_error_app2, Nat.sub_diag by lia. reflexivity. }
      pose proof (split_at _ _ _ X) as Y. rewrite Y at 1. f_equal.
      transitivity (firstn (length P) (tr0 ++ Inv t c :: map (eff t) l)).
      - rewrite firstn_app. replace (length P - length tr0)%nat with O by lia. cbn. rewrite app_nil_r. reflexivity.
      - rewrite E, firstn_app, Nat.sub_diag, firstn_all. cbn. apply app_nil_r. }
    destruct X as (Q' & X). eapply C1; [exact H|exact X].
  - exfalso. assert (X : In (Res t x) (Inv t c :: map (eff t) l)).
    { assert (Y : nth_error (Inv t c :: map (eff t) l) (length P - length tr0) = Some (Res t x)).
      { rewrite <- (nth_error_app2 tr0) by lia. rewrite E, nth_error_app2, Nat.sub_diag by lia. reflexivity. }
      apply nth_error_In in Y. exact Y. }
    destruct X as [X|X]; [discriminate|]. apply in_map_iff in X. destruct X as (p & X & _). destruct p; discriminate.
Qed.

(** The same with positions in the trace. *)
Definition only_effs (tr : list label) (t : nat) (p0 p : nat) (l : list (op * out)) : Prop :=
  forall q y, (p0 < q < p)%nat -> nth_error tr q = Some y -> who y = t -> exists pr, y = eff t pr /\ In pr l.

Lemma find_inv : forall tr t p P0 c l, filter (of t) (firstn p tr) = P0 ++ Inv t c :: map (eff t) l -> (p <= length tr)%nat ->
  exists p0, (p0 < p)%nat /\ nth_error tr p0 = Some (Inv t c) /\ only_effs tr t p0 p l /\
    forall pr, In pr l -> exists q, (p0 < q < p)%nat /\ nth_error tr q = Some (eff t pr).
Proof.
  intros tr t p P0 c l H Hp. destruct (filt_split _ _ _ _ _ H) as (A0 & B0 & E & EA & EB).
  assert (HL : length (firstn p tr) = p) by (rewrite firstn_length; lia).
  assert (HL2 : (length A0 + S (length B0) = p)%nat) by (rewrite <- HL, E, app_length; reflexivity).
  exists (length A0). split; [lia|]. split; [|split].
  - rewrite <- (nth_firstn tr p) by lia. rewrite E, nth_error_app2, Nat.sub_diag by lia. reflexivity.
  - intros q y Hq Hy Hw. rewrite <- (nth_firstn tr p) in Hy by lia. rewrite E, nth_error_app2 in Hy by lia.
    destruct (q - length A0)%nat as [|k] eqn:Ek; [lia|]. cbn [nth_error] in Hy. apply nth_error_In in Hy.
    assert (X : In y (filter (of t) B0)) by (apply filter_In; split; [exact Hy|unfold of; apply Nat.eqb_eq; exact Hw]).
    rewrite EB in X. apply in_map_iff in X. destruct X as (pr & <- & X). eauto.
  - intros pr Hi. assert (X : In (eff t pr) B0).
    { apply (in_map (eff t)) in Hi. rewrite <- EB in Hi. apply filter_In in Hi. apply Hi. }
    apply In_nth_error in X. destruct X as (k & X). assert (k < length B0)%nat by (apply nth_error_Some; congruence).
    exists (length A0 + S k)%nat. split; [lia|]. rewrite <- (nth_firstn tr p) by lia. rewrite E, nth_error_app2 by lia.
    replace (length A0 + S k - length A0)%nat with (S k) by lia. exact X.
Qed.

Lemma filter_at : forall tr t p y, nth_error tr p = Some y -> who y = t ->
  filter (of t) tr = filter (of t) (firstn p tr) ++ y :: filter (of t) (skipn (S p) tr).
Proof.
  intros tr t p y H Hw. rewrite (split_at _ _ _ H) at 1. rewrite filter_app. cbn [filter].
  unfold of at 2. rewrite Hw, Nat.eqb_refl. reflexivity.
Qed.

Lemma eff_at : forall tr t p o x, explained true t (filter (of t) tr) -> nth_error tr p = Some (Eff t o x) ->
  exists p0 c l0 l1 y, (p0 < p)%nat /\ nth_error tr p0 = Some (Inv t c) /\ only_effs tr t p0 p l0 /\ done true c (l0 ++ (o, x) :: l1) y.
Proof.
  intros tr t p o x Hx Hp. pose proof (filter_at tr t p _ Hp eq_refl) as E.
  destruct (eff_call t _ _ _ _ _ Hx E) as (P0 & c & l0 & l1 & y & E1 & Hd).
  assert (Hl : (p < length tr)%nat) by (apply nth_error_Some; congruence).
  destruct (find_inv tr t p P0 c l0 E1 ltac:(lia)) as (p0 & A1 & A2 & A3 & _). exists p0, c, l0, l1, y. auto.
Qed.
Lemma res_at : forall tr t p x, explained true t (filter (of t) tr) -> nth_error tr p = Some (Res t x) ->
  exists p0 c l, (p0 < p)%nat /\ nth_error tr p0 = Some (Inv t c) /\ only_effs tr t p0 p l /\ done true c l x /\
    forall pr, In pr l -> exists q, (p0 < q < p)%nat /\ nth_error tr q = Some (eff t pr).
Proof.
  intros tr t p x Hx Hp. pose proof (filter_at tr t p _ Hp eq_refl) as E.
  destruct (res_call t _ _ _ _ Hx E) as (P0 & c & l & E1 & Hd).
  assert (Hl : (p < length tr)%nat) by (apply nth_error_Some; congruence).
  destruct (find_inv tr t p P0 c l E1 ltac:(lia)) as (p0 & A1 & A2 & A3 & A4). exists p0, c, l. auto.
Qed.

(** ** What the device has done *)

Definition opened (fid : Z) (ev : op * aout) : bool :=
  match ev with (OpOpen f _ _ _ _, AVal _) => f =? fid | _ => false end.

Lemma keys_on_files : forall g fs, map fst (on_files g fs) = map fst fs.
Proof. intros g fs. unfold on_files. rewrite map_map. reflexivity. Qed.
Lemma keys_update : forall fid f fs, map fst (aupdate fid f fs) = map fst fs.
Proof. induction fs as [|[i g] fs IH]; [reflexivity|]. cbn. destruct (i =? fid); cbn; [reflexivity|]. f_equal. exact IH. Qed.
Lemma keys_remove : forall fid fs k, In k (map fst (aremove fid fs)) -> In k (map fst fs).
Proof. induction fs as [|[i g] fs IH]; intros k H; [exact H|]. cbn in *. destruct (i =? fid); [auto|]. destruct H; auto. Qed.

Lemma astep_keys : forall a o a' x k, astep a o = (a', x) -> In k (map fst (a_files a')) ->
  In k (map fst (a_files a)) \/ opened k (o, x) = true.
Proof.
  intros a o a' x k E H. destruct o; cbn [astep] in E.
  - destruct (alookup fid (a_files a)); [injection E as <- <-; auto|].
    destruct (rd && nomem); injection E as <- <-; [auto|]. cbn [a_files] in H. rewrite map_app in H. apply in_app_or in H.
    destruct H as [H|[H|[]]]; [auto|]. right. cbn in *. lia.
  - destruct (alookup fid (a_files a)); injection E as <- <-; [|auto]. left. eapply keys_remove. exact H.
  - left. destruct (alookup fid (a_files a)) as [[w m [r|]]|]; injection E as <- <-; exact H.
  - left. destruct (alookup fid (a_files a)) as [[w m [r|]]|]; try (injection E as <- <-; exact H).
    destruct (aread _ _ _ _ _) as [r' y]. injection E as <- <-. cbn [a_files] in H. rewrite keys_update in H. exact H.
  - left. destruct (alookup fid (a_files a)) as [f|]; [|injection E as <- <-; exact H].
    destruct (a_wr f); [|injection E as <- <-; exact H]. unfold awrite in E.
    destruct (_ && _); [injection E as <- <-; exact H|]. destruct (_ =? 0); [injection E as <- <-; exact H|].
    destruct (make_room _ _ _). destruct (iter_fault _ _); injection E as <- <-; cbn [a_files] in H; rewrite !keys_on_files in H; exact H.
  - left. destruct (alookup fid (a_files a)) as [[w m [r|]]|]; injection E as <- <-; cbn [a_files] in H; rewrite ?keys_update in H; exact H.
  - left. destruct (alookup fid (a_files a)) as [f|]; [|injection E as <- <-; exact H].
    destruct f as [w m [r|]]; destruct c; cbn [aioctl a_rd a_wr a_raw] in E; repeat match type of E with
     | (match ?b with _ => _ end) = _ => destruct b end; injection E as <- <-; cbn [a_files] in H;
     rewrite ?keys_update, ?keys_on_files in H; exact H.
Qed.

(** A file that gives data has been opened. *)
Lemma arun_opened : forall ops a a' xs pre fid u c v x post, arun a ops = (a', xs) ->
  with_ops ops xs = pre ++ (OpReadBody fid u c v, x) :: post -> (forall e, x <> AErr e) -> x <> ANoFile ->
  In fid (map fst (a_files a)) \/ exists ev, In ev pre /\ opened fid ev = true.
Proof.
  induction ops as [|o ops IH]; intros a a' xs pre fid u c v x post E H Hx Hy; cbn [arun] in E.
  - injection E as <- <-. destruct pre; discriminate.
  - destruct (astep a o) as [a1 x1] eqn:Es. destruct (arun a1 ops) as [a2 xs2] eqn:Er. injection E as <- <-.
    unfold with_ops in H. cbn [combine] in H. destruct pre as [|ev pre]; cbn [app] in H.
    + injection H as -> -> _. left. cbn [astep] in Es.
      destruct (alookup fid (a_files a)) as [f|] eqn:El; [eapply alookup_in; exact El|]. injection Es as _ <-. congruence.
    + injection H as <- H. destruct (IH _ _ _ _ _ _ _ _ _ _ Er H Hx Hy) as [Hi|(ev & H1 & H2)].
      * destruct (astep_keys _ _ _ _ _ Es Hi) as [Hk|Hk]; [auto|]. right. eexists. split; [left; reflexivity|exact Hk].
      * right. exists ev. split; [right; exact H1|exact H2].
Qed.

Lemma history_opened : forall nm mem pow2 ops, init_ok nm mem pow2 -> Forall user_op ops ->
  exists h d, explains h nm mem pow2 ops d /\ always (fun m o x => good_event m nm o x) h /\
    forall pre fid u c v x post, h = pre ++ (OpReadBody fid u c v, x) :: post -> (forall e, x <> AErr e) -> x <> ANoFile ->
      exists ev, In ev pre /\ opened fid ev = true.
Proof.
  intros nm mem pow2 ops Hi Hu. destruct (init_R nm mem pow2 Hi) as [HR Hv].
  destruct (run_R ops _ _ Hu HR Hv) as (d & E & HR' & Hv').
  destruct (arun (init_adev nm pow2) ops) as [a xs] eqn:Ea. cbn [fst snd] in *.
  destruct (arun_good ops ledger0 _ _ _ (Inv_init nm pow2) Hv Ea) as (G1 & G2 & G3 & G4 & G5 & G6).
  exists (with_ops ops xs), d. split; [|split; [exact G1|]].
  - split; [exact G3|]. rewrite E. do 2 f_equal. rewrite <- G4 at 1. rewrite map_map. reflexivity.
  - intros pre fid u c v x post H Hx Hy. destruct (arun_opened _ _ _ _ _ _ _ _ _ _ _ Ea H Hx Hy) as [[]|Q]. exact Q.
Qed.

Definition flushes (ev : op * aout) : bool := match ev with (OpIoctl _ FlushLog _, AVal _) => true | _ => false end.

Lemma acc_step : forall m ev, flushes ev = false ->
  m_acc (record m ev) = m_acc m \/
  exists fid t sec nsec it v, ev = (OpWrite fid t sec nsec it, AVal v) /\
    m_acc (record m ev) = m_acc m ++ [requested (m_raw m fid) t sec nsec it].
Proof.
  intros m [o x] H. destruct o; cbn [record].
  - destruct x; left; reflexivity.
  - left; reflexivity.
  - left; reflexivity.
  - destruct x; left; reflexivity.
  - destruct x; try (left; reflexivity). destruct (_ =? 0); [left; reflexivity|]. right. eexists _, _, _, _, _, _. split; reflexivity.
  - left; reflexivity.
  - destruct c; try (left; reflexivity); [destruct x; try (left; reflexivity); discriminate H|].
    destruct arg; destruct x; left; reflexivity.
Qed.

Lemma acc_prefix : forall h2 h1, Forall (fun ev => flushes ev = false) h2 ->
  exists M, m_acc (ledger_of (h1 ++ h2)) = m_acc (ledger_of h1) ++ M.
Proof.
  induction h2 as [|ev h2 IH] using rev_ind; intros h1 F; [exists []; rewrite !app_nil_r; reflexivity|].
  apply Forall_app in F. destruct F as [F1 F2]. inversion F2; subst. destruct (IH h1 F1) as (M & E).
  rewrite app_assoc, ledger_snoc. destruct (acc_step (ledger_of (h1 ++ h2)) ev) as [A|(fid & t & sec & nsec & it & v & _ & A)]; [assumption| |].
  - exists M. rewrite A. exact E.
  - eexists (M ++ [_]). rewrite A, E, <- app_assoc. reflexivity.
Qed.

(** Where an accepted entry comes from. *)
Lemma acc_src : forall h n e, Forall (fun ev => flushes ev = false) h -> nth_error (m_acc (ledger_of h)) n = Some e ->
  exists j fid t sec nsec it v, nth_error h j = Some (OpWrite fid t sec nsec it, AVal v) /\
    length (m_acc (ledger_of (firstn j h))) = n /\ (length (m_acc (ledger_of (firstn (S j) h))) = S n) /\ exists raw, e = requested raw t sec nsec it.
Proof.
  induction h as [|ev h IH] using rev_ind; intros n e F H; [destruct n; discriminate|].
  apply Forall_app in F. destruct F as [F1 F2]. inversion F2; subst.
  assert (K : forall n, nth_error (m_acc (ledger_of h)) n = Some e ->
    exists j fid t sec nsec it v, nth_error (h ++ [ev]) j = Some (OpWrite fid t sec nsec it, AVal v) /\
    length (m_acc (ledger_of (firstn j (h ++ [ev])))) = n /\ length (m_acc (ledger_of (firstn (S j) (h ++ [ev])))) = S n /\ exists raw, e = requested raw t sec nsec it).
  { intros n0 H0. destruct (IH n0 e F1 H0) as (j & fid & t & sec & nsec & it & v & A & B & B' & C).
    assert (j < length h)%nat by (apply nth_error_Some; congruence).
    exists j, fid, t, sec, nsec, it, v. rewrite nth_error_app1 by lia. split; [exact A|]. split; [|split; [|exact C]].
    - rewrite firstn_app. replace (j - length h)%nat with O by lia. cbn [firstn]. rewrite app_nil_r. exact B.
    - rewrite firstn_app. replace (S j - length h)%nat with O by lia. cbn [firstn app]. rewrite app_nil_r. exact B'. }
  rewrite ledger_snoc in H. destruct (acc_step (ledger_of h) ev) as [A|(fid & t & sec & nsec & it & v & Ev & A)]; [assumption| |].
  - rewrite A in H. exact (K n H).
  - rewrite A in H. destruct (Nat.lt_ge_cases n (length (m_acc (ledger_of h)))) as [C|C].
    + rewrite nth_error_app1 in H by lia. exact (K n H).
    + rewrite nth_error_app2 in H by lia.
      destruct (n - length (m_acc (ledger_of h)))%nat as [|k] eqn:Ek; [|destruct k; discriminate]. injection H as <-.
      exists (length h), fid, t, sec, nsec, it, v. rewrite nth_error_app2, Nat.sub_diag by lia. cbn [nth_error].
      split; [congruence|]. split; [|split; [|eauto]].
      * rewrite firstn_app, Nat.sub_diag, firstn_all. cbn [firstn]. rewrite app_nil_r. lia.
      * rewrite firstn_all2 by (rewrite app_length; cbn [length]; lia). rewrite ledger_snoc, A, app_length. cbn [length]. lia.
Qed.

Lemma all_step : forall m ev fid, m_all (record m ev) fid =
  match ev with (OpOpen f _ _ all _, AVal _) => if fid =? f then all else m_all m fid | _ => m_all m fid end.
Proof.
  intros m [o x] fid. destruct o; cbn [record]; try reflexivity; destruct x; try reflexivity.
  - destruct (_ =? 0); reflexivity.
  - destruct c; try reflexivity. destruct arg; reflexivity.
  - destruct c; try reflexivity. destruct arg; reflexivity.
  - destruct c; try reflexivity. destruct arg; reflexivity.
  - destruct c; try reflexivity. destruct arg; reflexivity.
  - destruct c; try reflexivity. destruct arg; reflexivity.
  - destruct c; try reflexivity. destruct arg; reflexivity.
  - destruct c; try reflexivity. destruct arg; reflexivity.
  - destruct c; try reflexivity. destruct arg; reflexivity.
  - destruct c; try reflexivity. destruct arg; reflexivity.
Qed.

Lemma all_true : forall h fid, (forall f rd wr all nomem v, In (OpOpen f rd wr all nomem, AVal v) h -> f = fid -> all = true) ->
  (exists ev, In ev h /\ opened fid ev = true) -> m_all (ledger_of h) fid = true.
Proof.
  induction h as [|ev h IH] using rev_ind; intros fid Ha (e & H1 & H2); [contradiction|].
  rewrite ledger_snoc, all_step.
  assert (Ha' : forall f rd wr all nomem v, In (OpOpen f rd wr all nomem, AVal v) h -> f = fid -> all = true).
  { intros f rd wr all nomem v Hi. eapply Ha. apply in_or_app. left. exact Hi. }
  assert (K : m_all (ledger_of h) fid = true \/ opened fid ev = true).
  { apply in_app_or in H1. destruct H1 as [H1|[H1|[]]]; [left; apply IH; eauto|right; congruence]. }
  destruct ev as [o x]. destruct o; try (destruct K as [K|K]; [exact K|discriminate K]).
  destruct x; try (destruct K as [K|K]; [exact K|discriminate K]).
  destruct (fid =? fid0) eqn:Ef.
  - eapply (Ha fid0). { apply in_or_app. right. left. reflexivity. } lia.
  - destruct K as [K|K]; [exact K|]. cbn in K. lia.
Qed.

(** Readers only go forward. *)
Definition counted (ev : op * aout) : Prop :=
  match ev with (OpReadBody _ _ _ _, AReport _ _ n _) => 0 < n | _ => True end.

Lemma seen_step : forall m ev fid, flushes ev = false -> opened fid ev = false -> counted ev -> m_seen m fid <= m_seen (record m ev) fid.
Proof.
  intros m [o x] fid Hf Ho Hc. destruct o; cbn [record]; try lia.
  - destruct x; cbn [m_seen]; try lia. cbn in Ho. unfold set. replace (fid =? fid0) with false by lia. lia.
  - destruct x; cbn [m_seen]; try lia; unfold set; destruct (fid =? fid0) eqn:E; try lia.
    + replace fid0 with fid by lia. lia.
    + replace fid0 with fid by lia. cbn in Hc. lia.
  - destruct x; cbn [m_seen]; try lia. destruct (_ =? 0); cbn [m_seen]; lia.
  - destruct c; try lia; [destruct x; try lia; discriminate Hf|]. destruct arg; destruct x; cbn [m_seen]; lia.
Qed.
Lemma seen_run : forall h2 h1 fid, Forall (fun ev => flushes ev = false /\ opened fid ev = false /\ counted ev) h2 ->
  m_seen (ledger_of h1) fid <= m_seen (ledger_of (h1 ++ h2)) fid.
Proof.
  induction h2 as [|ev h2 IH] using rev_ind; intros h1 fid F; [rewrite app_nil_r; lia|].
  apply Forall_app in F. destruct F as [F1 F2]. inversion F2 as [|? ? (A & B & C) _]; subst. specialize (IH h1 fid F1).
  rewrite app_assoc, ledger_snoc. pose proof (seen_step (ledger_of (h1 ++ h2)) ev fid A B C). lia.
Qed.

(** ** Both together *)

Record Setup (H tr : list label) (h : RingHistory.history) (nm : list Z) (fid : Z) : Prop := mkSetup {
  su_H : filter seen tr = H;
  su_x : forall t, explained true t (filter (of t) tr);
  su_e : effs tr = map (fun ev => (fst ev, render (snd ev))) h;
  su_ep : forall t c, In (Inv t c) H -> entry_point c = true;
  su_g : always (fun m o x => good_event m nm o x) h;
  su_o : forall pre u c v x post, h = pre ++ (OpReadBody fid u c v, x) :: post -> (forall e, x <> AErr e) -> x <> ANoFile ->
      exists ev, In ev pre /\ opened fid ev = true;
  su_once : opened_once H fid;
  su_all : sees_all H fid;
  su_nf : unflushed H }.

Lemma effs_map : forall tr, map (fun l => match l with Eff _ o x => Some (o, x) | _ => None end) (filter hidden tr) = map Some (effs tr).
Proof. induction tr as [|[t c|t o x|t x] tr IH]; [reflexivity| | |]; cbn; [exact IH|f_equal; exact IH|exact IH]. Qed.

Lemma hidden_nth : forall H tr h nm fid p u o x, Setup H tr h nm fid -> nth_error tr p = Some (Eff u o x) ->
  exists ax, nth_error h (rank hidden tr p) = Some (o, ax) /\ render ax = x.
Proof.
  intros H tr h nm fid p u o x S Hp. pose proof (filter_nth hidden tr p _ Hp eq_refl) as E.
  apply (map_nth_error (fun l => match l with Eff _ o x => Some (o, x) | _ => None end)) in E. rewrite effs_map, (su_e _ _ _ _ _ S), map_map in E.
  destruct (nth_error h (rank hidden tr p)) as [[o' ax]|] eqn:En.
  - rewrite (map_nth_error _ _ _ En) in E. cbn in E. injection E as -> <-. eauto.
  - apply nth_error_None in En. assert (X : nth_error (map (fun ev : op * aout => Some (fst ev, render (snd ev))) h) (rank hidden tr p) <> None) by (rewrite E; discriminate).
    apply nth_error_Some in X. rewrite map_length in X. lia.
Qed.
Lemma nth_hidden : forall H tr h nm fid j o ax, Setup H tr h nm fid -> nth_error h j = Some (o, ax) ->
  exists p u, nth_error tr p = Some (Eff u o (render ax)) /\ rank hidden tr p = j.
Proof.
  intros H tr h nm fid j o ax S Hj.
  apply (map_nth_error (fun ev : op * aout => Some (fst ev, render (snd ev)))) in Hj.
  rewrite <- (map_map (fun ev : op * aout => (fst ev, render (snd ev))) Some), <- (su_e _ _ _ _ _ S), <- effs_map in Hj. cbn [fst snd] in Hj.
  destruct (nth_error (filter hidden tr) j) as [l|] eqn:El.
  - rewrite (map_nth_error _ _ _ El) in Hj. destruct l as [|u o' x'|]; try discriminate. injection Hj as -> ->.
    destruct (nth_filter _ _ _ _ El) as (p & A & _ & B). eauto.
  - apply nth_error_None in El.
    assert (X : nth_error (map (fun l : label => match l with Eff _ o x => Some (o, x) | _ => None end) (filter hidden tr)) j <> None) by (rewrite Hj; discriminate).
    apply nth_error_Some in X. rewrite map_length in X. lia.
Qed.

Lemma inv_seen : forall H tr h nm fid p t c, Setup H tr h nm fid -> nth_error tr p = Some (Inv t c) -> nth_error H (rank seen tr p) = Some (Inv t c).
Proof. intros H tr h nm fid p t c S Hp. rewrite <- (su_H _ _ _ _ _ S). apply filter_nth; [exact Hp|reflexivity]. Qed.

(** The raw mode is set. *)
Definition modes (l : list (op * out)) : Prop := forall q, In q l -> exists f m, fst q = mode_op f m.

(** The call of an open, a flush, a write. *)
Lemma eff_inv : forall H tr h nm fid p u o x, Setup H tr h nm fid -> nth_error tr p = Some (Eff u o x) ->
  exists p0 c, (p0 < p)%nat /\ nth_error tr p0 = Some (Inv u c) /\
    match o with
    | OpOpen _ _ _ _ _ | OpIoctl _ FlushLog _ => c = COther o /\ only_effs tr u p0 p []
    | OpWrite _ _ _ _ _ => exists w, c = CWrite w /\ o = wop w /\ exists l0, only_effs tr u p0 p l0 /\ modes l0
    | _ => True
    end.
Proof.
  intros H tr h nm fid p u o x S Hp. destruct (eff_at tr u p o x (su_x _ _ _ _ _ S u) Hp) as (p0 & c & l0 & l1 & y & A & B & C & D).
  exists p0, c. split; [exact A|]. split; [exact B|].
  assert (Ep : entry_point c = true).
  { apply (su_ep _ _ _ _ _ S u). apply nth_error_In with (rank seen tr p0). eapply inv_seen; eassumption. }
  assert (W : forall a l, waiting a l -> forall q, In q l -> fst q = check a \/ fst q = body a).
  { induction 1; intros q Hq; [contradiction| |]; apply in_app_or in Hq; destruct Hq as [Hq|Hq]; auto.
    - destruct Hq as [<-|[]]; auto.
    - destruct Hq as [<-|[<-|[]]]; auto. }
  assert (V : forall f v l, polling f v l -> forall q, In q l -> fst q = OpPoll f v).
  { induction 1; intros q Hq; [contradiction|]. apply in_app_or in Hq. destruct Hq as [Hq|[<-|[]]]; auto. }
  assert (Q : (exists w, c = CWrite w /\ o = wop w /\ modes l0) \/ (exists f m, o = mode_op f m) \/ (c = COther o /\ l0 = []) \/
     (exists a, o = check a \/ o = body a) \/ exists f v, o = OpPoll f v).
  { remember (l0 ++ (o, x) :: l1) as ll eqn:El. destruct D.
    - destruct l0; discriminate.
    - destruct l0 as [|? l0]; [injection El as <- _ _; left; exists w; split; [reflexivity|]; split; [reflexivity|]; intros q []|]. destruct l0; discriminate.
    - destruct l0 as [|? l0]; [injection El as <- _ _; right; left; eauto|]. destruct l0 as [|? l0].
      + injection El as <- <- _ _. left. exists w. split; [reflexivity|]. split; [reflexivity|]. intros q [<-|[]]. do 2 eexists. reflexivity.
      + destruct l0 as [|? l0]; [injection El as _ _ <- _ _; right; left; eauto|]. destruct l0; discriminate.
    - right. right. right. left. exists c. assert (X : In (o, x) (l ++ [(check c, OutCont); (body c, x0)])) by (rewrite El; apply in_or_app; right; left; reflexivity).
      apply in_app_or in X. destruct X as [X|[X|[X|[]]]]; [exact (W _ _ H0 _ X)|injection X as <- _; auto|injection X as <- _; auto].
    - right. right. right. left. exists c. assert (X : In (o, x) (l ++ [(check c, OutErr EAGAIN)])) by (rewrite El; apply in_or_app; right; left; reflexivity).
      apply in_app_or in X. destruct X as [X|[X|[]]]; [exact (W _ _ H0 _ X)|injection X as <- _; auto].
    - right. right. right. left. exists c. assert (X : In (o, x) (l ++ [(check c, OutSleep)])) by (rewrite El; apply in_or_app; right; left; reflexivity).
      apply in_app_or in X. destruct X as [X|[X|[]]]; [exact (W _ _ H0 _ X)|injection X as <- _; auto].
    - right. right. right. right. exists f, u0. assert (X : In (o, x) (l ++ [(OpPoll f u0, OutPoll true)])) by (rewrite El; apply in_or_app; right; left; reflexivity).
      apply in_app_or in X. destruct X as [X|[X|[]]]; [exact (V _ _ _ H0 _ X)|injection X as <- _; auto].
    - right. right. right. right. exists f, u0. assert (X : In (o, x) (l ++ [(OpPoll f u0, OutPoll false)])) by (rewrite El; apply in_or_app; right; left; reflexivity).
      apply in_app_or in X. destruct X as [X|[X|[]]]; [exact (V _ _ _ H0 _ X)|injection X as <- _; auto].
    - destruct l0 as [|? l0]; [injection El as <- _ _; auto 10|]. destruct l0; discriminate. }
  destruct Q as [(w & -> & -> & M)|[(f & m & ->)|[(-> & ->)|[(a & [-> | ->])|(f & v & ->)]]]]; cbn [wop check body mode_op]; try exact I.
  - exists w. split; [reflexivity|]. split; [reflexivity|]. exists l0. auto.
  - destruct o; try exact I; try (cbn in Ep; discriminate); auto. destruct c; try exact I. auto.
Qed.

Lemma no_flush : forall H tr h nm fid ev, Setup H tr h nm fid -> In ev h -> flushes ev = false.
Proof.
  intros H tr h nm fid [o ax] S Hi. destruct o; try reflexivity. destruct c; try reflexivity. destruct ax; try reflexivity. exfalso.
  apply In_nth_error in Hi. destruct Hi as (j & Hj). destruct (nth_hidden _ _ _ _ _ _ _ _ S Hj) as (p & u & Hp & _).
  destruct (eff_inv _ _ _ _ _ _ _ _ _ S Hp) as (p0 & c & _ & H0 & -> & _). apply (su_nf _ _ _ _ _ S u fid0 euid).
  apply nth_error_In with (rank seen tr p0). eapply inv_seen; eassumption.
Qed.

Lemma one_open : forall H tr h nm fid j1 j2 e1 e2, Setup H tr h nm fid -> nth_error h j1 = Some e1 -> nth_error h j2 = Some e2 ->
  opened fid e1 = true -> opened fid e2 = true -> j1 = j2.
Proof.
  intros H tr h nm fid j1 j2 e1 e2 S A1 A2 O1 O2.
  assert (K : forall j e, nth_error h j = Some e -> opened fid e = true -> exists p u p0 c, rank hidden tr p = j /\
    (exists o x, nth_error tr p = Some (Eff u o x)) /\ (p0 < p)%nat /\ nth_error tr p0 = Some (Inv u c) /\ opens fid c = true /\ only_effs tr u p0 p []).
  { intros j [o ax] Hj Ho. destruct o; try discriminate Ho. destruct ax; try discriminate Ho.
    destruct (nth_hidden _ _ _ _ _ _ _ _ S Hj) as (p & u & Hp & Hr). destruct (eff_inv _ _ _ _ _ _ _ _ _ S Hp) as (p0 & c & B1 & B2 & -> & B3).
    exists p, u, p0. eexists. split; [exact Hr|]. split; [eauto|]. split; [exact B1|]. split; [exact B2|]. split; [exact Ho|exact B3]. }
  destruct (K _ _ A1 O1) as (p1 & u1 & q1 & c1 & B1 & (o1 & x1 & C1) & D1 & E1 & F1 & G1).
  destruct (K _ _ A2 O2) as (p2 & u2 & q2 & c2 & B2 & (o2 & x2 & C2) & D2 & E2 & F2 & G2).
  pose proof (su_once _ _ _ _ _ S _ _ _ _ _ _ (inv_seen _ _ _ _ _ _ _ _ S E1) (inv_seen _ _ _ _ _ _ _ _ S E2) F1 F2) as X.
  pose proof (rank_inj seen tr q1 q2 _ _ E1 E2 eq_refl eq_refl X) as Y. subst q2. rewrite E1 in E2. injection E2 as <- <-.
  rewrite <- B1, <- B2. f_equal. destruct (Nat.lt_trichotomy p1 p2) as [C|[C|C]]; [|exact C|]; exfalso.
  - destruct (G2 p1 _ ltac:(lia) C1 eq_refl) as (? & _ & []).
  - destruct (G1 p2 _ ltac:(lia) C2 eq_refl) as (? & _ & []).
Qed.

Lemma open_all : forall H tr h nm fid f rd wr all nomem v, Setup H tr h nm fid -> In (OpOpen f rd wr all nomem, AVal v) h -> f = fid -> all = true.
Proof.
  intros H tr h nm fid f rd wr all nomem v S Hi ->. apply In_nth_error in Hi. destruct Hi as (j & Hj).
  destruct (nth_hidden _ _ _ _ _ _ _ _ S Hj) as (p & u & Hp & _).
  destruct (eff_inv _ _ _ _ _ _ _ _ _ S Hp) as (p0 & c & _ & H0 & -> & _). apply (su_all _ _ _ _ _ S u rd wr all nomem).
  apply nth_error_In with (rank seen tr p0). eapply inv_seen; eassumption.
Qed.

(** The operation of a read that gave data. *)
Lemma read_at : forall H tr h nm fid i r t c x, Setup H tr h nm fid -> call_at H i r t c x ->
  exists pi pr l, nth_error tr pi = Some (Inv t c) /\ rank seen tr pi = i /\ nth_error tr pr = Some (Res t x) /\ rank seen tr pr = r /\
    (pi < pr)%nat /\ done true c l x /\ only_effs tr t pi pr l /\ forall q, In q l -> exists p, (pi < p < pr)%nat /\ nth_error tr p = Some (eff t q).
Proof.
  intros H tr h nm fid i r t c x S (A1 & A2 & A3 & A4). rewrite <- (su_H _ _ _ _ _ S) in A1, A2, A4.
  destruct (nth_filter _ _ _ _ A1) as (pi & B1 & _ & B2). destruct (nth_filter _ _ _ _ A2) as (pr & C1 & _ & C2).
  destruct (res_at tr t pr x (su_x _ _ _ _ _ S t) C1) as (p0 & c' & l & D1 & D2 & D3 & D4 & D5).
  assert (E : p0 = pi).
  { destruct (Nat.lt_trichotomy p0 pi) as [C|[C|C]]; [|exact C|]; exfalso.
    - assert (pi < pr)%nat by (apply (rank_lt_inv seen tr); lia). destruct (D3 pi _ ltac:(lia) B1 eq_refl) as (? & E & _). discriminate.
    - pose proof (filter_nth seen tr p0 _ D2 eq_refl) as F. apply (A4 (rank seen tr p0) _) in F; [exact (F eq_refl)|].
      pose proof (rank_lt seen tr _ _ _ C B1 eq_refl). pose proof (rank_lt seen tr _ _ _ D1 D2 eq_refl). lia. }
  subst p0. rewrite B1 in D2. injection D2 as <-. exists pi, pr, l. repeat (split; [assumption|]). exact D5.
Qed.

Definition Src (H tr : list label) (h : RingHistory.history) (fid : Z) (r pe pw k : nat) : Prop :=
  exists t c b pi pr l ver e u w p0 x,
    nth_error tr pi = Some (Inv t (CRead c)) /\ nth_error tr pr = Some (Res t (OutData b)) /\ rank seen tr pr = r /\
    only_effs tr t pi pr l /\ (pi < pe < pr)%nat /\ nth_error tr pe = Some (Eff t (body c) (OutData b)) /\ ra_fid c = fid /\
    nth_error h (rank hidden tr pe) = Some (body c, AEntry ver e) /\
    nth_error tr p0 = Some (Inv u (CWrite w)) /\ nth_error tr pw = Some (Eff u (wop w) x) /\ (p0 < pw < pe)%nat /\
    (exists l0, only_effs tr u p0 pw l0 /\ modes l0) /\ rank seen tr p0 = k /\ message w b /\
    length (m_acc (ledger_of (firstn (rank hidden tr pw) h))) = Z.to_nat (m_seen (ledger_of (firstn (rank hidden tr pe) h)) fid) /\
    length (m_acc (ledger_of (firstn (S (rank hidden tr pw)) h))) = S (Z.to_nat (m_seen (ledger_of (firstn (rank hidden tr pe) h)) fid)).

Lemma same_call : forall tr t p p' pr l l' c c', only_effs tr t p pr l -> only_effs tr t p' pr l' ->
  nth_error tr p = Some (Inv t c) -> nth_error tr p' = Some (Inv t c') -> (p < pr)%nat -> (p' < pr)%nat -> p = p'.
Proof.
  intros tr t p p' pr l l' c c' A B C D E F. destruct (Nat.lt_trichotomy p p') as [X|[X|X]]; [|exact X|]; exfalso.
  - destruct (A p' _ ltac:(lia) D eq_refl) as (? & Y & _). discriminate.
  - destruct (B p _ ltac:(lia) C eq_refl) as (? & Y & _). discriminate.
Qed.

Lemma always_prefix : forall P h n, always P h -> always P (firstn n h).
Proof.
  intros P h n A pre o x post E. apply (A pre o x (post ++ skipn n h)). rewrite <- (firstn_skipn n h) at 1. rewrite E, <- app_assoc. reflexivity.
Qed.

Lemma read_source : forall H tr h nm fid t c b pi pr pe l, Setup H tr h nm fid ->
  nth_error tr pi = Some (Inv t (CRead c)) -> nth_error tr pr = Some (Res t (OutData b)) -> only_effs tr t pi pr l ->
  (pi < pe < pr)%nat -> nth_error tr pe = Some (Eff t (body c) (OutData b)) -> ra_fid c = fid ->
  (exists pw k, Src H tr h fid (rank seen tr pr) pe pw k) \/ notice b.
Proof.
  intros H tr h nm fid t c b pi pr pe l S A1 A2 A3 A4 A5 A6.
  destruct (hidden_nth _ _ _ _ _ _ _ _ _ S A5) as (ax & B1 & B2). pose proof (split_at _ _ _ B1) as B3.
  pose proof (su_g _ _ _ _ _ S _ _ _ _ B3) as G. unfold body in G at 1. cbn [good_event] in G. destruct G as [G1 G2]. cbn in G2.
  destruct ax; try discriminate B2.
  - left. cbn [delivery_ok body] in G1. destruct G1 as (G1 & _). rewrite A6 in G1.
    assert (Ha : m_all (ledger_of (firstn (rank hidden tr pe) h)) fid = true).
    { apply all_true.
      - intros f rd wr all nomem v Hi Hf. eapply (open_all _ _ _ _ _ _ _ _ _ _ _ S); [|exact Hf]. rewrite B3. apply in_or_app. left. exact Hi.
      - unfold body in B3. rewrite A6 in B3. eapply (su_o _ _ _ _ _ S); [exact B3|discriminate|discriminate]. }
    specialize (G1 Ha). apply acc_src in G1.
    2:{ apply Forall_forall. intros ev Hi. eapply (no_flush _ _ _ _ _ _ S). rewrite B3. apply in_or_app. left. exact Hi. }
    destruct G1 as (j & f & tk & sec & nsec & it & v & C1 & C2 & C2' & raw & C3).
    assert (Hj : (j < rank hidden tr pe)%nat).
    { assert (X : (j < length (firstn (rank hidden tr pe) h))%nat) by (apply nth_error_Some; congruence). rewrite firstn_length in X. lia. }
    rewrite nth_firstn in C1 by exact Hj. rewrite firstn_firstn in C2, C2'. replace (Nat.min j (rank hidden tr pe)) with j in C2 by lia.
    replace (Nat.min (Datatypes.S j) (rank hidden tr pe)) with (Datatypes.S j) in C2' by lia.
    destruct (nth_hidden _ _ _ _ _ _ _ _ S C1) as (pw & u & D1 & D2).
    destruct (eff_inv _ _ _ _ _ _ _ _ _ S D1) as (p0 & cw & E1 & E2 & w & -> & E3 & E4).
    assert (pw < pe)%nat by (apply (rank_lt_inv hidden tr); lia).
    exists pw, (rank seen tr p0), t, c, b, pi, pr, l, ver, e, u, w, p0. eexists.
    rewrite <- E3. repeat (split; [eassumption || reflexivity || lia|]). split.
    + exists ver, raw. split; [exact G2|]. unfold wop in E3. injection E3 as -> -> -> -> ->. rewrite <- C3. cbn in B2. congruence.
    + rewrite D2. split; [exact C2|exact C2'].
  - right. cbn in G1. exists ver, nm0, n, next. split; [lia|]. cbn in B2. congruence.
Qed.

Lemma read_body : forall c l b, done true (CRead c) l (OutData b) -> In (body c, OutData b) l.
Proof. intros c l b H. inversion H; subst. apply in_or_app. right. right. left. reflexivity. Qed.

Lemma per_read : forall H tr h nm fid r, Setup H tr h nm fid ->
  (exists pe pw k, Src H tr h fid r pe pw k) \/ (forall i t c b, call_at H i r t (CRead c) (OutData b) -> ra_fid c = fid -> notice b).
Proof.
  intros H tr h nm fid r S. destruct (nth_error H r) as [[t0 c0|t0 o0 x0|t x]|] eqn:Er;
    try (right; intros i t1 c b (_ & A & _); congruence).
  destruct x; try (right; intros i t1 c b0 (_ & A & _); congruence).
  rewrite <- (su_H _ _ _ _ _ S) in Er. destruct (nth_filter _ _ _ _ Er) as (pr & B1 & _ & B2).
  destruct (res_at tr t pr _ (su_x _ _ _ _ _ S t) B1) as (p0 & c & l & D1 & D2 & D3 & D4 & D5).
  assert (K : forall i t1 c1 b1, call_at H i r t1 (CRead c1) (OutData b1) -> t1 = t /\ c = CRead c1 /\ b1 = bs).
  { intros i t1 c1 b1 HC. destruct (read_at _ _ _ _ _ _ _ _ _ _ S HC) as (pi & pr' & l' & F1 & F2 & F3 & F4 & F5 & F6 & F7 & _).
    assert (pr' = pr) by (eapply (rank_inj seen tr); [exact F3|exact B1|reflexivity|reflexivity|congruence]). subst pr'.
    rewrite B1 in F3. injection F3 as <- <-. pose proof (same_call _ _ _ _ _ _ _ _ _ D3 F7 D2 F1 D1 F5). subst pi. rewrite D2 in F1. injection F1 as ->. auto. }
  destruct c as [a|w|f v|o]; try (right; intros i t1 c1 b1 HC; destruct (K _ _ _ _ HC) as (_ & X & _); discriminate).
  destruct (Z.eq_dec (ra_fid a) fid) as [Ef|Ef].
  - destruct (D5 _ (read_body _ _ _ D4)) as (pe & D6 & D7). unfold eff in D7. cbn [fst snd] in D7.
    destruct (read_source _ _ _ _ _ _ _ _ _ _ _ _ S D2 B1 D3 D6 D7 Ef) as [(pw & k & X)|X].
    + left. rewrite B2 in X. eauto.
    + right. intros i t1 c1 b1 HC _. destruct (K _ _ _ _ HC) as (_ & _ & ->). exact X.
  - right. intros i t1 c1 b1 HC Hf. destruct (K _ _ _ _ HC) as (_ & X & _). injection X as <-. congruence.
Qed.

Lemma sources_order : forall H tr h nm fid r1 pe1 pw1 k1 r2 pe2 pw2 k2, Setup H tr h nm fid ->
  Src H tr h fid r1 pe1 pw1 k1 -> Src H tr h fid r2 pe2 pw2 k2 -> (pe1 < pe2)%nat -> (pw1 < pw2)%nat.
Proof.
  intros H tr h nm fid r1 pe1 pw1 k1 r2 pe2 pw2 k2 S S1 S2 Hlt.
  destruct S1 as (t1 & c1 & b1 & pi1 & pr1 & l1 & v1 & e1 & u1 & w1 & p1 & x1 & _ & _ & _ & _ & _ & A1 & A2 & A3 & _ & _ & A4 & _ & _ & _ & A5 & _).
  destruct S2 as (t2 & c2 & b2 & pi2 & pr2 & l2 & v2 & e2 & u2 & w2 & p2 & x2 & _ & _ & _ & _ & _ & B1 & B2 & B3 & _ & _ & B4 & _ & _ & _ & B5 & _).
  pose proof (rank_lt hidden tr _ _ _ Hlt A1 eq_refl) as Hj.
  set (j1 := rank hidden tr pe1) in *. set (j2 := rank hidden tr pe2) in *.
  destruct (firstn_le h (Datatypes.S j1) j2 ltac:(lia)) as (mid & E). rewrite (firstn_step _ _ _ A3) in E.
  assert (Q : m_seen (ledger_of (firstn j1 h)) fid + 1 <= m_seen (ledger_of (firstn j2 h)) fid).
  { rewrite E. etransitivity; [|apply (seen_run mid (firstn j1 h ++ [(body c1, AEntry v1 e1)]) fid)].
    - rewrite ledger_snoc. unfold body. rewrite A2. cbn [record m_seen]. rewrite set_same. lia.
    - apply Forall_forall. intros ev Hi. apply In_nth_error in Hi. destruct Hi as (q & Hq).
      assert (HL : length (firstn j1 h) = j1).
      { rewrite firstn_length. assert (X : (j1 < length h)%nat) by (apply nth_error_Some; congruence). lia. }
      assert (Hq' : nth_error h (j1 + 1 + q) = Some ev).
      { assert (X : nth_error (firstn j2 h) (j1 + 1 + q) = Some ev).
        { rewrite E, nth_error_app2; rewrite app_length, HL; cbn [length]; [|lia]. replace (j1 + 1 + q - (j1 + 1))%nat with q by lia. exact Hq. }
        assert (Y : (j1 + 1 + q < length (firstn j2 h))%nat) by (apply nth_error_Some; congruence). rewrite firstn_length in Y.
        rewrite nth_firstn in X by lia. exact X. }
      split; [eapply (no_flush _ _ _ _ _ _ S), nth_error_In; exact Hq'|]. split.
      + destruct (opened fid ev) eqn:Eo; [|reflexivity]. exfalso.
        pose proof (split_at _ _ _ A3) as B6. unfold body in B6. rewrite A2 in B6.
        destruct (su_o _ _ _ _ _ S _ _ _ _ _ _ B6 ltac:(discriminate) ltac:(discriminate)) as (ev0 & C1 & C2).
        apply In_nth_error in C1. destruct C1 as (q0 & C1).
        assert (Y : (q0 < length (firstn j1 h))%nat) by (apply nth_error_Some; congruence). rewrite HL in Y. rewrite nth_firstn in C1 by lia.
        pose proof (one_open _ _ _ _ _ _ _ _ _ S C1 Hq' C2 Eo). lia.
      + destruct ev as [o ax]. pose proof (su_g _ _ _ _ _ S _ _ _ _ (split_at _ _ _ Hq')) as G.
        destruct o; try exact I. destruct ax; try exact I. destruct G as ((G & _) & _). exact G. }
  pose proof (seen_nonneg _ _ (always_prefix _ _ j1 (su_g _ _ _ _ _ S)) fid) as N.
  apply (rank_lt_inv hidden tr). destruct (Nat.lt_ge_cases (rank hidden tr pw1) (rank hidden tr pw2)) as [C|C]; [exact C|exfalso].
  destruct (firstn_le h _ _ C) as (M & EM). destruct (acc_prefix M (firstn (rank hidden tr pw2) h)) as (M' & EM').
  - apply Forall_forall. intros ev Hi. apply (no_flush _ _ _ _ _ ev S). rewrite <- (firstn_skipn (rank hidden tr pw1) h), EM.
    apply in_or_app. left. apply in_or_app. right. exact Hi.
  - rewrite <- EM in EM'. rewrite EM', app_length in A5. lia.
Qed.

Lemma choose : forall (P : nat -> nat -> Prop) (Q : nat -> Prop), (forall r, (exists k, P r k) \/ Q r) ->
  forall n, exists f : nat -> nat, forall r, (r < n)%nat -> P r (f r) \/ Q r.
Proof.
  intros P Q H. induction n as [|n (f & Hf)]; [exists (fun _ => O); intros r Hr; lia|].
  destruct (H n) as [(k & Hk)|Hq].
  - exists (fun r => if Nat.eqb r n then k else f r). intros r Hr. destruct (Nat.eqb_spec r n) as [->|Hn]; [auto|]. apply Hf. lia.
  - exists f. intros r Hr. destruct (Nat.eq_dec r n) as [->|Hn]; [auto|]. apply Hf. lia.
Qed.

Lemma src_facts : forall H tr h nm fid src, Setup H tr h nm fid ->
  (forall r, (r < length H)%nat -> (exists pe pw, Src H tr h fid r pe pw (src r)) \/
     (forall i t c b, call_at H i r t (CRead c) (OutData b) -> ra_fid c = fid -> notice b)) ->
  sourced H fid src.
Proof.
  intros H tr h nm fid src S Hs.
  assert (K : forall i r b, gets H fid i r b -> exists t c pe pw pi pr l, call_at H i r t (CRead c) (OutData b) /\ Src H tr h fid r pe pw (src r) /\
     nth_error tr pi = Some (Inv t (CRead c)) /\ rank seen tr pi = i /\ nth_error tr pr = Some (Res t (OutData b)) /\ rank seen tr pr = r /\
     (pi < pe < pr)%nat /\ only_effs tr t pi pr l /\ exists o x, nth_error tr pe = Some (Eff t o x)).
  { intros i r b (t & c & HC & Hf & Hn). assert (Hr : (r < length H)%nat) by (destruct HC as (_ & X & _); apply nth_error_Some; congruence).
    destruct (Hs r Hr) as [(pe & pw & X)|X]; [|exfalso; eapply Hn, X; eassumption].
    destruct (read_at _ _ _ _ _ _ _ _ _ _ S HC) as (pi & pr & l & F1 & F2 & F3 & F4 & F5 & F6 & F7 & _).
    exists t, c, pe, pw, pi, pr, l. split; [exact HC|]. split; [exact X|].
    destruct X as (t1 & c1 & b1 & pi1 & pr1 & l1 & v1 & e1 & u1 & w1 & p1 & x1 & A1 & A2 & A3 & A4 & A5 & A6 & _).
    assert (pr1 = pr) by (eapply (rank_inj seen tr); [exact A2|exact F3|reflexivity|reflexivity|congruence]). subst pr1.
    rewrite F3 in A2. injection A2 as <- <-. pose proof (same_call _ _ _ _ _ _ _ _ _ F7 A4 F1 A1 F5 ltac:(lia)). subst pi1.
    repeat (split; [assumption|]). eauto. }
  split; [|split].
  - intros i r b Hg. destruct (K _ _ _ Hg) as (t & c & pe & pw & pi & pr & l & HC & X & _ & _ & F3 & F4 & _).
    destruct X as (t1 & c1 & b1 & pi1 & pr1 & l1 & v1 & e1 & u1 & w1 & p1 & x1 & A1 & A2 & A3 & A4 & A5 & A6 & A7 & A8 & A9 & A10 & A11 & A12 & A13 & A14 & _).
    exists u1, w1. rewrite <- A13. split; [eapply inv_seen; eassumption|]. split.
    + rewrite <- A3. apply (rank_lt seen tr p1 pr1 _ ltac:(lia) A9 eq_refl).
    + assert (pr1 = pr) by (eapply (rank_inj seen tr); [exact A2|exact F3|reflexivity|reflexivity|congruence]). subst pr1.
      rewrite F3 in A2. injection A2 as <- <-. exact A14.
  - intros i1 r1 b1 i2 r2 b2 G1 G2 Hne. destruct (K _ _ _ G1) as (t1 & c1 & pe1 & pw1 & pi1 & pr1 & l1 & HC1 & X1 & A1 & A2 & A3 & A4 & A5 & A6 & o1 & x1 & A7).
    destruct (K _ _ _ G2) as (t2 & c2 & pe2 & pw2 & pi2 & pr2 & l2 & HC2 & X2 & B1 & B2 & B3 & B4 & B5 & B6 & o2 & x2 & B7).
    assert (W : pw1 <> pw2).
    { destruct (Nat.lt_trichotomy pe1 pe2) as [C|[C|C]].
      - pose proof (sources_order _ _ _ _ _ _ _ _ _ _ _ _ _ S X1 X2 C). lia.
      - exfalso. subst pe2. rewrite A7 in B7. injection B7 as <- _ _. destruct (Nat.lt_trichotomy pr1 pr2) as [D|[D|D]]; [| |].
        + destruct (B6 pr1 _ ltac:(lia) A3 eq_refl) as (? & Y & _). discriminate.
        + congruence.
        + destruct (A6 pr2 _ ltac:(lia) B3 eq_refl) as (? & Y & _). discriminate.
      - pose proof (sources_order _ _ _ _ _ _ _ _ _ _ _ _ _ S X2 X1 C). lia. }
    intros Ek.
    destruct X1 as (_ & _ & _ & _ & _ & _ & _ & _ & u1 & w1 & p1 & y1 & _ & _ & _ & _ & _ & _ & _ & _ & D1 & D2 & D3 & D4 & D5 & _).
    destruct X2 as (_ & _ & _ & _ & _ & _ & _ & _ & u2 & w2 & p2 & y2 & _ & _ & _ & _ & _ & _ & _ & _ & E1 & E2 & E3 & E4 & E5 & _).
    assert (p1 = p2) by (eapply (rank_inj seen tr); [exact D1|exact E1|reflexivity|reflexivity|congruence]). subst p2.
    rewrite D1 in E1. injection E1 as <- <-. destruct (Nat.lt_trichotomy pw1 pw2) as [C|[C|C]]; [|contradiction|].
    + destruct E4 as (l0 & E4 & M). destruct (E4 pw1 _ ltac:(lia) D2 eq_refl) as (z & Y & Z0). destruct (M z Z0) as (f & m & Ym). unfold eff in Y. rewrite Ym in Y. discriminate.
    + destruct D4 as (l0 & D4 & M). destruct (D4 pw2 _ ltac:(lia) E2 eq_refl) as (z & Y & Z0). destruct (M z Z0) as (f & m & Ym). unfold eff in Y. rewrite Ym in Y. discriminate.
  - intros i1 r1 b1 i2 r2 b2 G1 G2 Hlt. destruct (K _ _ _ G1) as (t1 & c1 & pe1 & pw1 & pi1 & pr1 & l1 & HC1 & X1 & A1 & A2 & A3 & A4 & A5 & A6 & o1 & x1 & A7).
    destruct (K _ _ _ G2) as (t2 & c2 & pe2 & pw2 & pi2 & pr2 & l2 & HC2 & X2 & B1 & B2 & B3 & B4 & B5 & B6 & o2 & x2 & B7).
    assert (pr1 < pi2)%nat by (apply (rank_lt_inv seen tr); lia).
    pose proof (sources_order _ _ _ _ _ _ _ _ _ _ _ _ _ S X1 X2 ltac:(lia)) as W.
    destruct X1 as (_ & _ & _ & _ & _ & _ & _ & _ & u1 & w1 & p1 & y1 & _ & _ & _ & _ & _ & _ & _ & _ & D1 & D2 & D3 & D4 & D5 & _).
    destruct X2 as (_ & _ & _ & _ & _ & _ & _ & _ & u2 & w2 & p2 & y2 & _ & _ & _ & _ & _ & _ & _ & _ & E1 & E2 & E3 & E4 & E5 & _).
    intros u w q y F1 F2 F3. rewrite <- E5 in F1. rewrite (inv_seen _ _ _ _ _ _ _ _ S E1) in F1. injection F1 as <- <-.
    rewrite <- (su_H _ _ _ _ _ S) in F2. destruct (nth_filter _ _ _ _ F2) as (pq & F4 & _ & F5).
    assert (p2 < pq)%nat by (apply (rank_lt_inv seen tr); lia).
    assert (pw2 <= pq)%nat.
    { destruct (Nat.lt_ge_cases pq pw2) as [C|C]; [|exact C]. destruct E4 as (l0 & E4 & M). destruct (E4 pq _ ltac:(lia) F4 eq_refl) as (z & Y & _). discriminate. }
    rewrite <- D5, <- F5. apply (rank_lt seen tr p1 pq _ ltac:(lia) D1 eq_refl).
Qed.

(** ** Nothing is skipped *)

Lemma eff_data : forall H tr h nm fid p t f v cn vl b, Setup H tr h nm fid -> nth_error tr p = Some (Eff t (OpReadBody f v cn vl) (OutData b)) ->
  exists p0 a l0, (p0 < p)%nat /\ nth_error tr p0 = Some (Inv t (CRead a)) /\ body a = OpReadBody f v cn vl /\ only_effs tr t p0 p l0 /\
    forall q b', In q l0 -> snd q <> OutData b'.
Proof.
  intros H tr h nm fid p t f v cn vl b S Hp. destruct (eff_at tr t p _ _ (su_x _ _ _ _ _ S t) Hp) as (p0 & c & l0 & l1 & y & A & B & C & D).
  assert (Ep : entry_point c = true).
  { apply (su_ep _ _ _ _ _ S t). apply nth_error_In with (rank seen tr p0). eapply inv_seen; eassumption. }
  assert (W : forall a l, waiting a l -> forall q b', In q l -> snd q <> OutData b').
  { induction 1; intros q b' Hq; [contradiction| |]; apply in_app_or in Hq; destruct Hq as [Hq|Hq]; auto.
    - destruct Hq as [<-|[]]; discriminate.
    - destruct Hq as [<-|[<-|[]]]; discriminate. }
  assert (V : forall f v l, polling f v l -> forall q, In q l -> fst q = OpPoll f v).
  { induction 1; intros q Hq; [contradiction|]. apply in_app_or in Hq. destruct Hq as [Hq|[<-|[]]]; auto. }
  assert (Q : exists a, c = CRead a /\ body a = OpReadBody f v cn vl /\ forall q b', In q l0 -> snd q <> OutData b').
  { remember (l0 ++ (OpReadBody f v cn vl, OutData b) :: l1) as ll eqn:El.
    assert (X : In (OpReadBody f v cn vl, OutData b) ll) by (rewrite El; apply in_or_app; right; left; reflexivity). destruct D.
    - destruct X.
    - destruct X as [X|[]]. discriminate.
    - destruct X as [X|[X|[X|[]]]]; discriminate.
    - exists c. split; [reflexivity|]. apply in_app_or in X. destruct X as [X|[X|[X|[]]]]; [exfalso; eapply W; [eassumption|exact X|reflexivity]|discriminate|].
      pose proof (f_equal fst X) as X1. pose proof (f_equal snd X) as X2. cbn [fst snd] in X1, X2. subst x. split; [exact X1|]. intros q b' Hq.
      destruct l1 as [|z l1] using rev_ind.
      + change [(check c, OutCont); (body c, OutData b)] with ([(check c, OutCont)] ++ [(body c, OutData b)]) in El. rewrite app_assoc in El.
        apply app_inj_tail in El. destruct El as [El _]. rewrite <- El in Hq. apply in_app_or in Hq. destruct Hq as [Hq|[<-|[]]]; [eapply W; eassumption|discriminate].
      + clear IHl1. exfalso. change [(check c, OutCont); (body c, OutData b)] with ([(check c, OutCont)] ++ [(body c, OutData b)]) in El. rewrite app_assoc in El.
        rewrite app_comm_cons, app_assoc in El. apply app_inj_tail in El. destruct El as [El _].
        assert (Y : In (OpReadBody f v cn vl, OutData b) (l ++ [(check c, OutCont)])) by (rewrite El; apply in_or_app; right; left; reflexivity).
        apply in_app_or in Y. destruct Y as [Y|[Y|[]]]; [eapply W; [eassumption|exact Y|reflexivity]|discriminate].
    - exfalso. apply in_app_or in X. destruct X as [X|[X|[]]]; [eapply W; [eassumption|exact X|reflexivity]|discriminate].
    - exfalso. apply in_app_or in X. destruct X as [X|[X|[]]]; [eapply W; [eassumption|exact X|reflexivity]|discriminate].
    - exfalso. apply in_app_or in X. destruct X as [X|[X|[]]]; [apply (V _ _ _ H0) in X; discriminate|discriminate].
    - exfalso. apply in_app_or in X. destruct X as [X|[X|[]]]; [apply (V _ _ _ H0) in X; discriminate|discriminate].
    - exfalso. destruct X as [X|[]]. injection X as -> ->. discriminate Ep. }
  destruct Q as (a & -> & Q1 & Q2). exists p0, a, l0. auto.
Qed.

(** In particular a call has one operation that gives data. *)
Lemma data_unique : forall H tr h nm fid pi t a pr l pe pe' f v cn vl b f' v' cn' vl' b', Setup H tr h nm fid ->
  nth_error tr pi = Some (Inv t (CRead a)) -> only_effs tr t pi pr l -> (pi < pe < pr)%nat -> (pi < pe' < pr)%nat ->
  nth_error tr pe = Some (Eff t (OpReadBody f v cn vl) (OutData b)) -> nth_error tr pe' = Some (Eff t (OpReadBody f' v' cn' vl') (OutData b')) -> pe = pe'.
Proof.
  assert (K : forall H tr h nm fid pi t a pr l pe pe' f v cn vl b f' v' cn' vl' b', Setup H tr h nm fid ->
    nth_error tr pi = Some (Inv t (CRead a)) -> only_effs tr t pi pr l -> (pi < pe < pr)%nat -> (pi < pe' < pr)%nat ->
    nth_error tr pe = Some (Eff t (OpReadBody f v cn vl) (OutData b)) -> nth_error tr pe' = Some (Eff t (OpReadBody f' v' cn' vl') (OutData b')) -> ~ (pe < pe')%nat).
  { intros H tr h nm fid pi t a pr l pe pe' f v cn vl b f' v' cn' vl' b' S A B C D E F G.
    destruct (eff_data _ _ _ _ _ _ _ _ _ _ _ _ S F) as (p0 & a0 & l0 & X1 & X2 & _ & X3 & X4).
    assert (p0 = pi).
    { destruct (Nat.lt_trichotomy p0 pi) as [Q|[Q|Q]]; [|exact Q|]; exfalso.
      - destruct (X3 pi _ ltac:(lia) A eq_refl) as (? & Y & _). discriminate.
      - destruct (B p0 _ ltac:(lia) X2 eq_refl) as (? & Y & _). discriminate. }
    subst p0. destruct (X3 pe _ ltac:(lia) E eq_refl) as ([o x] & Y & Z0). unfold eff in Y. cbn in Y. injection Y as <- <-. exact (X4 _ _ Z0 eq_refl). }
  intros H tr h nm fid pi t a pr l pe pe' f v cn vl b f' v' cn' vl' b' S A B C D E F.
  pose proof (K _ _ _ _ _ _ _ _ _ _ _ _ _ _ _ _ _ _ _ _ _ _ S A B C D E F). pose proof (K _ _ _ _ _ _ _ _ _ _ _ _ _ _ _ _ _ _ _ _ _ _ S A B D C F E). lia.
Qed.

Lemma seen_reach : forall h fid n, Forall (fun ev => flushes ev = false) h ->
  (forall u c v ver nm m next, ~ In (OpReadBody fid u c v, AReport ver nm m next) h) -> 0 <= n < m_seen (ledger_of h) fid ->
  exists j u c v ver e, nth_error h j = Some (OpReadBody fid u c v, AEntry ver e) /\ m_seen (ledger_of (firstn j h)) fid = n.
Proof.
  induction h as [|ev h IH] using rev_ind; intros fid n F Hr Hn; [cbn in Hn; lia|].
  apply Forall_app in F. destruct F as [F1 F2]. inversion F2 as [|? ? Hf _]; subst.
  assert (Hr' : forall u c v ver nm m next, ~ In (OpReadBody fid u c v, AReport ver nm m next) h).
  { intros u c v ver nm m next Hi. eapply Hr. apply in_or_app. left. exact Hi. }
  assert (K : 0 <= n < m_seen (ledger_of h) fid -> exists j u c v ver e, nth_error (h ++ [ev]) j = Some (OpReadBody fid u c v, AEntry ver e) /\ m_seen (ledger_of (firstn j (h ++ [ev]))) fid = n).
  { intros Hn'. destruct (IH fid n F1 Hr' Hn') as (j & u & c & v & ver & e & A & B).
    assert (j < length h)%nat by (apply nth_error_Some; congruence). exists j, u, c, v, ver, e. rewrite nth_error_app1 by lia.
    split; [exact A|]. rewrite firstn_app. replace (j - length h)%nat with O by lia. cbn [firstn]. rewrite app_nil_r. exact B. }
  rewrite ledger_snoc in Hn. destruct ev as [o x]. destruct o; cbn [record] in Hn; try (apply K; exact Hn).
  - destruct x; cbn [m_seen] in Hn; try (apply K; exact Hn). unfold set in Hn. destruct (fid =? fid0); [lia|apply K; exact Hn].
  - destruct x; cbn [m_seen] in Hn; try (apply K; exact Hn); unfold set in Hn; destruct (fid =? fid0) eqn:E; try (apply K; exact Hn).
    + assert (fid0 = fid) by lia. subst fid0. destruct (Z.eq_dec n (m_seen (ledger_of h) fid)) as [->|Hne]; [|apply K; lia].
      exists (length h), euid, count, valid, ver, e. rewrite nth_error_app2, Nat.sub_diag by lia. split; [reflexivity|].
      rewrite firstn_app, Nat.sub_diag, firstn_all. cbn [firstn]. rewrite app_nil_r. reflexivity.
    + exfalso. assert (fid0 = fid) by lia. subst fid0. eapply Hr. apply in_or_app. right. left. reflexivity.
  - destruct x; cbn [m_seen] in Hn; try (apply K; exact Hn). destruct (_ =? 0); cbn [m_seen] in Hn; apply K; exact Hn.
  - destruct c; try (apply K; exact Hn); [destruct x; try (apply K; exact Hn); discriminate Hf|].
    destruct arg; destruct x; cbn [m_seen] in Hn; apply K; exact Hn.
Qed.

(** An operation that gave data is that of a read that has returned it. *)
Lemma data_returned : forall H tr h nm fid p t v cn vl b, Setup H tr h nm fid -> reads_returned H fid ->
  nth_error tr p = Some (Eff t (OpReadBody fid v cn vl) (OutData b)) ->
  exists i r a pi pr l, call_at H i r t (CRead a) (OutData b) /\ ra_fid a = fid /\ nth_error tr pi = Some (Inv t (CRead a)) /\
    nth_error tr pr = Some (Res t (OutData b)) /\ rank seen tr pr = r /\ only_effs tr t pi pr l /\ (pi < p < pr)%nat.
Proof.
  intros H tr h nm fid p t v cn vl b S HR Hp.
  destruct (eff_data _ _ _ _ _ _ _ _ _ _ _ _ S Hp) as (p0 & a & l0 & A1 & A2 & A3 & A4 & A5).
  assert (Hf : ra_fid a = fid) by (unfold body in A3; congruence).
  destruct (HR _ _ _ (inv_seen _ _ _ _ _ _ _ _ S A2) Hf) as (r & x & HC).
  destruct (read_at _ _ _ _ _ _ _ _ _ _ S HC) as (pi & pr & l & F1 & F2 & F3 & F4 & F5 & F6 & F7 & _).
  assert (pi = p0) by (eapply (rank_inj seen tr); [exact F1|exact A2|reflexivity|reflexivity|congruence]). subst pi.
  assert (p < pr)%nat.
  { destruct (Nat.lt_trichotomy p pr) as [C|[C|C]]; [exact C| |]; exfalso.
    - subst. rewrite Hp in F3. discriminate.
    - destruct (A4 pr _ ltac:(lia) F3 eq_refl) as (? & Y & _). discriminate. }
  assert (x = OutData b).
  { destruct (F7 p _ ltac:(lia) Hp eq_refl) as ([o y] & Y & Hi). unfold eff in Y. cbn in Y. injection Y as <- <-.
    assert (W : forall a l, waiting a l -> forall q b', In q l -> snd q <> OutData b').
    { induction 1; intros q b' Hq; [contradiction| |]; apply in_app_or in Hq; destruct Hq as [Hq|Hq]; auto.
      - destruct Hq as [<-|[]]; discriminate.
      - destruct Hq as [<-|[<-|[]]]; discriminate. }
    inversion F6; subst.
    - contradiction.
    - apply in_app_or in Hi. destruct Hi as [Hi|[Hi|[Hi|[]]]]; [exfalso; eapply W; [eassumption|exact Hi|reflexivity]|discriminate|congruence].
    - apply in_app_or in Hi. destruct Hi as [Hi|[Hi|[]]]; [exfalso; eapply W; [eassumption|exact Hi|reflexivity]|discriminate].
    - apply in_app_or in Hi. destruct Hi as [Hi|[Hi|[]]]; [exfalso; eapply W; [eassumption|exact Hi|reflexivity]|discriminate]. }
  subst x. exists (rank seen tr p0), r, a, p0, pr, l. repeat (split; [assumption|]). lia.
Qed.

Lemma gaps : forall H tr h nm fid src, Setup H tr h nm fid ->
  (forall r, (r < length H)%nat -> (exists pe pw, Src H tr h fid r pe pw (src r)) \/
     (forall i t c b, call_at H i r t (CRead c) (OutData b) -> ra_fid c = fid -> notice b)) ->
  reads_returned H fid -> no_notice H fid -> gapless H fid src.
Proof.
  intros H tr h nm fid src S Hs HR HN i r b k q u w v Hg Hw Hne Hlt.
  assert (Hr : (r < length H)%nat) by (destruct Hg as (t & c & (_ & X & _) & _); apply nth_error_Some; congruence).
  destruct (Hs r Hr) as [(pe & pw & X)|X]; [|exfalso; destruct Hg as (t & c & HC & Hf & Hn); eapply Hn, X; eassumption].
  destruct X as (t1 & c1 & b1 & pi1 & pr1 & l1 & v1 & e1 & u1 & w1 & p1 & x1 & _ & _ & _ & _ & _ & A6 & A7 & A8 & A9 & A10 & A11 & A12 & A13 & _ & A15 & A16).
  destruct (read_at _ _ _ _ _ _ _ _ _ _ S Hw) as (pi & pr & l & F1 & F2 & F3 & F4 & F5 & F6 & F7 & F8).
  assert (El : In (wop w, OutVal v) l) by (inversion F6; cbn [In]; auto).
  destruct (F8 _ El) as (pW & G1 & G2). unfold eff in G2. cbn [fst snd] in G2.
  destruct (hidden_nth _ _ _ _ _ _ _ _ _ S G2) as (ax & G3 & G4).
  assert (pr < p1)%nat by (apply (rank_lt_inv seen tr); lia).
  assert (Hj : (rank hidden tr pW < rank hidden tr pw)%nat) by (apply (rank_lt hidden tr pW pw _ ltac:(lia) G2 eq_refl)).
  assert (NF : forall n, Forall (fun ev => flushes ev = false) (firstn n h)).
  { intros n. apply Forall_forall. intros ev Hi. apply (no_flush _ _ _ _ _ ev S). rewrite <- (firstn_skipn n h). apply in_or_app. left. exact Hi. }
  assert (GR : length (m_acc (ledger_of (firstn (Datatypes.S (rank hidden tr pW)) h))) = Datatypes.S (length (m_acc (ledger_of (firstn (rank hidden tr pW) h))))).
  { rewrite (firstn_step _ _ _ G3), ledger_snoc. destruct ax; try discriminate G4. unfold wop. cbn [record].
    pose proof (Hne (m_raw (ledger_of (firstn (rank hidden tr pW) h)) (wa_fid w))) as Hp.
    destruct (zlen _ =? 0) eqn:Ez.
    - exfalso. apply Hp. destruct (e_payload _); [reflexivity|]. unfold zlen in Ez. cbn [length] in Ez. lia.
    - cbn [m_acc]. rewrite app_length. cbn [length]. lia. }
  assert (MONO : forall a c, (a <= c)%nat -> (length (m_acc (ledger_of (firstn a h))) <= length (m_acc (ledger_of (firstn c h))))%nat).
  { intros a c Hac. destruct (firstn_le h a c Hac) as (M & EM). destruct (acc_prefix M (firstn a h)) as (M' & EM').
    - pose proof (NF c) as Q. rewrite EM in Q. apply Forall_app in Q. apply Q.
    - rewrite EM, EM', app_length. lia. }
  set (n := Z.of_nat (length (m_acc (ledger_of (firstn (rank hidden tr pW) h))))).
  assert (Hn : 0 <= n < m_seen (ledger_of (firstn (rank hidden tr pe) h)) fid).
  { pose proof (MONO (Datatypes.S (rank hidden tr pW)) (rank hidden tr pw) ltac:(lia)). unfold n. lia. }
  destruct (seen_reach (firstn (rank hidden tr pe) h) fid n (NF _)) as (j & uu & cc & vv & ver & e & B1 & B2); [|exact Hn|].
  { intros uu cc vv ver nm0 m next Hi.
    assert (Hi' : In (OpReadBody fid uu cc vv, AReport ver nm0 m next) h) by (rewrite <- (firstn_skipn (rank hidden tr pe) h); apply in_or_app; left; exact Hi).
    apply In_nth_error in Hi'. destruct Hi' as (jj & Hjj). destruct (nth_hidden _ _ _ _ _ _ _ _ S Hjj) as (pp & tt & K1 & _).
    destruct (data_returned _ _ _ _ _ _ _ _ _ _ _ S HR K1) as (i' & r' & a' & _ & _ & _ & K2 & K3 & _). apply (HN _ _ _ _ _ K2 K3).
    pose proof (su_g _ _ _ _ _ S _ _ _ _ (split_at _ _ _ Hjj)) as ((Gd & _) & _).
    exists ver, nm0, m, next. split; [exact Gd|reflexivity]. }
  assert (Hjj : (j < rank hidden tr pe)%nat).
  { assert (Y : (j < length (firstn (rank hidden tr pe) h))%nat) by (apply nth_error_Some; congruence). rewrite firstn_length in Y. lia. }
  rewrite nth_firstn in B1 by lia. rewrite firstn_firstn in B2. replace (Nat.min j (rank hidden tr pe)) with j in B2 by lia.
  destruct (nth_hidden _ _ _ _ _ _ _ _ S B1) as (pe' & t' & K1 & K2).
  destruct (data_returned _ _ _ _ _ _ _ _ _ _ _ S HR K1) as (i' & r' & a' & pi' & pr' & l' & L1 & L2 & L3 & L4 & L5 & L6 & L7).
  assert (Hg' : gets H fid i' r' (enc ver e)) by (exists t', a'; split; [exact L1|]; split; [exact L2|]; eapply HN; eassumption).
  exists i', r', (enc ver e). split; [exact Hg'|].
  assert (Hr' : (r' < length H)%nat) by (destruct L1 as (_ & Y & _); apply nth_error_Some; congruence).
  destruct (Hs r' Hr') as [(pe2 & pw2 & X)|X]; [|exfalso; eapply (HN _ _ _ _ _ L1 L2), X; eassumption].
  destruct X as (t2 & c2 & b2 & pi2 & pr2 & l2 & v2 & e2 & u2 & w2 & p2 & x2 & C1 & C2 & C3 & C4 & C5 & C6 & C7 & C8 & C9 & C10 & C11 & C12 & C13 & _ & C15 & C16).
  assert (pr2 = pr') by (eapply (rank_inj seen tr); [exact C2|exact L4|reflexivity|reflexivity|congruence]). subst pr2.
  rewrite L4 in C2. injection C2 as <- <-.
  pose proof (same_call _ _ _ _ _ _ _ _ _ C4 L6 C1 L3 ltac:(lia) ltac:(lia)). subst pi2.
  assert (pe2 = pe') by (unfold body in C6; eapply (data_unique _ _ _ _ _ _ _ _ _ _ _ _ _ _ _ _ _ _ _ _ _ _ S L3 L6 C5 L7 C6 K1)). subst pe2.
  rewrite K2, B2 in C15, C16. unfold n in C15, C16. rewrite Nat2Z.id in C15, C16.
  assert (Ew : rank hidden tr pw2 = rank hidden tr pW).
  { destruct (Nat.lt_trichotomy (rank hidden tr pw2) (rank hidden tr pW)) as [Q|[Q|Q]]; [|exact Q|]; exfalso.
    - pose proof (MONO (Datatypes.S (rank hidden tr pw2)) (rank hidden tr pW) ltac:(lia)). lia.
    - pose proof (MONO (Datatypes.S (rank hidden tr pW)) (rank hidden tr pw2) ltac:(lia)). lia. }
  pose proof (rank_inj hidden tr _ _ _ _ C10 G2 eq_refl eq_refl Ew). subst pw2. rewrite C10 in G2. injection G2 as -> _ _.
  assert (p2 = pi).
  { destruct C12 as (l0 & C12 & _). apply (same_call tr u p2 pi pW l0 l (CWrite w2) (CWrite w) C12); [|exact C9|exact F1|lia|lia].
    intros q0 y Hq0. apply F7. lia. }
  subst p2. congruence.
Qed.
