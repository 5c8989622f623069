From Coq Require Import List Bool Arith Permutation Lia.
From Verif Require Import Bytes DList DListSpec.
Import ListNotations.

Lemma linked_app h l1 : forall a x l2 b, linked h a (l1 ++ x :: l2) b <-> linked h a l1 x /\ linked h x l2 b.
Proof.
  induction l1 as [|y l1 IH]; intros a x l2 b; cbn; [tauto|]. rewrite IH. tauto.
Qed.
Lemma linked_ext h h' l : forall a b, (forall y, In y (a :: l) -> nxt h' y = nxt h y) ->
  (forall y, In y (l ++ [b]) -> prv h' y = prv h y) -> linked h a l b -> linked h' a l b.
Proof.
  induction l as [|x l IH]; intros a b Hn Hp; cbn.
  - intros [H1 H2]. rewrite Hn, Hp by (cbn; auto). auto.
  - intros (H1 & H2 & H3). rewrite Hn, Hp by (cbn; auto). split; [exact H1|]. split; [exact H2|].
    apply IH; auto; intros y Hy; [apply Hn|apply Hp]; cbn in *; tauto.
Qed.

Lemma nxt_some h x n : nxt h x = Some n -> exists p, h x = Some (n, p).
Proof. unfold nxt. destruct (h x) as [[a b]|]; cbn; intros E; [injection E as ->; eauto|discriminate]. Qed.
Lemma prv_some h x p : prv h x = Some p -> exists n, h x = Some (n, p).
Proof. unfold prv. destruct (h x) as [[a b]|]; cbn; intros E; [injection E as ->; eauto|discriminate]. Qed.
Lemma upd_same h x v : upd h x v x = v.
Proof. unfold upd. now rewrite Nat.eqb_refl. Qed.
Lemma upd_other h x v y : y <> x -> upd h x v y = h y.
Proof. intros H. unfold upd. destruct (Nat.eqb_spec y x); [contradiction|reflexivity]. Qed.

Lemma set_next_ok h x v q : h x = Some q -> exists h', set_next h x v = Ok h' /\
  (forall y, nxt h' y = if y =? x then Some v else nxt h y) /\ (forall y, prv h' y = prv h y).
Proof.
  intros E. unfold set_next. rewrite E. destruct q as [a b]. eexists. split; [reflexivity|].
  split; intros y; unfold nxt, prv, upd; destruct (Nat.eqb_spec y x) as [->|]; auto. now rewrite E.
Qed.
Lemma set_prev_ok h x v q : h x = Some q -> exists h', set_prev h x v = Ok h' /\
  (forall y, nxt h' y = nxt h y) /\ (forall y, prv h' y = if y =? x then Some v else prv h y).
Proof.
  intros E. unfold set_prev. rewrite E. destruct q as [a b]. eexists. split; [reflexivity|].
  split; intros y; unfold nxt, prv, upd; destruct (Nat.eqb_spec y x) as [->|]; auto. now rewrite E.
Qed.
Lemma get_next_ok h x n : nxt h x = Some n -> get_next h x = Ok n.
Proof. intros E. apply nxt_some in E. destruct E as [p E]. unfold get_next. now rewrite E. Qed.
Lemma get_prev_ok h x n : prv h x = Some n -> get_prev h x = Ok n.
Proof. intros E. apply prv_some in E. destruct E as [p E]. unfold get_prev. now rewrite E. Qed.
Lemma live_nxt h x n : nxt h x = Some n -> exists q, h x = Some q.
Proof. intros E. apply nxt_some in E. destruct E; eauto. Qed.
Lemma live_prv h x n : prv h x = Some n -> exists q, h x = Some q.
Proof. intros E. apply prv_some in E. destruct E; eauto. Qed.

(** What list_remove changes. *)
Lemma remove_effect h x n p qn qp : nxt h x = Some n -> prv h x = Some p -> h n = Some qn -> h p = Some qp ->
  exists h', list_remove h x = Ok h' /\
    (forall y, nxt h' y = if y =? p then Some n else nxt h y) /\
    (forall y, prv h' y = if y =? n then Some p else prv h y).
Proof.
  intros Hn Hp En Ep. unfold list_remove. rewrite (get_next_ok _ _ _ Hn), (get_prev_ok _ _ _ Hp). cbn [bind].
  destruct (set_prev_ok h n p qn En) as (h1 & -> & N1 & P1). cbn [bind].
  assert (Hp1 : prv h1 x = Some p) by (rewrite P1; destruct (x =? n); auto).
  assert (Hn1 : nxt h1 x = Some n) by (now rewrite N1).
  rewrite (get_prev_ok _ _ _ Hp1), (get_next_ok _ _ _ Hn1). cbn [bind].
  assert (Ep1 : exists q, h1 p = Some q).
  { pose proof (N1 p) as Z. unfold nxt in Z. rewrite Ep in Z. destruct (h1 p); [eauto|]. discriminate. }
  destruct Ep1 as [q Ep1]. destruct (set_next_ok h1 p n q Ep1) as (h2 & -> & N2 & P2).
  exists h2. split; [reflexivity|]. split; intros y.
  - rewrite N2, N1. reflexivity.
  - rewrite P2, P1. reflexivity.
Qed.

(** The neighbours of a node in a list. *)
Lemma linked_pred h a l x : linked h a l x -> exists p, prv h x = Some p /\ nxt h p = Some x /\ In p (a :: l).
Proof.
  destruct (list_eq_dec Nat.eq_dec l []) as [->|Hl].
  - cbn. intros [H1 H2]. exists a. auto.
  - destruct (exists_last Hl) as (l' & p & ->). rewrite linked_app. cbn. intros (_ & H1 & H2).
    exists p. split; [auto|]. split; [auto|]. right. apply in_or_app. right. now left.
Qed.
Lemma linked_succ h x l b : linked h x l b -> exists n, nxt h x = Some n /\ prv h n = Some x /\ In n (l ++ [b]).
Proof. destruct l as [|y l]; cbn; intros H; [exists b|exists y]; tauto. Qed.

Lemma remove_ok h hd l1 x l2 : holds h hd (l1 ++ x :: l2) ->
  exists h' n p, list_remove h x = Ok h' /\ holds h' hd (l1 ++ l2) /\
    nxt h x = Some n /\ prv h x = Some p /\ In n (hd :: l1 ++ l2) /\ In p (hd :: l1 ++ l2) /\
    (forall y, nxt h' y = if y =? p then Some n else nxt h y) /\
    (forall y, prv h' y = if y =? n then Some p else prv h y).
Proof.
  intros [L ND]. apply linked_app in L. destruct L as [L1 L2].
  destruct (linked_pred _ _ _ _ L1) as (p & Hp & Hpx & Ip).
  destruct (linked_succ _ _ _ _ L2) as (n & Hn & Hnx & In_).
  destruct (live_prv _ _ _ Hnx) as [qn Eqn]. destruct (live_nxt _ _ _ Hpx) as [qp Eqp].
  destruct (remove_effect h x n p qn qp Hn Hp Eqn Eqp) as (h' & E & N & P).
  exists h', n, p. split; [exact E|].
  assert (ND2 : NoDup (hd :: l1 ++ l2)).
  { rewrite app_comm_cons in *. now apply NoDup_remove_1 in ND. }
  assert (Hx : ~ In x (hd :: l1 ++ l2)).
  { rewrite app_comm_cons in *. now apply NoDup_remove_2 in ND. }
  split; [split; [|exact ND2]|].
  2: { split; [exact Hn|]. split; [exact Hp|]. split; [|split; [|auto]].
       - apply in_app_or in In_. cbn in *. rewrite in_app_iff. destruct In_ as [|[|[]]]; auto.
       - cbn in *. rewrite in_app_iff. tauto. }
  (* the new chain *)
  destruct (list_eq_dec Nat.eq_dec l1 []) as [->|Hl1].
  - cbn in L1. destruct L1 as [A1 A2]. assert (p = hd) by congruence. subst p. cbn [app] in *.
    destruct l2 as [|y l2]; cbn in L2.
    + destruct L2 as [B1 B2]. assert (n = hd) by congruence. subst n. cbn. rewrite N, P, Nat.eqb_refl. auto.
    + destruct L2 as (B1 & B2 & B3). assert (n = y) by congruence. subst n. cbn. rewrite N, P, !Nat.eqb_refl.
      split; [reflexivity|]. split; [reflexivity|]. inversion ND2 as [|? ? C1 C2]; subst. inversion C2 as [|? ? C3 C4]; subst.
      apply (linked_ext h); auto.
      * intros z Hz. rewrite N. destruct (Nat.eqb_spec z hd) as [->|]; auto. contradiction.
      * intros z Hz. rewrite P. destruct (Nat.eqb_spec z y) as [->|]; auto. exfalso.
        apply in_app_or in Hz. destruct Hz as [Hz|[Hz|[]]]; [contradiction|]. subst. apply C1. now left.
  - destruct (exists_last Hl1) as (l1' & p' & ->). apply linked_app in L1. destruct L1 as [L1 [A1 A2]].
    assert (p' = p) by congruence. subst p'. rewrite <- app_assoc in *. cbn [app] in *.
    apply linked_app.
    assert (NDp : NoDup (p :: hd :: l1' ++ l2)).
    { apply (Permutation_NoDup (l := hd :: l1' ++ p :: l2)); [|exact ND2].
      rewrite app_comm_cons. symmetry. apply (Permutation_middle (hd :: l1')). }
    inversion NDp as [|? ? D1 D2]; subst.
    destruct l2 as [|y l2]; cbn in L2.
    + destruct L2 as [B1 B2]. assert (n = hd) by congruence. subst n. rewrite app_nil_r in *. split.
      * apply (linked_ext h); auto.
        -- intros z Hz. rewrite N. destruct (Nat.eqb_spec z p) as [->|]; auto. contradiction.
        -- intros z Hz. rewrite P. destruct (Nat.eqb_spec z hd) as [->|]; auto. exfalso.
           inversion ND2 as [|? ? F1 F2]; subst. apply F1. exact Hz.
      * cbn. now rewrite N, P, !Nat.eqb_refl.
    + destruct L2 as (B1 & B2 & B3). assert (n = y) by congruence. subst n.
      assert (NDy : NoDup (y :: p :: hd :: l1' ++ l2)).
      { apply (Permutation_NoDup (l := p :: hd :: l1' ++ y :: l2)); [|exact NDp].
        rewrite !app_comm_cons. symmetry. apply (Permutation_middle (p :: hd :: l1')). }
      inversion NDy as [|? ? G1 G2]; subst. split.
      * apply (linked_ext h); auto.
        -- intros z Hz. rewrite N. destruct (Nat.eqb_spec z p) as [->|]; auto. exfalso. apply D1.
           cbn in *. rewrite in_app_iff. tauto.
        -- intros z Hz. rewrite P. destruct (Nat.eqb_spec z y) as [->|]; auto. exfalso. apply G1.
           apply in_app_or in Hz. cbn in *. rewrite in_app_iff. destruct Hz as [|[|[]]]; auto.
      * cbn. rewrite N, P, !Nat.eqb_refl. split; [reflexivity|]. split; [reflexivity|].
        apply (linked_ext h); auto.
        -- intros z Hz. rewrite N. destruct (Nat.eqb_spec z p) as [->|]; auto. exfalso. apply D1.
           cbn in *. rewrite in_app_iff. cbn. tauto.
        -- intros z Hz. rewrite P. destruct (Nat.eqb_spec z y) as [->|]; auto. exfalso. apply G1.
           apply in_app_or in Hz. cbn in *. rewrite in_app_iff. destruct Hz as [|[|[]]]; auto.
Qed.

(** A list whose nodes are not touched. *)
Lemma holds_ext h h' hd l : (forall y, In y (hd :: l) -> nxt h' y = nxt h y /\ prv h' y = prv h y) ->
  holds h hd l -> holds h' hd l.
Proof.
  intros H [L ND]. split; [|exact ND]. apply (linked_ext h); auto.
  - intros y Hy. now apply H.
  - intros y Hy. apply H. apply in_app_or in Hy. cbn in *. tauto.
Qed.

Lemma add_ok h hd l x q : holds h hd l -> ~ In x (hd :: l) -> h x = Some q ->
  exists h' t, list_add_tail h hd x = Ok h' /\ holds h' hd (l ++ [x]) /\ In t (hd :: l) /\
    (forall y, nxt h' y = if y =? t then Some x else if y =? x then Some hd else nxt h y) /\
    (forall y, prv h' y = if y =? hd then Some x else if y =? x then Some t else prv h y).
Proof.
  intros [L ND] Hx Eq. destruct (linked_pred _ _ _ _ L) as (t & Ht & Htn & It).
  assert (Hxh : x <> hd) by (intros ->; apply Hx; now left).
  assert (Hxt : x <> t) by (intros ->; auto).
  unfold list_add_tail. destruct (set_next_ok h x hd q Eq) as (h1 & -> & N1 & P1). cbn [bind].
  assert (T1 : prv h1 hd = Some t) by (now rewrite P1). rewrite (get_prev_ok _ _ _ T1). cbn [bind].
  assert (X1 : nxt h1 x = Some hd) by (now rewrite N1, Nat.eqb_refl).
  destruct (live_nxt _ _ _ X1) as [q1 Eq1]. destruct (set_prev_ok h1 x t q1 Eq1) as (h2 & -> & N2 & P2). cbn [bind].
  assert (T2 : prv h2 hd = Some t) by (rewrite P2; destruct (Nat.eqb_spec hd x); [congruence|exact T1]).
  rewrite (get_prev_ok _ _ _ T2). cbn [bind].
  assert (X2 : nxt h2 t = Some hd) by (rewrite N2, N1; destruct (Nat.eqb_spec t x); [congruence|exact Htn]).
  destruct (live_nxt _ _ _ X2) as [q2 Eq2]. destruct (set_next_ok h2 t x q2 Eq2) as (h3 & -> & N3 & P3). cbn [bind].
  assert (T3 : prv h3 hd = Some t) by (now rewrite P3). destruct (live_prv _ _ _ T3) as [q3 Eq3].
  destruct (set_prev_ok h3 hd x q3 Eq3) as (h4 & -> & N4 & P4).
  assert (N : forall y, nxt h4 y = if y =? t then Some x else if y =? x then Some hd else nxt h y).
  { intros y. rewrite N4, N3, N2, N1. reflexivity. }
  assert (P : forall y, prv h4 y = if y =? hd then Some x else if y =? x then Some t else prv h y).
  { intros y. rewrite P4, P3, P2, P1. reflexivity. }
  exists h4, t. split; [reflexivity|]. split; [|auto]. split.
  - apply linked_app. split.
    + destruct (list_eq_dec Nat.eq_dec l []) as [->|Hl].
      * cbn in *. destruct L as [L1 L2]. assert (t = hd) by congruence. subst t.
        rewrite N, P, Nat.eqb_refl. destruct (Nat.eqb_spec x hd); [congruence|]. rewrite Nat.eqb_refl. auto.
      * destruct (exists_last Hl) as (l' & t' & ->). apply linked_app in L. destruct L as [L [L1 L2]].
        assert (t' = t) by congruence. subst t'. apply linked_app. split.
        -- assert (D : ~ In t (hd :: l')).
           { inversion ND as [|? ? D1 D2]; subst. apply NoDup_remove_2 in D2. rewrite app_nil_r in D2.
             intros [->|X]; [apply D1; apply in_or_app; right; now left|contradiction]. }
           apply (linked_ext h); auto.
           ++ intros z Hz. rewrite N. destruct (Nat.eqb_spec z t) as [->|]; [contradiction|].
              destruct (Nat.eqb_spec z x) as [->|]; auto. exfalso. apply Hx. cbn in *. rewrite in_app_iff. tauto.
           ++ intros z Hz. rewrite P. destruct (Nat.eqb_spec z hd) as [->|].
              ** exfalso. inversion ND as [|? ? D1 D2]; subst. apply D1. exact Hz.
              ** destruct (Nat.eqb_spec z x) as [->|]; auto. exfalso. apply Hx. right. exact Hz.
        -- cbn. rewrite N, P, Nat.eqb_refl. destruct (Nat.eqb_spec x hd); [congruence|]. rewrite ?Nat.eqb_refl; auto.
    + cbn. rewrite N, P, !Nat.eqb_refl. destruct (Nat.eqb_spec x t); [congruence|]. rewrite ?Nat.eqb_refl; auto.
  - rewrite app_comm_cons. apply (Permutation_NoDup (l := x :: hd :: l)).
    + apply (Permutation_cons_append (hd :: l)).
    + now constructor.
Qed.

(** Iteration. *)
Lemma visit_ok h hd l : forall fuel a, linked h a l hd -> ~ In hd l -> (length l < fuel)%nat ->
  forall n, nxt h a = Some n -> visit fuel (get_next h) hd n = Ok l.
Proof.
  induction l as [|x l IH]; intros fuel a L H Hf n Hn; (destruct fuel as [|f]; [lia|]); cbn in L.
  - destruct L as [L _]. assert (n = hd) by congruence. subst. cbn. rewrite ?Nat.eqb_refl; auto.
  - destruct L as (L1 & L2 & L3). assert (n = x) by congruence. subst. cbn [visit].
    destruct (Nat.eqb_spec x hd) as [->|]; [exfalso; apply H; now left|].
    destruct (linked_succ _ _ _ _ L3) as (m & Hm & _ & _). rewrite (get_next_ok _ _ _ Hm). cbn [bind].
    cbn in Hf. rewrite (IH f x L3 ltac:(cbn in H; tauto) ltac:(lia) m Hm). reflexivity.
Qed.
(** The reversed chain. *)
Fixpoint rlinked (h : heap) (a : nat) (l : list nat) (b : nat) : Prop :=
  match l with
  | [] => prv h a = Some b /\ nxt h b = Some a
  | x :: r => prv h a = Some x /\ nxt h x = Some a /\ rlinked h x r b
  end.
Lemma rlinked_app h l1 : forall a x l2 b, rlinked h a (l1 ++ x :: l2) b <-> rlinked h a l1 x /\ rlinked h x l2 b.
Proof. induction l1 as [|y l1 IH]; intros a x l2 b; cbn; [tauto|]. rewrite IH. tauto. Qed.
Lemma linked_rev h l : forall a b, linked h a l b -> rlinked h b (rev l) a.
Proof.
  induction l as [|x l IH]; intros a b; cbn; [tauto|]. intros (H1 & H2 & H3).
  apply rlinked_app. cbn. auto.
Qed.
Lemma rvisit_ok h hd l : forall fuel a, rlinked h a l hd -> ~ In hd l -> (length l < fuel)%nat ->
  forall n, prv h a = Some n -> visit fuel (get_prev h) hd n = Ok l.
Proof.
  induction l as [|x l IH]; intros fuel a L H Hf n Hn; (destruct fuel as [|f]; [lia|]); cbn in L.
  - destruct L as [L _]. assert (n = hd) by congruence. subst. cbn. rewrite ?Nat.eqb_refl; auto.
  - destruct L as (L1 & L2 & L3). assert (n = x) by congruence. subst. cbn [visit].
    destruct (Nat.eqb_spec x hd) as [->|]; [exfalso; apply H; now left|].
    assert (Hm : exists m, prv h x = Some m) by (destruct l as [|z l]; cbn in L3; [exists hd|exists z]; tauto).
    destruct Hm as [m Hm]. rewrite (get_prev_ok _ _ _ Hm). cbn [bind].
    cbn in Hf. rewrite (IH f x L3 ltac:(cbn in H; tauto) ltac:(lia) m Hm). reflexivity.
Qed.

(** Destroying all devices. *)
Lemma close_ok hd : forall l h fuel, holds h hd l -> (length l < fuel)%nat ->
  exists h', close_devices fuel h hd = Ok (h', l) /\ holds h' hd [] /\ (forall x, In x l -> h' x = None) /\
    (forall x, ~ In x (hd :: l) -> h' x = h x).
Proof.
  induction l as [|x l IH]; intros h fuel H Hf; (destruct fuel as [|f]; [lia|]); cbn [close_devices].
  - pose proof H as [[L1 L2] _]. unfold list_empty. rewrite (get_next_ok _ _ _ L1). cbn [bind]. rewrite Nat.eqb_refl.
    exists h. split; [reflexivity|]. split; [exact H|]. split; [intros ? []|auto].
  - pose proof H as [(L1 & L2 & L3) ND]. unfold list_empty, list_head. rewrite (get_next_ok _ _ _ L1). cbn [bind].
    destruct (Nat.eqb_spec x hd) as [->|Hx]; [exfalso; inversion ND; subst; cbn in *; tauto|].
    destruct (remove_ok h hd [] x l H) as (h1 & n & p & -> & H1 & Hn & Hp & In_ & Ip & N & P). cbn [bind app] in *.
    assert (Xn : x <> n /\ x <> p).
    { inversion ND as [|? ? D1 D2]; subst. inversion D2 as [|? ? D3 D4]; subst.
      split; intros <-; cbn in *; intuition congruence. }
    assert (Hn1 : nxt h1 x = Some n) by (rewrite N; destruct (Nat.eqb_spec x p); [tauto|exact Hn]).
    assert (Hp1 : prv h1 x = Some p) by (rewrite P; destruct (Nat.eqb_spec x n); [tauto|exact Hp]).
    assert (An : nxt h1 p = Some n) by (now rewrite N, Nat.eqb_refl).
    assert (Ap : prv h1 n = Some p) by (now rewrite P, Nat.eqb_refl).
    destruct (live_prv _ _ _ Ap) as [qn Eqn]. destruct (live_nxt _ _ _ An) as [qp Eqp].
    destruct (remove_effect h1 x n p qn qp Hn1 Hp1 Eqn Eqp) as (h2 & -> & N2 & P2). cbn [bind].
    assert (H2 : holds h2 hd l).
    { apply (holds_ext h1); auto. intros y Hy. rewrite N2, P2. split.
      - destruct (Nat.eqb_spec y p) as [->|]; auto.
      - destruct (Nat.eqb_spec y n) as [->|]; auto. }
    assert (H3 : holds (upd h2 x None) hd l).
    { apply (holds_ext h2); auto. intros y Hy. unfold nxt, prv. rewrite upd_other; auto.
      intros ->. inversion ND as [|? ? D1 D2]; subst. inversion D2 as [|? ? D3 D4]; subst. cbn in *. intuition congruence. }
    cbn in Hf. destruct (IH _ f H3 ltac:(lia)) as (h' & -> & H4 & H5 & H6). cbn [bind].
    exists h'. split; [reflexivity|]. split; [exact H4|].
    assert (Nx : ~ In x (hd :: l)).
    { inversion ND as [|? ? D1 D2]; subst. inversion D2 as [|? ? D3 D4]; subst. cbn in *. intuition congruence. }
    split.
    + intros y [<-|Hy]; [|auto]. rewrite H6 by exact Nx. apply upd_same.
    + intros y Hy. rewrite H6 by (cbn in *; tauto). rewrite upd_other by (cbn in *; intuition).
      assert (Yn : y <> n /\ y <> p) by (split; intros ->; apply Hy; cbn in *; tauto).
      assert (E : nxt h2 y = nxt h y /\ prv h2 y = prv h y).
      { rewrite N2, P2, N, P. destruct (Nat.eqb_spec y p); [tauto|]. destruct (Nat.eqb_spec y n); [tauto|]. auto. }
      destruct E as [E1 E2]. unfold nxt, prv in E1, E2. destruct (h2 y) as [[? ?]|], (h y) as [[? ?]|]; cbn in *; congruence.
Qed.
