(** Property C51: the intrusive lists. Vocabulary: DListSpec.v ([holds], [same_heap]). *)
From Coq Require Import List Bool Arith Lia.
From Verif Require Import Bytes DList DListSpec DListProofs.
Import ListNotations.

(** A list just initialised is empty. *)
Theorem C51_init : forall h hd q, h hd = Some q -> exists h', list_init h hd = Ok h' /\ holds h' hd [].
Proof.
  intros h hd q E. unfold list_init. destruct (set_next_ok h hd hd q E) as (h1 & -> & N1 & P1). cbn [bind].
  assert (X : nxt h1 hd = Some hd) by (now rewrite N1, Nat.eqb_refl). destruct (live_nxt _ _ _ X) as [q1 E1].
  destruct (set_prev_ok h1 hd hd q1 E1) as (h2 & -> & N2 & P2). exists h2. split; [reflexivity|]. split.
  - cbn. now rewrite N2, P2, X, Nat.eqb_refl.
  - repeat constructor. intros [].
Qed.
(** Appending a node that is not in the list adds it at the end; lists of other nodes are left
    alone. *)
Theorem C51_add : forall h hd l x q, holds h hd l -> ~ In x (hd :: l) -> h x = Some q ->
  exists h', list_add_tail h hd x = Ok h' /\ holds h' hd (l ++ [x]) /\
    forall hd2 m, holds h hd2 m -> (forall y, In y (hd2 :: m) -> ~ In y (x :: hd :: l)) -> holds h' hd2 m.
Proof.
  intros h hd l x q H Hx E. destruct (add_ok h hd l x q H Hx E) as (h' & t & E1 & H1 & It & N & P).
  exists h'. split; [exact E1|]. split; [exact H1|]. intros hd2 m H2 D. apply (holds_ext h); auto.
  intros y Hy. specialize (D y Hy). rewrite N, P.
  destruct (Nat.eqb_spec y t) as [->|]; [exfalso; apply D; now right|].
  destruct (Nat.eqb_spec y x) as [->|]; [exfalso; apply D; now left|].
  destruct (Nat.eqb_spec y hd) as [->|]; [exfalso; apply D; right; now left|]. auto.
Qed.
(** Removing a node of the list takes out exactly that one; other lists are left alone; the memory
    is the same after removing it again. *)
Theorem C51_remove : forall h hd l1 x l2, holds h hd (l1 ++ x :: l2) ->
  exists h', list_remove h x = Ok h' /\ holds h' hd (l1 ++ l2) /\
    (forall hd2 m, holds h hd2 m -> (forall y, In y (hd2 :: m) -> ~ In y (hd :: l1 ++ l2)) -> holds h' hd2 m) /\
    exists h2, list_remove h' x = Ok h2 /\ same_heap h2 h'.
Proof.
  intros h hd l1 x l2 H. destruct (remove_ok h hd l1 x l2 H) as (h' & n & p & E & H1 & Hn & Hp & In_ & Ip & N & P).
  exists h'. split; [exact E|]. split; [exact H1|]. split.
  - intros hd2 m H2 D. apply (holds_ext h); auto. intros y Hy. specialize (D y Hy). rewrite N, P.
    destruct (Nat.eqb_spec y p) as [->|]; [contradiction|]. destruct (Nat.eqb_spec y n) as [->|]; [contradiction|]. auto.
  - assert (Hx : ~ In x (hd :: l1 ++ l2)) by (destruct H as [_ ND]; rewrite app_comm_cons in *; now apply NoDup_remove_2 in ND).
    assert (Hn1 : nxt h' x = Some n) by (rewrite N; destruct (Nat.eqb_spec x p) as [->|]; [contradiction|exact Hn]).
    assert (Hp1 : prv h' x = Some p) by (rewrite P; destruct (Nat.eqb_spec x n) as [->|]; [contradiction|exact Hp]).
    assert (An : nxt h' p = Some n) by (now rewrite N, Nat.eqb_refl).
    assert (Ap : prv h' n = Some p) by (now rewrite P, Nat.eqb_refl).
    destruct (live_prv _ _ _ Ap) as [qn Eqn]. destruct (live_nxt _ _ _ An) as [qp Eqp].
    destruct (remove_effect h' x n p qn qp Hn1 Hp1 Eqn Eqp) as (h2 & E2 & N2 & P2).
    exists h2. split; [exact E2|]. intros y.
    assert (Ea : nxt h2 y = nxt h' y) by (rewrite N2; destruct (Nat.eqb_spec y p) as [->|]; congruence).
    assert (Eb : prv h2 y = prv h' y) by (rewrite P2; destruct (Nat.eqb_spec y n) as [->|]; congruence).
    unfold nxt, prv in Ea, Eb. destruct (h2 y) as [[? ?]|], (h' y) as [[? ?]|]; cbn in *; congruence.
Qed.
(** The list is what the loops visit, forwards and backwards, and what the tests see. *)
Theorem C51_visit : forall h hd l, holds h hd l ->
  (forall fuel, length l < fuel -> for_each fuel h hd = Ok l /\ for_each_reverse fuel h hd = Ok (rev l)) /\
  list_empty h hd = Ok (match l with [] => true | _ => false end) /\
  list_head h hd = Ok (match l with [] => hd | x :: _ => x end) /\ list_tail h hd = Ok (last l hd).
Proof.
  intros h hd l [L ND]. assert (D : ~ In hd l) by (now inversion ND).
  assert (Hn : nxt h hd = Some (match l with [] => hd | x :: _ => x end)) by (destruct l; cbn in L; tauto).
  pose proof (linked_rev _ _ _ _ L) as R.
  assert (Hp : prv h hd = Some (last l hd)).
  { destruct (list_eq_dec Nat.eq_dec l []) as [->|Hl]; [cbn in *; tauto|].
    destruct (exists_last Hl) as (l' & p & ->). rewrite last_last. rewrite rev_app_distr in R. cbn in R. tauto. }
  split; [|split; [|split]].
  - intros fuel Hf. unfold for_each, for_each_reverse. rewrite (get_next_ok _ _ _ Hn), (get_prev_ok _ _ _ Hp). cbn [bind].
    split; [eapply visit_ok; eauto|]. eapply rvisit_ok; eauto; [now rewrite <- in_rev|now rewrite rev_length].
  - unfold list_empty. rewrite (get_next_ok _ _ _ Hn). cbn [bind]. destruct l as [|x l]; [now rewrite Nat.eqb_refl|].
    destruct (Nat.eqb_spec x hd) as [->|]; [exfalso; apply D; now left|reflexivity].
  - unfold list_head. now apply get_next_ok.
  - unfold list_tail. now apply get_prev_ok.
Qed.
(** Closing destroys every device once, in order, although log_device_destroy removes the node a
    second time; no freed node is touched and no other memory changes. *)
Theorem C51_close : forall h hd l fuel, holds h hd l -> length l < fuel ->
  exists h', close_devices fuel h hd = Ok (h', l) /\ holds h' hd [] /\ (forall x, In x l -> h' x = None) /\
    (forall x, ~ In x (hd :: l) -> h' x = h x).
Proof. intros h hd l fuel H Hf. now apply close_ok. Qed.

(** Head 0 with nodes 5, 7, 9; node 3 is in no list. *)
Definition ex_h : heap := fun x =>
  match x with 0 => Some (5, 9) | 5 => Some (7, 0) | 7 => Some (9, 5) | 9 => Some (0, 7) | 3 => Some (1, 2) | _ => None end.
Example C51_ex : holds ex_h 0 ([5] ++ 7 :: [9]) /\ ~ In 3 (0 :: [5; 7; 9]) /\ ex_h 3 = Some (1, 2) /\
  match list_add_tail ex_h 0 3 with Ok h => for_each 9 h 0 = Ok [5; 7; 9; 3] | Bug _ => False end.
Proof.
  split; [split; [cbn; repeat split|repeat constructor; cbn; lia]|]. split; [cbn; lia|]. split; [reflexivity|].
  vm_compute. reflexivity.
Qed.
Print Assumptions C51_init.
Print Assumptions C51_add.
Print Assumptions C51_remove.
Print Assumptions C51_visit.
Print Assumptions C51_close.
