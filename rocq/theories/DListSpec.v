(** What the claim about the lists (C51) says. *)
From Coq Require Import List Bool Arith.
From Verif Require Import DList.
Import ListNotations.

Definition nxt (h : heap) (x : nat) : option nat := option_map fst (h x).
Definition prv (h : heap) (x : nat) : option nat := option_map snd (h x).

(** From [a] through the nodes [l] to [b], linked both ways. *)
Fixpoint linked (h : heap) (a : nat) (l : list nat) (b : nat) : Prop :=
  match l with
  | [] => nxt h a = Some b /\ prv h b = Some a
  | x :: r => nxt h a = Some x /\ prv h x = Some a /\ linked h x r b
  end.
(** The list with head [hd] holds the nodes [l]. *)
Definition holds (h : heap) (hd : nat) (l : list nat) : Prop := linked h hd l hd /\ NoDup (hd :: l).
(** The same memory. *)
Definition same_heap (h h' : heap) : Prop := forall x, h x = h' x.
