(** What the escaped text of a kernel record stands for (C49), also when the kernel would not have
    written it that way. *)
From Coq Require Import ZArith List Bool.
Import ListNotations.
Open Scope Z_scope.

(** What a text stands for, whoever escaped it: \xNN, in small or capital digits, stands for a byte;
    everything else for itself. *)
Definition hex_value (c : Z) : option Z :=
  if (48 <=? c) && (c <=? 57) then Some (c - 48)
  else if (97 <=? c) && (c <=? 102) then Some (c - 87)
  else if (65 <=? c) && (c <=? 70) then Some (c - 55) else None.
Definition escape (s : list Z) (v : Z) (r : list Z) : Prop :=
  exists a b x y, s = 92 :: 120 :: a :: b :: r /\ hex_value a = Some x /\ hex_value b = Some y /\ v = 16 * x + y.
Inductive decodes : list Z -> list Z -> Prop :=
  | dec_end : decodes [] []
  | dec_escape : forall s v r t, escape s v r -> decodes r t -> decodes s (v :: t)
  | dec_plain : forall c r t, (forall v r', ~ escape (c :: r) v r') -> decodes r t -> decodes (c :: r) (c :: t).
