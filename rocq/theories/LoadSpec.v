(** Specification side of loading the driver: what it holds. *)
From Coq Require Import ZArith String List Bool.
From Verif Require Import Bytes Load.
Import ListNotations.
Open Scope Z_scope.

(** Devices registered, whether the attribute is there, blocks of memory. *)
Record holds := mkHolds { h_names : list (list Z); h_attr : bool; h_blocks : list Z }.
Definition MAIN : list Z := bytes_of_string "ulog_main".

Section After.
(** Device [n] uses block [b]. *)
Variable uses : list Z -> Z -> Prop.
(** The calls, in order, are allowed and lead from one to the other: only what is held is given back; the
    attribute belongs to the main device; no block is freed that a registered device uses. *)
Inductive after : holds -> list lev -> holds -> Prop :=
| at_end : forall h, after h [] h
| memory : forall ns a bs b t h, after (mkHolds ns a (b :: bs)) t h -> after (mkHolds ns a bs) (Vmalloc b true :: t) h
| no_memory : forall h b t h', after h t h' -> after h (Vmalloc b false :: t) h'
| device : forall ns a bs n t h, ~ In n ns -> after (mkHolds (n :: ns) a bs) t h -> after (mkHolds ns a bs) (Register n 0 :: t) h
| no_device : forall h n r t h', r <> 0 -> after h t h' -> after h (Register n r :: t) h'
| attribute : forall ns bs t h, In MAIN ns -> after (mkHolds ns true bs) t h -> after (mkHolds ns false bs) (Create 0 :: t) h
| no_attribute : forall ns bs r t h, In MAIN ns -> r <> 0 -> after (mkHolds ns false bs) t h -> after (mkHolds ns false bs) (Create r :: t) h
| removed : forall ns bs t h, In MAIN ns -> after (mkHolds ns false bs) t h -> after (mkHolds ns true bs) (Remove :: t) h
| deregistered : forall n1 n n2 a bs t h, (n = MAIN -> a = false) -> after (mkHolds (n1 ++ n2) a bs) t h -> after (mkHolds (n1 ++ n :: n2) a bs) (Deregister n :: t) h
| vfreed : forall ns a b1 b b2 t h, (forall n, In n ns -> ~ uses n b) -> after (mkHolds ns a (b1 ++ b2)) t h -> after (mkHolds ns a (b1 ++ b :: b2)) (Vfree b :: t) h
| kfreed : forall ns a b1 b b2 t h, (forall n, In n ns -> ~ uses n b) -> after (mkHolds ns a (b1 ++ b2)) t h -> after (mkHolds ns a (b1 ++ b :: b2)) (Kfree b :: t) h.
End After.
(** Nothing is held. *)
Definition nothing : holds := mkHolds [] false [].
(** The main device uses block 0. *)
Definition main_uses (n : list Z) (b : Z) : Prop := n = MAIN /\ b = 0.
