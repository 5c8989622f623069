(** Specification side of the relay of samples. *)
From Coq Require Import ZArith String List Bool Sorted.
From Verif Require Import Bytes Parse Iov Shd Relay.
Import ListNotations.
Open Scope Z_scope.

(** The samples written, in order; how many were written before the last poll that did not fail. *)
Fixpoint puts (l : list ev) : list (blob * Z) :=
  match l with [] => [] | Put b t :: l => (b, t) :: puts l | Poll _ _ :: l => puts l end.
Fixpoint polled (n last : nat) (l : list ev) : nat :=
  match l with [] => last | Put _ _ :: l => polled (S n) last l | Poll _ en :: l => polled n (if en <? 0 then last else n) l end.
(** At most [bound] samples are written from one poll that does not fail to the next. *)
Fixpoint at_most (bound since : nat) (l : list ev) : Prop :=
  match l with [] => True | Put _ _ :: l => (since < bound)%nat /\ at_most bound (S since) l | Poll _ en :: l => at_most bound (if en <? 0 then since else 0%nat) l end.
(** The library calls of a poll succeed, or shd_end_read fails, with another error than the one that stops
    the relay. *)
Definition fine (e : ev) : Prop := match e with Poll rd en => 0 <= rd /\ 0 <= en \/ en < 0 /\ en <> - ENODEV | Put _ _ => True end.

(** Samples as the backends write them: numbered from 1 modulo 65536, with increasing time stamps, and
    such that the relay can read them (see C53 and C85). *)
Definition entry (pname : list Z) (s : blob * Z) : M raw_entry :=
  fill_raw_entry (fst s) (snd s / 1000000000) (snd s mod 1000000000) pname.
Definition numbered (l : list (blob * Z)) : Prop := forall i s, nth_error l i = Some s -> b_index (fst s) = Z.of_nat (S i) mod 65536.
Definition increasing (l : list (blob * Z)) : Prop :=
  forall i j a b, (i < j)%nat -> nth_error l i = Some a -> nth_error l j = Some b -> snd a < snd b.
Definition readable (pname : list Z) (l : list (blob * Z)) : Prop := Forall (fun s => exists e, entry pname s = Ok e) l.

(** What is relayed, and the number of samples reported lost. *)
Definition relays (a : list act) : list raw_entry := flat_map (fun x => match x with Relay r => [r] | _ => [] end) a.
Definition lost (a : list act) : Z := fold_right Z.add 0 (map (fun x => match x with Lost n => n | _ => 0 end) a).
