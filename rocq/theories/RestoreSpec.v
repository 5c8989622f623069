(** Specification vocabulary for restoring an output function (C146), about the trace of
    observable events only. *)
From Coq Require Import ZArith String List Bool.
From Verif Require Import Bytes Writer WriterSpec.
Import ListNotations.
Open Scope Z_scope.

(** No device is successfully chosen. *)
Definition same_device (tr : list event) : Prop := forall t n, ~ In (EvDevSet t n true) tr.

(** Whole life of one message: thread [t] asks to log [m], does not start another call, and the
    call returns at the end of [tr]; [during]: what all the threads do meanwhile. *)
Definition logged (t : nat) (m : msg) (during tr : list event) : Prop :=
  tr = EvCall t (WLog m) :: during ++ [EvRet t] /\ no_call t during.

(** Two messages are handled alike: both go to the same single place, and, both being texts or
    both being binary, as many lines are printed for the one as for the other. *)
Definition alike (t1 : nat) (m1 : msg) (d1 : list event) (t2 : nat) (m2 : msg) (d2 : list event) : Prop :=
  (exists d, delivs t1 d1 = [(d, m1)] /\ delivs t2 d2 = [(d, m2)]) /\
  (Z.testbit (m_prio m1) 7 = Z.testbit (m_prio m2) 7 -> zlen (prints t1 d1) = zlen (prints t2 d2)).
