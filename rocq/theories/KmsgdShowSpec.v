(** What C128 says: the messages of the kernel, and how a viewer shows them. *)
From Coq Require Import ZArith String List Bool.
From Verif Require Import Bytes Ring Parse KlogSpec KmsgdSpec Render.
Import ListNotations.
Open Scope Z_scope.

(** A line of the kernel log as klogctl(2) gives it: <P>[sec.usec] text, or <P>text when the kernel gives
    no times; all numbers in decimal. *)
Inductive kmessage :=
  | Timed (prio spaces sec usec text : list Z)
  | Untimed (prio text : list Z).
Definition kbytes (m : kmessage) : list Z :=
  match m with
  | Timed pr sp sec usec text => kprefix pr ++ ktime sp sec usec ++ text
  | Untimed pr text => kprefix pr ++ text
  end.
Definition ktext (m : kmessage) : list Z := match m with Timed _ _ _ _ t => t | Untimed _ t => t end.
Definition well_formed (m : kmessage) : Prop :=
  match m with
  | Timed pr sp sec usec _ =>
      digits pr /\ Forall (fun c => c = 32) sp /\ digits sec /\ digits usec /\
      dec_val pr < 2 ^ 32 /\ dec_val sec < 2 ^ 31 /\ dec_val usec < 1000000
  | Untimed pr text => digits pr /\ dec_val pr < 2 ^ 32 /\ text <> [] /\ hd 0 text <> 91
  end /\ ~ In 0 (ktext m) /\ ~ In 10 (ktext m) /\ zlen (kbytes m) <= 4000.

(** As shown: severity (the low three bits of the priority), time and text of the kernel. *)
Definition kernel_entry (sec nsec prio : Z) (text : list Z) : uentry :=
  mkU sec nsec prio 0 [] 0 [] (bytes_of_string "KERNEL") text false 0.
Definition kshown (m : kmessage) : uentry :=
  match m with
  | Timed pr _ sec usec text => kernel_entry (dec_val sec) (dec_val usec * 1000) (dec_val pr mod 8) text
  | Untimed pr text => kernel_entry 0 0 (dec_val pr mod 8) text
  end.
(** An anomaly reported by kmsgd: without a time, cut after 255 bytes. *)
Definition kanomaly (id : list Z) : uentry :=
  kernel_entry 0 0 5 (ztake 255 (bytes_of_string "EVT:KANOMALY;type='kernel';id='" ++ id ++ bytes_of_string "'")).
(** Every message, followed by the anomalies that it reports. *)
Inductive kdisplay : list kmessage -> list uentry -> Prop :=
  | kd_nil : kdisplay [] []
  | kd_cons m ids ms us : anomalies (kbytes m) ids -> kdisplay ms us ->
      kdisplay (m :: ms) (kshown m :: map kanomaly ids ++ us).
(** The notice for [n] entries that the device could not keep. *)
Definition knotice (n : Z) (u : uentry) : Prop :=
  exists ds, u = kernel_entry 0 0 4 (ds ++ bytes_of_string " log entries dropped" ++ [10]) /\ digits ds /\
    fold_left (fun a c => 10 * a + (c - 48)) ds 0 = n.
(** The latest of them, after a notice if some are gone. *)
Definition latest (full us : list uentry) : Prop :=
  exists lost kept, full = lost ++ kept /\
    (kept = [] -> us = []) /\
    (kept <> [] -> lost = [] -> us = kept) /\
    (kept <> [] -> lost <> [] -> exists w, knotice (zlen lost) w /\ us = w :: kept).
