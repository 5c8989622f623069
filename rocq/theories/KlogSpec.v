(** What the claims about kernel messages (C49, C50, C68) say. *)
From Coq Require Import ZArith String List Bool.
From Verif Require Import Bytes.
Import ListNotations.
Open Scope Z_scope.

(** ** Numbers in decimal *)
Definition digits (ds : list Z) : Prop := ds <> [] /\ Forall (fun c => 48 <= c <= 57) ds.
(** Value, the least significant digit last. *)
Fixpoint dec_val (ds : list Z) : Z :=
  match ds with [] => 0 | c :: r => (c - 48) * 10 ^ zlen r + dec_val r end.

(** ** How the kernel escapes the text of a record (Linux, msg_add_ext_text in
    kernel/printk/printk.c): control bytes, bytes from 127 on and the backslash become \xNN. *)
Definition hexc (d : Z) : Z := nth (Z.to_nat d) (bytes_of_string "0123456789abcdef") 0.
Definition kescape_byte (c : Z) : list Z :=
  if (c <? 32) || (127 <=? c) || (c =? 92) then [92; 120; hexc (c / 16); hexc (c mod 16)] else [c].
Definition kescape (t : list Z) : list Z := concat (map kescape_byte t).
Definition bytes (t : list Z) : Prop := Forall (fun c => 0 <= c < 256) t.

(** A record of /dev/kmsg: priority and facility, sequence number, time in microseconds, flags (and
    what later kernels add after them), escaped text, and dictionary lines. *)
Definition krecord (pr sq us flags text dict : list Z) : list Z :=
  pr ++ [44] ++ sq ++ [44] ++ us ++ [44] ++ flags ++ [59] ++ kescape text ++ [10] ++ dict.

(** ** A line relayed by kmsgd: <P>[ sec.usec] text *)
Definition kprefix (pr : list Z) : list Z := [60] ++ pr ++ [62].
Definition ktime (spaces sec usec : list Z) : list Z := [91] ++ spaces ++ sec ++ [46] ++ usec ++ [93; 32].
