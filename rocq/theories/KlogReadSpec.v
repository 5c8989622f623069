(** What the claims about the reading of /dev/kmsg (C118, C119) say. *)
From Coq Require Import ZArith String List Bool.
From Verif Require Import Bytes KlogSpec KlogRead.
Import ListNotations.
Open Scope Z_scope.

(** The device as its descriptor sees it (Linux, devkmsg_read in kernel/printk/printk.c): the records
    to come; places where records were overwritten before being read; signals; records overwritten
    after a read with a buffer too small for them. The errors are EAGAIN, EPIPE, EINTR and EINVAL of Linux. *)
Inductive kitem := KRec (r : list Z) | KLost | KSig | KGone (r : list Z).
Definition kmsg (d : list kitem) (n : Z) : list kitem * rres :=
  match d with
  | [] => (d, RErr 11)
  | KLost :: d => (d, RErr 32)
  | KSig :: d => (d, RErr 4)
  | KRec r :: d' => if n <? zlen r then (d, RErr 22) else (d', RData r)
  | KGone r :: d' => if n <? zlen r then (KLost :: d', RErr 22) else (d', RData r)
  end.

(** A message of the kernel: the fields of its record. *)
Record kmessage := mkKM { m_prio : list Z; m_seq : list Z; m_us : list Z; m_flags : list Z; m_text : list Z; m_dict : list Z }.
Definition record_of (m : kmessage) : list Z := krecord (m_prio m) (m_seq m) (m_us m) (m_flags m) (m_text m) (m_dict m).
Definition sound (m : kmessage) : Prop :=
  digits (m_prio m) /\ digits (m_seq m) /\ digits (m_us m) /\ ~ In 0 (m_flags m) /\ ~ In 59 (m_flags m) /\ bytes (m_text m) /\
  dec_val (m_prio m) < 2 ^ 31 /\ dec_val (m_us m) < 2 ^ 31 * 1000000.

(** What may happen while the log is read, and what is to be shown for it. *)
Inductive happening := Said (m : kmessage) | Overwritten | Signal | Overtaken (m : kmessage).
Definition item_of (h : happening) : kitem :=
  match h with Said m => KRec (record_of m) | Overwritten => KLost | Signal => KSig | Overtaken m => KGone (record_of m) end.
Definition entry_of (m : kmessage) : shown :=
  mkS (dec_val (m_prio m) mod 8) (dec_val (m_us m) / 1000000) (dec_val (m_us m) mod 1000000 * 1000) (m_text m ++ [0]).
Definition shown_for (h : happening) : list shown :=
  match h with
  | Said m => [entry_of m]
  | Overtaken m => if zlen (record_of m) <? 200 then [entry_of m] else []
  | _ => []
  end.
Definition fits (h : happening) : Prop :=
  match h with Said m | Overtaken m => sound m /\ zlen (record_of m) <= 8191 | _ => True end.

(** A frame at rest: its own array of 200 bytes is its buffer. *)
Definition at_rest (f : frame) : Prop := zlen (f_data f) = 200 /\ f_buf f = InFrame /\ f_size f = 200.
