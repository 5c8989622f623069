(** What C130 says: which calls show, and how. *)
From Coq Require Import ZArith String List Bool Sorted.
From Verif Require Import Bytes Ring RingSpec RingHistory Parse ParseSpec Program.
Import ListNotations.
Open Scope Z_scope.

(** A call shows if its level (0 is the gravest) is at most the level of its tag. *)
Definition visible (c : call) : bool := p_prio c mod 8 <=? p_level c.

(** The lines of a text; a line feed at the end does not start another one. *)
Fixpoint lines_in (m : list Z) : list (list Z) :=
  match m with
  | [] => [[]]
  | c :: r =>
    if c =? 10 then (match r with [] => [[]] | _ => [] :: lines_in r end)
    else match lines_in r with l :: ls => (c :: l) :: ls | [] => [[c]] end
  end.
Definition letter (prio : Z) : Z := nth (Z.to_nat (prio mod 8)) (bytes_of_string "  CEWNID") 0.
(** "%c %-12s: " *)
Definition label (prio : Z) (tag : list Z) : list Z :=
  [letter prio; 32] ++ tag ++ repeat 32 (12 - length tag) ++ [58; 32].
Definition block (prio : Z) (tag text : list Z) : list Z :=
  concat (map (fun l => label prio tag ++ l ++ [10]) (lines_in text)).
(** What a call shows: at most 255 bytes of its text. *)
Definition screen (c : call) : list Z := block (p_prio c) (p_tag c) (firstn 255 (p_text c)).

(** The numbers fit their types, the strings are C strings, the priority does not ask for binary
    data; the text and the tag are short enough for the buffers of the viewer: a tag of 15 bytes is,
    whatever the text (C130_fits). *)
Definition int32 (v : Z) : Prop := - 2 ^ 31 <= v < 2 ^ 31.
Record proper (procs : list Z) (c : call) : Prop := {
  pr_fid : In (p_fid c) procs;
  pr_ids : int32 (t_tgid (p_task c)) /\ int32 (t_pid (p_task c));
  pr_time : 0 <= p_sec c < 2 ^ 31 /\ 0 <= p_nsec c < 2 ^ 31;
  pr_stack : length (p_stack c) = 256%nat;
  pr_tag : ~ In 0 (p_tag c) /\ zlen (p_tag c) <= 1000;
  pr_prio : 0 <= p_prio c < 2 ^ 32 /\ Z.testbit (p_prio c) 7 = false;
  pr_text : ~ In 0 (p_text c) /\ zlen (p_text c) < 2 ^ 31;
  pr_room : zlen (screen c) < 5248 }.

(** The bytes that a call takes in the buffer of the device: header, names of process and thread
    with their NULs, priority, tag and text with their NULs. *)
Definition cost (c : call) : Z :=
  24 + zlen (names (p_task c)) + 4 + (zlen (p_tag c) + 1) + (zlen (firstn 255 (p_text c)) + 1).
Definition costs (l : list call) : Z := fold_right (fun c a => cost c + a) 0 l.
(** Who logs it. *)
Definition user (c : call) : Z := t_euid (p_task c) mod 2 ^ 32.

(** The line about [n] lost messages. *)
Definition notice (nm : list Z) (n : Z) (text : list Z) : Prop :=
  n < 2 ^ 31 -> exists digits,
    text = bytes_of_string "W " ++ nm ++ repeat 32 (12 - length nm) ++ bytes_of_string ": " ++
           digits ++ bytes_of_string " log entries dropped" ++ [10] /\
    Forall (fun c => 48 <= c <= 57) digits /\ fold_left (fun a c => 10 * a + (c - 48)) digits 0 = n /\
    (forall r, digits = 48 :: r -> r = []).
