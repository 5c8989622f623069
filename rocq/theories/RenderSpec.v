(** What the claims about rendering (C46 to C48, C67) say, without the renderer's own helpers. *)
From Coq Require Import ZArith String List Bool.
From Verif Require Import Bytes Render.
Import ListNotations.
Open Scope Z_scope.

(** ** Reading numbers back *)
Definition digit_value (c : Z) : Z := if c <? 58 then c - 48 else c - 87.
Definition num_value (base : Z) (l : list Z) : Z := fold_left (fun a c => base * a + digit_value c) l 0.
(** A signed decimal number. *)
Definition dec_value (l : list Z) : Z :=
  match l with 45 :: r => - num_value 10 r | _ => num_value 10 l end.
(** 0x and hexadecimal digits. *)
Definition hex_value (l : list Z) : option Z :=
  match l with 48 :: 120 :: r => Some (num_value 16 r) | _ => None end.
(** Pairs of hexadecimal digits. *)
Fixpoint unhex (l : list Z) : list Z :=
  match l with a :: b :: r => (16 * digit_value a + digit_value b) :: unhex r | _ => [] end.

(** The line shows the entry: eleven fields, each ended by a comma, then the payload, then a line
    feed. *)
Definition csv_shows (line : list Z) (e : uentry) : Prop :=
  exists sec nsec prio color bin pid tid len pay : list Z,
    line = (sec ++ [44]) ++ (nsec ++ [44]) ++ (prio ++ [44]) ++ (color ++ [44]) ++ (bin ++ [44]) ++
           (u_tag e ++ [44]) ++ (u_pname e ++ [44]) ++ (pid ++ [44]) ++ (u_tname e ++ [44]) ++
           (tid ++ [44]) ++ (len ++ [44]) ++ pay ++ [10] /\
    hex_value sec = Some (u_sec e mod 2 ^ 32) /\ hex_value nsec = Some (u_nsec e mod 2 ^ 32) /\
    dec_value prio = u_prio e /\ hex_value color = Some (u_color e mod 2 ^ 32) /\
    bin = (if u_bin e then [49] else [48]) /\ dec_value pid = u_pid e /\ dec_value tid = u_tid e /\
    dec_value len = zlen pay /\
    (if u_bin e then zlen pay = 2 * zlen (u_msg e) /\ unhex pay = u_msg e else pay = u_msg e).

Definition int32 (v : Z) : Prop := - 2 ^ 31 <= v < 2 ^ 31.
(** The numbers of the entry fit their C types, the bytes are bytes, and the message has a length
    that int can hold. *)
Record entry_ok (e : uentry) : Prop := {
  eo_sec : int32 (u_sec e); eo_nsec : int32 (u_nsec e); eo_prio : 0 <= u_prio e < 8;
  eo_pid : int32 (u_pid e); eo_tid : int32 (u_tid e); eo_color : 0 <= u_color e < 2 ^ 32;
  eo_msg : Forall (fun b => 0 <= b < 256) (u_msg e); eo_len : 2 * zlen (u_msg e) < 2 ^ 31 }.

(** ** Lines of a message: the pieces between line feeds; a final line feed ends the last line. *)
Definition lines_of (m : list Z) (ls : list (list Z)) : Prop :=
  Forall (fun l => ~ In 10 l) ls /\
  ((ls <> [] /\ m = concat (map (fun l => l ++ [10]) ls)) \/
   exists init last, ls = init ++ [last] /\ (last <> [] \/ init = []) /\
                     m = concat (map (fun l => l ++ [10]) init) ++ last).

(** None of the three names holds a comma. *)
Definition no_comma (e : uentry) : Prop := ~ In 44 (u_tag e) /\ ~ In 44 (u_pname e) /\ ~ In 44 (u_tname e).

(** The first letter of the priority: none for the two gravest, which ulog does not use. *)
Definition prio_letter (p : Z) : Z := nth (Z.to_nat p) [32; 32; 67; 69; 87; 78; 73; 68] 0.

(** The same entry with another message. *)
Definition with_msg (e : uentry) (m : list Z) : uentry :=
  mkU (u_sec e) (u_nsec e) (u_prio e) (u_pid e) (u_pname e) (u_tid e) (u_tname e) (u_tag e) m (u_bin e) (u_color e).
