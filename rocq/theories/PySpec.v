(** Specification side of the python binding. *)
From Coq Require Import ZArith String List Bool.
From Verif Require Import Bytes Parse Iov Py.
Import ListNotations.
Open Scope Z_scope.

(** The lines of a message: separated by LF, CR or CR LF, the last one with or without an end. *)
Definition no_eol (l : list Z) : Prop := ~ In 10 l /\ ~ In 13 l.
Inductive lines_of : list Z -> list (list Z) -> Prop :=
| no_line : lines_of [] []
| last_line : forall l, l <> [] -> no_eol l -> lines_of l [l]
| a_line : forall l t m ls, no_eol l -> t = [10] \/ t = [13; 10] \/ t = [13] /\ hd 0 m <> 10 ->
    lines_of m ls -> lines_of (l ++ t ++ m) (l :: ls).

(** Code points that python can encode. *)
Definition scalar (c : Z) : Prop := 0 < c < 0xd800 \/ 0xe000 <= c < 0x110000.

(** The UTF-8 representation of a code point (RFC 3629): the bits in order, six in each byte after the
    first, in as few bytes as possible. *)
Definition tail (b : Z) : Prop := 0 <= b < 64.
Inductive encoded : Z -> list Z -> Prop :=
| one_byte : forall c, 0 <= c < 0x80 -> encoded c [c]
| two_bytes : forall a b, tail b -> 0x80 <= 64 * a + b < 0x800 -> encoded (64 * a + b) [0xc0 + a; 0x80 + b]
| three_bytes : forall a b c, tail b -> tail c -> 0x800 <= 4096 * a + 64 * b + c < 0x10000 -> ~ (0xd800 <= 4096 * a + 64 * b + c < 0xe000) ->
    encoded (4096 * a + 64 * b + c) [0xe0 + a; 0x80 + b; 0x80 + c]
| four_bytes : forall a b c d, tail b -> tail c -> tail d -> 0x10000 <= 262144 * a + 4096 * b + 64 * c + d < 0x110000 ->
    encoded (262144 * a + 4096 * b + 64 * c + d) [0xf0 + a; 0x80 + b; 0x80 + c; 0x80 + d].
Inductive encoding : list Z -> list Z -> Prop :=
| no_char : encoding [] []
| a_char : forall c s b r, encoded c b -> encoding s r -> encoding (c :: s) (b ++ r).

(** What is left of a message without the ends of lines around it. *)
Definition eols (l : list Z) : Prop := Forall (fun c => c = 10 \/ c = 13) l.
Definition trimmed (m t : list Z) : Prop :=
  exists a b, m = a ++ t ++ b /\ eols a /\ eols b /\ (forall c r, t = c :: r -> c <> 10 /\ c <> 13) /\ (forall c r, t = r ++ [c] -> c <> 10 /\ c <> 13).

(** What was asked from the bridge. *)
Inductive bop := Enable (l : nat) (forward : bool) | Disable (l : nat).
Definition bstep (s : bridge) (o : bop) : bridge :=
  match o with Enable l f => enable_bridge l f s | Disable l => disable_bridge l s end.
Definition after_ops (l : list bop) : bridge := fold_left bstep l b_init.
(** The last request about this logger is to enable it. *)
Definition is_on (x : nat) (l : list bop) : bool :=
  fold_left (fun on o => match o with Enable y _ => if Nat.eqb x y then true else on | Disable y => if Nat.eqb x y then false else on end) l false.
Definition muted (l : list bop) : bool := existsb (fun o => match o with Enable _ false => true | _ => false end) l.
(** Forwarding is never asked for again after it was declined. *)
Fixpoint settled (l : list bop) : Prop :=
  match l with
  | [] => True
  | Enable _ false :: l => (forall y, ~ In (Enable y true) l) /\ settled l
  | _ :: l => settled l
  end.

(** The calls of _throttled_log with this text, and what each logged: clock, delay, level, result. *)
Fixpoint throttled_of (text : list Z) (l : list lop) (o : list lout) : list (Z * Z * Z * lout) :=
  match l, o with
  | Throttled lv now delay t :: l, x :: o => if bytes_eqb t text then (now, delay, lv, x) :: throttled_of text l o else throttled_of text l o
  | _ :: l, _ :: o => throttled_of text l o
  | _, _ => []
  end.
(** The calls of _changed_log with this message: value, level, result. *)
Fixpoint changed_of (msg : list Z) (l : list lop) (o : list lout) : list (Z * Z * lout) :=
  match l, o with
  | Changed lv v m :: l, x :: o => if bytes_eqb m msg then (v, lv, x) :: changed_of msg l o else changed_of msg l o
  | _ :: l, _ :: o => changed_of msg l o
  | _, _ => []
  end.
