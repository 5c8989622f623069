(** What C143 says: how one reads the text that ulogcat prints (short format), and what one learns from it. *)
From Coq Require Import ZArith String List Bool.
From Verif Require Import Bytes Ring RingSpec Parse ParseSpec Iov Cat CatSpec Render Live LiveSpec SaidSpec Program ProgramSpec SaidRunSpec CsvSpec.
Import ListNotations.
Open Scope Z_scope.

(** The lines of the text. *)
Fixpoint rows (l : list Z) : list (list Z) :=
  match l with
  | [] => []
  | c :: r => if c =? 10 then [] :: rows r else match rows r with x :: xs => (c :: x) :: xs | [] => [[c]] end
  end.
(** Without the spaces at the end. *)
Fixpoint rstrip (l : list Z) : list Z :=
  match l with
  | [] => []
  | c :: r => match rstrip r with [] => if c =? 32 then [] else [c] | x => c :: x end
  end.
(** One line: a letter, a space, the tag up to the first colon, a space, the text. *)
Definition row (l : list Z) : option (Z * list Z * list Z) :=
  match l with
  | c :: 32 :: r => match until 58 r with Some (tag, 32 :: text) => Some (c, rstrip tag, text) | _ => None end
  | _ => None
  end.
Definition read_screen (text : list Z) : list (option (Z * list Z * list Z)) := map row (rows text).

(** What a message tells: for each line of its text (what fits of it) its letter, its tag and the line. *)
Definition tells (x : Z * said) : list (Z * list Z * list Z) :=
  map (fun t => (letter (s_prio (snd x)), s_tag (snd x), t)) (lines_in (fitting (snd x))).
(** A name one can recognize: without line feed and colon, and not ending with a space. *)
Definition clear (tag : list Z) : Prop := ~ In 10 tag /\ ~ In 58 tag /\ forall t, tag <> t ++ [32].
(** The line about [n] messages that are missing. *)
Definition missing (nm : list Z) (n : Z) (t : Z * list Z * list Z) : Prop :=
  exists digits, t = (87, nm, digits ++ bytes_of_string " log entries dropped") /\
    Forall (fun c => 48 <= c <= 57) digits /\ fold_left (fun a c => 10 * a + (c - 48)) digits 0 = n /\
    (forall r, digits = 48 :: r -> r = []).
(** A text, that the library can say, at a time that is not negative, and that fits the buffers of the viewer. *)
Definition printable (x : Z * said) : Prop :=
  sayable (snd x) /\ binary_of (s_prio (snd x)) = false /\ 0 <= s_sec (snd x) < 2 ^ 31 /\ 0 <= s_nsec (snd x) < 2 ^ 31 /\ roomy x.
