(** What C153 to C156 say: the messages of a shell script, and how they show. *)
From Coq Require Import ZArith String List Bool.
From Verif Require Import Bytes Ring RingSpec ProgramSpec Shell.
Import ListNotations.
Open Scope Z_scope.

Definition level_of (f : fn) : Z := match f with Ulogc => 2 | Uloge => 3 | Ulogw => 4 | Ulogn => 5 | Ulogi => 6 | Ulogd => 7 end.

(** A message of a function with its level and tag, or a line of ordinary output. *)
Inductive item := Said (level : Z) (tag text : list Z) | Plain (text : list Z).

(** The messages of a script: with the tag it has set last in ulog_tag, "(shell script)" if none is set.
    Ordinary output counts if it goes to the log ([std]); the last byte of it is the end of line. *)
Definition default_tag : list Z := bytes_of_string "(shell script)".
Fixpoint items (std : bool) (tag : option (list Z)) (l : list stmt) : list item :=
  match l with
  | [] => []
  | Call f m :: l => Said (level_of f) (match tag with Some t => t | None => default_tag end) m :: items std tag l
  | Output b :: l => if std then Plain (removelast b) :: items std tag l else items std tag l
  | Assign x v :: l => items std (if String.eqb x "ulog_tag" then Some v else tag) l
  | Unset x :: l => items std (if String.eqb x "ulog_tag" then None else tag) l
  end.

(** The part of a text that fits in an entry of 4076 bytes after the names of the process. *)
Definition tag_of (i : item) : list Z := match i with Said _ g _ => g | Plain _ => [] end.
Definition text_of (i : item) : list Z := match i with Said _ _ m => m | Plain m => m end.
Definition extra (i : item) : Z := match i with Said _ g _ => 4 + (zlen g + 1) | Plain _ => 0 end.
Definition fitted (t : task) (i : item) : list Z := firstn (Z.to_nat (4076 - zlen (names t) - extra i - 1)) (text_of i).
(** Ordinary output shows at level I without a tag. *)
Definition screen_of (t : task) (i : item) : list Z :=
  block (match i with Said v _ _ => v | Plain _ => 6 end) (tag_of i) (fitted t i).
Definition cost_of (t : task) (i : item) : Z := 24 + zlen (names t) + extra i + (zlen (fitted t i) + 1).
Definition costs_of (t : task) (l : list item) : Z := fold_right (fun i a => cost_of t i + a) 0 l.

(** The variables that the file uses are left alone; ordinary output ends with an end of line. *)
Definition own (x : string) : Prop :=
  ~ In x ["ULOG_STDERR"; "ULOG_NO_REDIRECT_STD"; "ULOG_CRIT"; "ULOG_ERR"; "ULOG_WARN"; "ULOG_NOTICE"; "ULOG_INFO"; "ULOG_DEBUG"; "ULOG_LEVEL_LETTERS"]%string.
Definition stmt_ok (c : stmt) : Prop :=
  match c with
  | Call _ _ => True
  | Output b => exists m, b = m ++ [10]
  | Assign x _ | Unset x => own x
  end.
(** Strings have no NUL; they fit in the buffer of the shell and in those of the viewer; if the shell
    writes line by line, they are of one line. *)
Definition item_ok (t : task) (lb : bool) (size : Z) (i : item) : Prop :=
  ~ In 0 (tag_of i) /\ ~ In 0 (text_of i) /\ (lb = true -> ~ In 10 (tag_of i) /\ ~ In 10 (text_of i)) /\
  zlen (tag_of i) <= 4000 /\ 6 + zlen (tag_of i) + zlen (text_of i) <= size /\ zlen (screen_of t i) < 5248.

(** Does the ordinary output go to the log, and has the console a copy of the messages? *)
Definition yes (s : shell) (x : string) : Prop := s_env s x = Some (bytes_of_string "y").

(** Texts without the characters that printf interprets. *)
Definition smooth (m : list Z) : Prop := ~ In 37 m /\ ~ In 92 m.
Definition smooth_stmt (c : stmt) : Prop := match c with Call _ m => smooth m | _ => True end.

(** The writes to the device and the output on the console. *)
Definition written (evs : list event) : list (list Z) := flat_map (fun e => match e with WriteDev _ b => [b] | _ => [] end) evs.
Definition console (evs : list event) : list Z := flat_map (fun e => match e with Tty b => b | _ => [] end) evs.
(** What should be on the console: ordinary output and, if asked for, a line for each message. *)
Definition letter_of (f : fn) : Z := match f with Ulogc => 67 | Uloge => 69 | Ulogw => 87 | Ulogn => 78 | Ulogi => 73 | Ulogd => 68 end.
Definition copies (copy : bool) (l : list stmt) : list Z :=
  flat_map (fun c => match c with
                     | Call f m => if copy then [letter_of f; 32] ++ m ++ [10] else []
                     | Output b => b | _ => [] end) l.

(** The value that a script has given to a variable, [v] before it. *)
Definition given (x : string) (l : list stmt) (v : option (list Z)) : option (list Z) :=
  fold_left (fun v c => match c with
                        | Assign y w => if String.eqb y x then Some w else v
                        | Unset y => if String.eqb y x then None else v
                        | _ => v end) l v.
