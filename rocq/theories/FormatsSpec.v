(** What C144 says: how one reads a line that ulogcat prints in its text formats. *)
From Coq Require Import ZArith String List Bool.
From Verif Require Import Bytes Render RenderSpec ProgramSpec CsvSpec ScreenReadSpec.
Import ListNotations.
Open Scope Z_scope.

(** The bytes before the last dash, and those after it. *)
Fixpoint last_dash (l : list Z) : option (list Z * list Z) :=
  match l with
  | [] => None
  | c :: r => match last_dash r with
              | Some (a, b) => Some (c :: a, b)
              | None => if c =? 45 then Some ([], r) else None
              end
  end.
(** A process or thread: a name, in the long format with its number after a dash. *)
Definition person := (list Z * option Z)%type.
Definition read_person (long : bool) (l : list Z) : option person :=
  if long then match last_dash l with Some (name, n) => Some (name, Some (dec_value n)) | None => None end
  else Some (l, None).
(** A process, and after a slash the thread, if it is not the first of the process. *)
Definition read_people (long : bool) (l : list Z) : option (person * option person) :=
  match until 47 l with
  | None => match read_person long l with Some p => Some (p, None) | None => None end
  | Some (a, b) => match read_person long a, read_person long b with Some p, Some t => Some (p, Some t) | _, _ => None end
  end.

(** What one learns from a line: the time (as text, and milliseconds), the letter of the level, the tag,
    the process and thread, the text. *)
Record learnt := mkLearnt { n_time : option (list Z * Z); n_letter : Z; n_tag : list Z; n_who : option (person * option person); n_text : list Z }.

Definition is_long (f : format) : bool := match f with FLong => true | _ => false end.
Definition read_body (f : format) (time : option (list Z * Z)) (l : list Z) : option learnt :=
  match l with
  | c :: 32 :: r =>
    match f with
    | FShort => match until 58 r with Some (tag, 32 :: text) => Some (mkLearnt time c (rstrip tag) None text) | _ => None end
    | _ =>
      match until 40 r with
      | Some (tag, r) =>
        match until 41 r with
        | Some (inner, r) =>
          match until 58 r, read_people (is_long f) inner with
          | Some (pad, 32 :: text), Some who => match rstrip pad with [] => Some (mkLearnt time c (rstrip tag) (Some who) text) | _ => None end
          | _, _ => None
          end
        | None => None
        end
      | None => None
      end
    end
  | _ => None
  end.
(** The long format starts with the time: text, dot, three digits, space. *)
Definition read_line (f : format) (l : list Z) : option learnt :=
  if is_long f then
    match until 46 l with
    | Some (time, a :: b :: c :: 32 :: r) => read_body f (Some (time, num_value 10 [a; b; c])) r
    | _ => None
    end
  else read_body f None l.

(** What there is to learn from a line [text] of an entry, when [time] is the text of its time. *)
Definition lesson (f : format) (time : list Z) (u : uentry) (text : list Z) : learnt :=
  let number n := if is_long f then Some n else None in
  mkLearnt (if is_long f then Some (time, u_nsec u / 1000000) else None) (prio_letter (u_prio u)) (u_tag u)
    (match f with
     | FShort => None
     | _ => Some ((u_pname u, number (u_pid u)), if u_pid u =? u_tid u then None else Some (u_tname u, number (u_tid u)))
     end) text.

(** Names that can be recognized: of the tag, and of process and thread. *)
Definition plain_tag (t : list Z) : Prop := ~ In 10 t /\ ~ In 40 t /\ ~ In 58 t /\ (forall r, t <> r ++ [32]) /\ zlen t <= 50.
Definition plain_name (n : list Z) : Prop := ~ In 10 n /\ ~ In 41 n /\ ~ In 47 n /\ zlen n <= 16.
Record legible (u : uentry) : Prop := {
  lg_text : u_bin u = false; lg_prio : 0 <= u_prio u < 8; lg_nsec : 0 <= u_nsec u < 10 ^ 9;
  lg_pid : 0 <= u_pid u < 2 ^ 31; lg_tid : 0 <= u_tid u < 2 ^ 31;
  lg_tag : plain_tag (u_tag u); lg_pname : plain_name (u_pname u); lg_tname : plain_name (u_tname u) }.

(** Lines of the kernel have no process: in each format the tag is followed by the colon. *)
Definition read_kernel (f : format) (l : list Z) : option learnt :=
  if is_long f then
    match until 46 l with
    | Some (time, a :: b :: c :: 32 :: r) => read_body FShort (Some (time, num_value 10 [a; b; c])) r
    | _ => None
    end
  else read_body FShort None l.
Definition kernel_lesson (f : format) (time : list Z) (u : uentry) (text : list Z) : learnt :=
  mkLearnt (if is_long f then Some (time, u_nsec u / 1000000) else None) (prio_letter (u_prio u)) (u_tag u) None text.

(** What is put around a line: with colours, the sequence of the level before and the reset after it; with
    labels, the letter of the world it comes from. *)
Definition dress (klog color label : bool) (start body : list Z) : list Z :=
  (if color then start else []) ++ (if label then (if klog then bytes_of_string "K " else bytes_of_string "U ") else []) ++
  body ++ (if color then 27 :: bytes_of_string "[0m" else []).

(** The colours: fields between bars, each the middle of an escape sequence. *)
Fixpoint between_bars (l : list (list Z)) : list Z :=
  match l with [] => [] | [f] => f | f :: r => f ++ [124] ++ between_bars r end.
Definition paint (f : list Z) : list Z := match f with [] => [] | _ => [27; 91] ++ f ++ [109] end.
