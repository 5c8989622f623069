(** Model of libulog/ulog_api.sh: logging from shell scripts without running a program for each line.

    The shell is modelled as far as the file uses it: variables, functions, the builtin printf with the
    conversions s and d, redirections. The device /dev/ulog_main exists and can be opened. The substring
    expansion of line 44 is an extension that some shells lack; it is assumed to be there. *)
From Coq Require Import ZArith String List Bool.
From Verif Require Import Bytes Ring Iov.
Import ListNotations.
Open Scope Z_scope.

(** Variables that are set, and whether stdout and stderr are the device (libulog/ulog_api.sh:19-23). *)
Record shell := mkSh { s_env : string -> option (list Z); s_main : bool }.
(** "${x-}": the value, or nothing. libulog/ulog_api.sh:14-19. *)
Definition getv (s : shell) (x : string) : list Z := match s_env s x with Some v => v | None => [] end.
(** x=v. libulog/ulog_api.sh:16, 25-30. *)
Definition setv (s : shell) (x : string) (v : list Z) : shell :=
  mkSh (fun y => if String.eqb x y then Some v else s_env s y) (s_main s).
(** unset x; a script may do it with ulog_tag, which libulog/ulog_api.sh:37 looks at. *)
Definition unsetv (s : shell) (x : string) : shell := mkSh (fun y => if String.eqb x y then None else s_env s y) (s_main s).
(** [ "${x-}" = "y" ], libulog/ulog_api.sh:14, 19, 42. *)
Definition is_y (s : shell) (x : string) : bool := bytes_eqb (getv s x) (bytes_of_string "y").

(** What the shell does: writes to the console; opens, writes and closes the device as open file [f].
    libulog/ulog_api.sh:22, 44, 47. *)
Inductive event := Tty (b : list Z) | OpenDev (f : Z) | WriteDev (f : Z) (b : list Z) | CloseDev (f : Z).
(** The open file of stdout and stderr (libulog/ulog_api.sh:22) and that of a redirection
    (libulog/ulog_api.sh:47). *)
Definition STD : Z := 1.
Definition TMP : Z := 3. (* as above, libulog/ulog_api.sh:47 *)

(** Sourcing the file, libulog/ulog_api.sh:14-32. *)
Definition sourced (s : shell) : shell * list event :=
  let s := if is_y s "ULOG_STDERR" then setv s "ULOG_NO_REDIRECT_STD" (bytes_of_string "y") else s in
  let redirect := negb (is_y s "ULOG_NO_REDIRECT_STD") in
  let s := if redirect then mkSh (s_env s) true else s in
  let s := setv s "ULOG_CRIT" (bytes_of_string "2") in
  let s := setv s "ULOG_ERR" (bytes_of_string "3") in
  let s := setv s "ULOG_WARN" (bytes_of_string "4") in
  let s := setv s "ULOG_NOTICE" (bytes_of_string "5") in
  let s := setv s "ULOG_INFO" (bytes_of_string "6") in
  let s := setv s "ULOG_DEBUG" (bytes_of_string "7") in
  let s := setv s "ULOG_LEVEL_LETTERS" (bytes_of_string "  CEWNID") in
  (s, if redirect then [OpenDev STD] else []).

(** Digits in octal escapes and numbers of printf, libulog/ulog_api.sh:44, 47. *)
Definition octal (c : Z) : bool := (48 <=? c) && (c <=? 55).
(** A decimal number without superfluous zeros, as %d prints it; libulog/ulog_api.sh:47. *)
Definition decimal (a : list Z) : bool :=
  forallb (fun c => (48 <=? c) && (c <=? 57)) a && negb (zlen a =? 0) && ((zlen a =? 1) || negb (hd 0 a =? 48)).
(** The escapes of one letter: \a \b \f \n \r \t \v and the doubled backslash. libulog/ulog_api.sh:44, 47. *)
Definition escaped (e : Z) : option Z :=
  match find (fun p => fst p =? e) [(97, 7); (98, 8); (102, 12); (110, 10); (114, 13); (116, 9); (118, 11); (92, 92)] with
  | Some p => Some (snd p) | None => None end.
(** [b] before the rest of the output; no code, used for libulog/ulog_api.sh:44, 47. *)
Definition before (b : list Z) (r : option (list Z)) : option (list Z) := option_map (app b) r.

(** printf of the shell: the output for a format and arguments; called at libulog/ulog_api.sh:44 and 47.
    A missing argument counts as empty, or as 0. [None]: conversions, numbers and escapes other than those
    above, and more arguments than conversions, are left out. *)
Fixpoint printf (fmt : list Z) (args : list (list Z)) : option (list Z) :=
  match fmt with
  | [] => match args with [] => Some [] | _ => None end
  | c :: r =>
    if c =? 92 then
      match r with
      | [] => None
      | e :: r1 =>
        if octal e then
          match r1 with
          | f :: r2 =>
            if octal f then
              match r2 with
              | g :: r3 =>
                if octal g then before [((e - 48) * 64 + (f - 48) * 8 + (g - 48)) mod 256] (printf r3 args)
                else before [(e - 48) * 8 + (f - 48)] (printf r2 args)
              | [] => before [(e - 48) * 8 + (f - 48)] (printf r2 args)
              end
            else before [e - 48] (printf r1 args)
          | [] => before [e - 48] (printf r1 args)
          end
        else match escaped e with Some x => before [x] (printf r1 args) | None => None end
      end
    else if c =? 37 then
      match r with
      | e :: r1 =>
        if e =? 37 then before [37] (printf r1 args)
        else if e =? 115 then before (hd [] args) (printf r1 (tl args))
        else if e =? 100 then
          let a := match args with a :: _ => a | [] => [48] end in
          if decimal a then before a (printf r1 (tl args)) else None
        else None
      | [] => None
      end
    else before [c] (printf r args)
  end.

(** The writes by which the output of a builtin leaves the shell, at libulog/ulog_api.sh:44 and 47 and
    after line 22. The buffer has [size] bytes; [lb]: it is also emptied at each end of line (bash), not
    only at the end of the builtin (dash, busybox). [acc]: what is in the buffer, last byte first. *)
Fixpoint pieces (lb : bool) (size : Z) (acc out : list Z) : list (list Z) :=
  match out with
  | [] => match acc with [] => [] | _ => [rev acc] end
  | c :: r =>
    if (lb && (c =? 10)) || (size <=? zlen (c :: acc)) then rev (c :: acc) :: pieces lb size [] r
    else pieces lb size (c :: acc) r
  end.

(** Output to stdout or stderr of the shell, after the redirection of libulog/ulog_api.sh:22. *)
Definition put_std (lb : bool) (size : Z) (s : shell) (out : list Z) : list event :=
  map (fun p => if s_main s then WriteDev STD p else Tty p) (pieces lb size [] out).

(** The number in $level; libulog/ulog_api.sh:44. *)
Definition number (a : list Z) : Z := fold_left (fun v c => 10 * v + (c - 48)) a 0.

(** "%d\0\0\0%s\0%s\n", libulog/ulog_api.sh:47. *)
Definition entry_format : list Z := bytes_of_string "%d\0\0\0%s\0%s\n".

(** ulog, libulog/ulog_api.sh:34-48. *)
Definition ulog (lb : bool) (size : Z) (s : shell) (level message : list Z) : option (shell * list event) :=
  let s := setv s "level" level in
  let s := setv s "message" message in
  let s := match s_env s "ulog_tag" with
           | None => setv s "ulog_tag" (bytes_of_string "(shell script)")
           | Some _ => s end in
  let copy :=
    if is_y s "ULOG_STDERR" then
      option_map (put_std lb size s)
        (printf (ztake 1 (zdrop (number (getv s "level")) (getv s "ULOG_LEVEL_LETTERS")) ++ [32] ++ getv s "message" ++ bytes_of_string "\n") [])
    else Some [] in
  match copy, printf entry_format [getv s "level"; getv s "ulog_tag"; getv s "message"] with
  | Some evs, Some out => Some (s, evs ++ [OpenDev TMP] ++ map (WriteDev TMP) (pieces lb size [] out) ++ [CloseDev TMP])
  | _, _ => None
  end.

(** The functions ulogc, uloge, ulogw, ulogn, ulogi and ulogd, libulog/ulog_api.sh:50-72. *)
Inductive fn := Ulogc | Uloge | Ulogw | Ulogn | Ulogi | Ulogd.
Definition level_var (f : fn) : string :=  (* libulog/ulog_api.sh:50-72 *)
  match f with
  | Ulogc => "ULOG_CRIT" | Uloge => "ULOG_ERR" | Ulogw => "ULOG_WARN" | Ulogn => "ULOG_NOTICE" | Ulogi => "ULOG_INFO" | Ulogd => "ULOG_DEBUG"
  end.

(** What a script does after sourcing the file: a call of one of these functions, output of a builtin to
    stdout or stderr (libulog/ulog_api.sh:21-22), setting and removing variables
    (libulog/ulog_api.sh:5, 37). *)
Inductive stmt := Call (f : fn) (m : list Z) | Output (b : list Z) | Assign (x : string) (v : list Z) | Unset (x : string).
(** One of them; libulog/ulog_api.sh:34-72. *)
Definition exec (lb : bool) (size : Z) (s : shell) (c : stmt) : option (shell * list event) :=
  match c with
  | Call f m => ulog lb size s (getv s (level_var f)) m
  | Output b => Some (s, put_std lb size s b)
  | Assign x v => Some (setv s x v, [])
  | Unset x => Some (unsetv s x, [])
  end.
(** One after the other; libulog/ulog_api.sh:34-72. *)
Fixpoint execs (lb : bool) (size : Z) (s : shell) (l : list stmt) : option (shell * list event) :=
  match l with
  | [] => Some (s, [])
  | c :: l =>
    match exec lb size s c with
    | None => None
    | Some (s', evs) => match execs lb size s' l with None => None | Some (s'', evs') => Some (s'', evs ++ evs') end
    end
  end.
(** The whole script, started with the variables [s]; libulog/ulog_api.sh:14-72. *)
Definition script (lb : bool) (size : Z) (s : shell) (l : list stmt) : option (list event) :=
  let (s1, evs) := sourced s in
  match execs lb size s1 l with Some (_, evs') => Some (evs ++ evs') | None => None end.

(** The system calls on the device, for the shell as task [t]; [clock]: the times at which the driver
    handles the writes, by their number. libulog/ulog_api.sh:22, 47. *)
Fixpoint dev_calls (t : task) (clock : nat -> Z * Z) (n : nat) (evs : list event) : list op :=
  match evs with
  | [] => []
  | Tty _ :: r => dev_calls t clock n r
  | OpenDev f :: r => OpOpen f false true false false :: dev_calls t clock n r
  | WriteDev f b :: r => OpWrite f t (fst (clock n)) (snd (clock n)) (iovec [b]) :: dev_calls t clock (S n) r
  | CloseDev f :: r => OpClose f :: dev_calls t clock n r
  end.
