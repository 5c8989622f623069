(** Model of the command-line tool ulogger/ulogger.c.

    Command-line strings are given without their NUL. [W]: number of bits of long (32 or 64). The option
    parser getopt_long is left out: options are given as a list in the order of the command line; the
    options -h and unknown ones, which print the usage and exit, are left out. The standard input is the
    list of its bytes; clock_gettime and writev are oracles. *)
From Coq Require Import ZArith String List Bool.
From Verif Require Import Bytes Parse Iov Klog.
Import ListNotations.
Open Scope Z_scope.

(** parse_level, ulogger/ulogger.c:55-91. *)
Definition parse_level (c : Z) : Z :=
  if isdigit c then (let level := c - 48 in if level >? 7 then 7 else level)
  else if c =? 67 then 2 else if c =? 69 then 3 else if c =? 87 then 4 else if c =? 78 then 5
  else if c =? 73 then 6 else if c =? 68 then 7 else 6.

(** strtol(str, &endptr, 10) stored in an int: the number and the text from endptr.
    C library; used at ulogger/ulogger.c:93-139. *)
Definition strtol_int (W : Z) (s : list Z) : M (Z * list Z) :=
  let* (neg, ds, e) := strto s in
  let v := num_of ds in
  Ok (s32 (if neg : bool then Z.max (- v) (- 2 ^ (W - 1)) else Z.min v (2 ^ (W - 1) - 1)), e).

(** parse_int32, ulogger/ulogger.c:93-108; [None]: an error, nothing is stored. *)
Definition parse_int32 (W : Z) (str : list Z) : M (option Z) :=
  match str with
  | [] => Ok None
  | _ =>
    let* (v, e) := strtol_int W (str ++ [0]) in
    let* c := ch e in
    Ok (if c =? 0 then Some v else None)
  end.

(** parse_time, ulogger/ulogger.c:110-139, on a block that starts with a terminated string: what is
    stored in seconds and nanoseconds, if anything, and where *pendptr (initially the string) points. *)
Definition parse_time (W : Z) (s : list Z) : M (option (Z * Z) * list Z) :=
  let* c := ch s in
  if (c =? 0) || (c =? 32) then Ok (None, s)
  else
    let* (sec, e) := strtol_int W s in
    let* c := ch e in
    if c =? 32 then
      let str := tl e in
      let* (n, e) := strtol_int W str in
      Ok (Some (sec, if zlen str =? zlen e then 0 else n), e)
    else Ok (None, e).

(** space_skip, ulogger/ulogger.c:141-150. *)
Fixpoint space_skip (s : list Z) : list Z :=
  match s with c :: r => if c =? 32 then space_skip r else s | [] => [] end.

(** What the options set: raw.entry.pid and tid, raw.pname, raw.prio, raw.tag, has_time, copy_stderr.
    ulogger/ulogger.c:195-252. *)
Record settings := mkSet { u_pid : Z; u_name : list Z; u_prio : Z; u_tag : list Z; u_time : bool; u_err : bool }.
(** The options, ulogger/ulogger.c:218-252. *)
Inductive opt := OPid (a : list Z) | OTime | OName (a : list Z) | OPrio (a : list Z) | OStderr | OTag (a : list Z).

(** The defaults, ulogger/ulogger.c:195-204; [pid]: getpid, [name]: program_invocation_short_name. *)
Definition defaults (pid : Z) (name : list Z) : settings := mkSet pid name ULOG_INFO (bytes_of_string "ulogger") false false.

(** The options, ulogger/ulogger.c:218-252. *)
Definition set_opt (W : Z) (c : settings) (o : opt) : M settings :=
  match o with
  | OPid a => let* p := parse_int32 W a in
              Ok (match p with Some v => mkSet v (u_name c) (u_prio c) (u_tag c) (u_time c) (u_err c) | None => c end)
  | OTime => Ok (mkSet (u_pid c) (u_name c) (u_prio c) (u_tag c) true (u_err c))
  | OName a => Ok (mkSet (u_pid c) a (u_prio c) (u_tag c) (u_time c) (u_err c))
  | OPrio a => Ok (mkSet (u_pid c) (u_name c) (parse_level (match a with [] => 0 | x :: _ => x end)) (u_tag c) (u_time c) (u_err c))
  | OStderr => Ok (mkSet (u_pid c) (u_name c) (u_prio c) (u_tag c) (u_time c) true)
  | OTag a => Ok (mkSet (u_pid c) (u_name c) (u_prio c) a (u_time c) (u_err c))
  end.
(** The loop of ulogger/ulogger.c:218-252. *)
Fixpoint set_opts (W : Z) (c : settings) (l : list opt) : M settings :=
  match l with [] => Ok c | o :: l => let* c := set_opt W c o in set_opts W c l end.

(** fgets(buf, n + 1, stdin): the bytes stored before the NUL and the rest of the input.
    C library; used at ulogger/ulogger.c:277. *)
Fixpoint fgets (n : nat) (s : list Z) : list Z * list Z :=
  match n, s with
  | O, _ => ([], s)
  | _, [] => ([], [])
  | S n, c :: r => if c =? 10 then ([c], r) else let (a, b) := fgets n r in (c :: a, b)
  end.
(** The condition of the loop at ulogger/ulogger.c:277, buf having 256 bytes. *)
Fixpoint read_lines (fuel : nat) (s : list Z) : M (list (list Z)) :=
  match s with
  | [] => Ok []
  | _ => match fuel with
         | O => Bug Hang
         | S fuel => let (a, b) := fgets 255 s in let* l := read_lines fuel b in Ok (a :: l)
         end
  end.

(** A message with its time. Given to ulogger_log, ulogger/ulogger.c:152-172. *)
Record item := mkItem { i_sec : Z; i_nsec : Z; i_msg : list Z }.

(** The loop on the input, ulogger/ulogger.c:277-291. [clock i]: answer of clock_gettime for message
    number [i]; [sec], [nsec]: values of raw.entry left by the message before. *)
Fixpoint items_stdin (W : Z) (time : bool) (clock : nat -> option (Z * Z)) (i : nat) (sec nsec : Z) (lines : list (list Z)) : M (list item) :=
  match lines with
  | [] => Ok []
  | l :: lines =>
    match (if time then None else clock i) with
    | Some (s, n) =>
      let* r := items_stdin W time clock (S i) (s32 s) (s32 n) lines in Ok (mkItem (s32 s) (s32 n) (cstr l) :: r)
    | None =>
      let* (t, pos) := parse_time W (l ++ [0]) in
      let (sec, nsec) := match t with Some p => p | None => (sec, nsec) end in
      let* r := items_stdin W time clock (S i) sec nsec lines in Ok (mkItem sec nsec (cstr (space_skip pos)) :: r)
    end
  end.

(** The loop on the arguments, ulogger/ulogger.c:255-274; the fuel is the number of arguments. *)
Fixpoint items_args (fuel : nat) (W : Z) (time : bool) (clock : nat -> option (Z * Z)) (i : nat) (sec nsec : Z) (args : list (list Z)) : M (list item) :=
  match fuel, args with
  | _, [] => Ok []
  | O, _ => Bug Hang
  | S fuel, a :: rest =>
    match (if time then None else clock i) with
    | Some (s, n) =>
      let* r := items_args fuel W time clock (S i) (s32 s) (s32 n) rest in Ok (mkItem (s32 s) (s32 n) a :: r)
    | None =>
      match rest with
      | [] => Ok [mkItem sec nsec a]
      | b :: rest' =>
        let* p := parse_int32 W a in
        match p with
        | None => let* r := items_args fuel W time clock (S i) sec nsec rest in Ok (mkItem sec nsec a :: r)
        | Some sec =>
          match rest' with
          | [] => Ok [mkItem sec nsec b]
          | d :: rest'' =>
            let* q := parse_int32 W b in
            match q with
            | None => let* r := items_args fuel W time clock (S i) sec nsec rest' in Ok (mkItem sec nsec b :: r)
            | Some nsec => let* r := items_args fuel W time clock (S i) sec nsec rest'' in Ok (mkItem sec nsec d :: r)
            end
          end
        end
      end
    end
  end.

(** What can be seen: a vector given to writev on the device, a call of ULOG_STR (priority, tag, text), a
    text on stderr, the end by exit. The message printed on stderr when a write fails (line 161) is left
    out. *)
Inductive event := Write (v : list (list Z)) | Str (prio : Z) (tag text : list Z) | Err (text : list Z) | Exit (code : Z).

(** prios, ulogger/ulogger.c:155. *)
Definition prios : list Z := bytes_of_string "01CEWNID".

(** The copy on stderr, ulogger/ulogger.c:164-170. *)
Definition err_text (c : settings) (msg : list Z) : M (list Z) :=
  let* p := load prios (u_prio c) in
  Ok (p :: 32 :: u_tag c ++ [58; 32] ++ msg ++
      (match msg with [] => [10] | _ => if znth (zlen msg - 1) msg =? 10 then [] else [10] end)).

(** ulogger_log, ulogger/ulogger.c:152-172; [ret]: what writev returns, an errno negated if it fails.
    Second result: whether the process goes on. The tag given to ULOG_STR is the name put in the cookie
    at lines 212-215. *)
Definition ulogger_log (fd ret : Z) (c : settings) (it : item) : M (list event * bool) :=
  let raw := mkRaw (u_pid c) (u_pid c) (i_sec it) (i_nsec it) 0 (u_prio c) (u_name c ++ [0]) [] (u_tag c ++ [0]) (Some (i_msg it ++ [0])) in
  let '(ev, r) :=
    if fd >=? 0 then match ulog_raw_log fd (Some raw) with Refuse r => ([], r) | Writev v => ([Write v], raw_result ret) end
    else ([Str (u_prio c) (bytes_of_string "ulogger") (i_msg it)], 0) in
  if r <? 0 then Ok (ev ++ [Exit (- r)], false)
  else if u_err c then (let* t := err_text c (i_msg it) in Ok (ev ++ [Err t], true))
  else Ok (ev, true).

(** The calls of ulogger_log for successive messages, ulogger/ulogger.c:254-291. *)
Fixpoint log_all (fd : Z) (res : nat -> Z) (i : nat) (c : settings) (items : list item) : M (list event) :=
  match items with
  | [] => Ok [Exit 0]
  | it :: items =>
    let* (ev, go) := ulogger_log fd (res i) c it in
    if go : bool then (let* r := log_all fd res (S i) c items in Ok (ev ++ r)) else Ok ev
  end.

(** main, ulogger/ulogger.c:174-295; [fd]: the device, negative when it cannot be opened. The time fields
    are 0 at the start (memset, line 195). *)
Definition main (W fd pid : Z) (name : list Z) (opts : list opt) (args : list (list Z)) (input : list Z)
    (clock : nat -> option (Z * Z)) (res : nat -> Z) : M (list event) :=
  let* c := set_opts W (defaults pid name) opts in
  let* items := match args with
                | [] => let* l := read_lines (length input) input in items_stdin W (u_time c) clock O 0 0 l
                | _ => items_args (length args) W (u_time c) clock O 0 0 args
                end in
  log_all fd res O c items.
