(** Model of the python binding: ulogpy/ulog.py. The generated module _ulog is an oracle that calls the C
    functions it wraps.

    Text is a list of code points, bytes are a list of numbers below 256. *)
From Coq Require Import ZArith String List Bool.
From Verif Require Import Bytes Parse Iov.
Import ListNotations.
Open Scope Z_scope.

(** ** Levels *)

(** The standard levels of the logging module. Used in the tables of ulogpy/ulog.py:12-31. *)
Definition CRITICAL := 50. Definition ERROR := 40. Definition WARNING := 30. Definition INFO := 20. Definition DEBUG := 10.
(** _prio_logging_map, ulogpy/ulog.py:13-22; [None]: KeyError. *)
Definition prio_logging (p : Z) : option Z :=
  match p with
  | 0 | 1 | 2 => Some CRITICAL | 3 => Some ERROR | 4 | 5 => Some WARNING | 6 => Some INFO | 7 => Some DEBUG
  | _ => None
  end.
(** _logging_prio_map, ulogpy/ulog.py:25-31. *)
Definition logging_prio (l : Z) : option Z :=
  if l =? CRITICAL then Some 0 else if l =? ERROR then Some 3 else if l =? WARNING then Some 4
  else if l =? INFO then Some 6 else if l =? DEBUG then Some 7 else None.

(** ** Text *)

(** str.encode("utf-8"): [None] is UnicodeEncodeError, for surrogates.
    Used at ulogpy/ulog.py:249-250, 309 and 322. *)
Definition utf8_char (c : Z) : option (list Z) :=
  if c <? 0x80 then Some [c]
  else if c <? 0x800 then Some [0xc0 + c / 64; 0x80 + c mod 64]
  else if (0xd800 <=? c) && (c <? 0xe000) then None
  else if c <? 0x10000 then Some [0xe0 + c / 4096; 0x80 + c / 64 mod 64; 0x80 + c mod 64]
  else Some [0xf0 + c / 262144; 0x80 + c / 4096 mod 64; 0x80 + c / 64 mod 64; 0x80 + c mod 64].
(** The same for a text, ulogpy/ulog.py:249-250, 309 and 322. *)
Fixpoint utf8 (s : list Z) : option (list Z) :=
  match s with
  | [] => Some []
  | c :: s => match utf8_char c, utf8 s with Some a, Some b => Some (a ++ b) | _, _ => None end
  end.
(** bytes.splitlines(): lines end with LF, CR or CR LF; [cur] is the line so far, reversed.
    Used at ulogpy/ulog.py:251 and 328. *)
Fixpoint split (cur l : list Z) : list (list Z) :=
  match l with
  | [] => match cur with [] => [] | _ => [rev cur] end
  | c :: r =>
    if c =? 10 then rev cur :: split [] r
    else if c =? 13 then
      match r with
      | d :: r' => if d =? 10 then rev cur :: split [] r' else rev cur :: split [] r
      | [] => [rev cur]
      end
    else split (c :: cur) r
  end.
(** As [split], ulogpy/ulog.py:251 and 328. *)
Definition splitlines (l : list Z) : list (list Z) := split [] l.
(** bytes.startswith. Used at ulogpy/ulog.py:325. *)
Definition startswith (p l : list Z) : bool := bytes_eqb (firstn (length p) l) p.

(** ** The handlers *)

(** A record: its level, the name of its logger and the message as the formatter gives it.
    At ulogpy/ulog.py:247-258 and 307-330. *)
Record record := mkRec { r_level : Z; r_name : list Z; r_text : list Z }.
(** Exceptions of the level table (KeyError) and of str.encode, ulogpy/ulog.py:247-282 and 307-330. *)
Inductive exn := KeyError | UnicodeEncodeError.
(** ULogHandler.emit, ulogpy/ulog.py:307-330: the calls of ulog_log_str, as priority, tag and bytes. The
    result is an exception or these calls; a bytes object given to C ends with a NUL. *)
Definition emit (r : record) : exn + list (Z * list Z * list Z) :=
  match logging_prio (r_level r) with
  | None => inl KeyError
  | Some prio =>
    match utf8 (r_name r), utf8 (r_text r) with
    | Some tag, Some message =>
      let prio := if startswith (bytes_of_string "EVT:") message then 5 else prio in
      inr (map (fun line => (prio, tag, line ++ [0])) (splitlines message))
    | _, _ => inl UnicodeEncodeError
    end
  end.

(** ULogDeviceHandler: the ids, names and times it uses, ulogpy/ulog.py:98-104 and 165-245. The process
    name is bytes; the thread name is bytes once set, the text given by the threading module before. *)
Inductive tname := Bytes_name (b : list Z) | Text_name (s : list Z).
(** The fields of ULogDeviceHandler, ulogpy/ulog.py:96-125. *)
Record handler := mkHandler { h_raw : bool; h_pid : Z; h_tid : Z; h_pname : list Z; h_tname : tname; h_fd : Z }.
(** char_pointer_cast of a name: encoded, with its NUL; len() of it counts code points when it is text.
    ulogpy/ulog.py:267-268. *)
Definition name_bytes (n : tname) : option (list Z) := match n with Bytes_name b => Some b | Text_name s => utf8 s end.
(** len() of the name, ulogpy/ulog.py:271-272. *)
Definition name_len (n : tname) : Z := match n with Bytes_name b => zlen b | Text_name s => zlen s end.
(** format_raw_entry, ulogpy/ulog.py:260-274: strings are given with a pointer and a length. The clock,
    lines 263-265, is an oracle. *)
Definition format_raw_entry (h : handler) (sec nsec prio : Z) (tag message : list Z) : option raw_entry :=
  match name_bytes (h_tname h) with
  | None => None
  | Some tn =>
    Some (mkRaw (h_pid h) (h_tid h) sec nsec 0 prio (h_pname h ++ [0]) (ztake (name_len (h_tname h) + 1) (tn ++ [0]))
            (tag ++ [0]) (Some (message ++ [0])))
  end.
(** What one line is handed over as: to ulog_raw_log or to os.writev, ulogpy/ulog.py:252-258 and 276-282. *)
Definition device_line (h : handler) (sec nsec prio : Z) (tag line : list Z) : exn + prep :=
  if h_raw h then
    match format_raw_entry h sec nsec prio tag line with
    | None => inl UnicodeEncodeError
    | Some r => inr (ulog_raw_log (h_fd h) (Some r))
    end
  else inr (Writev [le 4 prio; tag ++ [0]; line ++ [0]]).
(** ULogDeviceHandler.emit, ulogpy/ulog.py:247-258; [times]: the clock for each line. *)
Fixpoint device_lines (h : handler) (prio : Z) (tag : list Z) (times : list (Z * Z)) (lines : list (list Z)) : exn + list prep :=
  match lines, times with
  | line :: lines, (sec, nsec) :: times =>
    match device_line h sec nsec prio tag line with
    | inl e => inl e
    | inr p => match device_lines h prio tag times lines with inl e => inl e | inr l => inr (p :: l) end
    end
  | _, _ => inr []
  end.
(** ULogDeviceHandler.emit, ulogpy/ulog.py:247-258. *)
Definition device_emit (h : handler) (times : list (Z * Z)) (r : record) : exn + list prep :=
  match logging_prio (r_level r) with
  | None => inl KeyError
  | Some prio =>
    match utf8 (r_name r), utf8 (r_text r) with
    | Some tag, Some message => device_lines h prio tag times (splitlines message)
    | _, _ => inl UnicodeEncodeError
    end
  end.

(** ** The bridge *)

(** A write function: the one of the library before the bridge, or the bridge. ulogpy/ulog.py:37-91. *)
Inductive wf := Native | Bridge.
(** The module state: ulog_kernel_write_func, _ulog_loggers (ulogpy/ulog.py:34 and 63) and the write
    function the C library has (ulog_get_write_func and ulog_set_write_func, libulog/ulog_write.c). *)
Record bridge := mkBridge { b_kernel : option wf; b_loggers : list nat; b_current : wf }.
(** Before the first call, ulogpy/ulog.py:34 and 63-64. *)
Definition b_init : bridge := mkBridge None [] Native.
(** The operator in on a list, ulogpy/ulog.py:69 and 87. *)
Definition mem (l : nat) (s : list nat) : bool := existsb (Nat.eqb l) s.
(** enable_bridge, ulogpy/ulog.py:67-82; setting a function that is not NULL does not fail. *)
Definition enable_bridge (l : nat) (forward : bool) (s : bridge) : bridge :=
  let loggers := if mem l (b_loggers s) then b_loggers s else b_loggers s ++ [l] in
  let kernel := if negb forward then None
                else match b_kernel s with None => Some (b_current s) | k => k end in
  mkBridge kernel loggers Bridge.
(** list.remove: the first occurrence. Used at ulogpy/ulog.py:88. *)
Fixpoint remove1 (l : nat) (s : list nat) : list nat :=
  match s with [] => [] | x :: s => if Nat.eqb l x then s else x :: remove1 l s end.
(** disable_bridge, ulogpy/ulog.py:85-88. *)
Definition disable_bridge (l : nat) (s : bridge) : bridge :=
  mkBridge (b_kernel s) (if mem l (b_loggers s) then remove1 l (b_loggers s) else b_loggers s) (b_current s).

(** What a message leads to: it reaches the native function, or a logger handles a record of this level
    and text. ulogpy/ulog.py:37-60. *)
Inductive out := Kernel (prio : Z) (buf : list Z) | Handled (logger : nat) (level : Z) (text : list Z).
(** str.strip with CR and LF. Used at ulogpy/ulog.py:45. *)
Definition crlf (c : Z) : bool := (c =? 10) || (c =? 13).
(** Part of str.strip, ulogpy/ulog.py:45. *)
Fixpoint lstrip (l : list Z) : list Z := match l with [] => [] | c :: r => if crlf c then lstrip r else l end.
(** Used at ulogpy/ulog.py:45. *)
Definition strip (l : list Z) : list Z := rev (lstrip (rev (lstrip l))).
(** Calling a write function: _ulog_bridge, ulogpy/ulog.py:37-60. [enabled] is isEnabledFor of each
    logger. The decoded text is kept as bytes. An exception in the bridge is reported and dropped by
    ctypes: the KeyError of line 46, and the RecursionError once [depth] calls are nested. *)
Fixpoint call (enabled : nat -> Z -> bool) (depth : nat) (s : bridge) (f : wf) (prio : Z) (buf : list Z) : list out :=
  match depth with
  | O => []
  | S depth =>
    match f with
    | Native => [Kernel prio buf]
    | Bridge =>
      match b_kernel s with None => [] | Some g => call enabled depth s g prio buf end ++
      match prio_logging prio with
      | None => []
      | Some level => map (fun l => Handled l level (strip (cstr buf))) (filter (fun l => enabled l level) (b_loggers s))
      end
    end
  end.

(** ** Throttled logs *)

(** LoggerPlus, ulogpy/ulog.py:388-446: _saved_msg maps a text to what _throttled_log or _changed_log
    left there. *)
Inductive saved := Times (last masked : Z) | Value (v : Z).
(** self._saved_msg, ulogpy/ulog.py:391. *)
Definition table := list (list Z * saved).
(** Lookup, ulogpy/ulog.py:393-428. *)
Fixpoint get (k : list Z) (t : table) : option saved :=
  match t with [] => None | (k', v) :: t => if bytes_eqb k k' then Some v else get k t end.
(** Assignment, ulogpy/ulog.py:393-428. *)
Definition put (k : list Z) (v : saved) (t : table) : table := (k, v) :: t.
(** ulogpy/ulog.py:398. *)
Definition SUFFIX : list Z := bytes_of_string "_throttled".
(** The calls. For a throttled one: the level function, the clock, the delay and the formatted text;
    the clock is taken as an exact number of time units. For the other: the value and the message.
    ulogpy/ulog.py:393-466. *)
Inductive lop := Throttled (level now delay : Z) (text : list Z) | Changed (level v : Z) (msg : list Z).
(** What is logged: nothing, the text, the text with a count, or an exception. ulogpy/ulog.py:393-428. *)
Inductive lout := Nothing | Logged (level : Z) | Counted (level masked : Z) | Fails.
(** _throttled_log, ulogpy/ulog.py:393-416, and _changed_log, lines 418-427. A saved value that is not a
    pair cannot be unpacked (line 406); a pair is different from any other value (line 424). *)
Definition lstep (t : table) (o : lop) : table * lout :=
  match o with
  | Throttled level now delay text =>
    let k := text ++ SUFFIX in
    match get k t with
    | None => (put k (Times now 0) t, Logged level)
    | Some (Value _) => (t, Fails)
    | Some (Times last masked) =>
      if now - last >? delay then (put k (Times now 0) t, if masked =? 0 then Logged level else Counted level masked)
      else (put k (Times last (masked + 1)) t, Nothing)
    end
  | Changed level v msg =>
    match get msg t with
    | Some (Value w) => if v =? w then (t, Nothing) else (put msg (Value v) t, Logged level)
    | _ => (put msg (Value v) t, Logged level)
    end
  end.
(** No code: a sequence of calls, ulogpy/ulog.py:393-466. *)
Fixpoint lrun (t : table) (l : list lop) : list lout :=
  match l with [] => [] | o :: l => let (t, x) := lstep t o in x :: lrun t l end.
