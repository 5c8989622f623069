(** Model of the syslog wrapper ulogwrapper/ulog_syslog.c, for one thread at a time (the mutex of
    openlog is left out). *)
From Coq Require Import ZArith String List Bool.
From Verif Require Import Bytes.
From Verif Require Writer.
Import ListNotations.
Open Scope Z_scope.

(** A printf format: literal text and conversions. An argument is represented by the text that its
    conversion prints, so that every conversion takes one argument.
    Formats are used at ulogwrapper/ulog_syslog.c:105-159. *)
Inductive item := Lit (s : list Z) | Conv.

(** The formatting of vsnprintf and vsprintf, ulogwrapper/ulog_syslog.c:84 and 100: the text and what
    is left of the argument list; [None] when there are not enough arguments. *)
Fixpoint vformat (fmt : list item) (ap : list (list Z)) : option (list Z * list (list Z)) :=
  match fmt with
  | [] => Some ([], ap)
  | Lit s :: fmt => match vformat fmt ap with Some (x, r) => Some (s ++ x, r) | None => None end
  | Conv :: fmt =>
    match ap with
    | [] => None
    | a :: ap => match vformat fmt ap with Some (x, r) => Some (a ++ x, r) | None => None end
    end
  end.

(** What does not change in a process: ULOGWRAPPER_LONG_LOGS is set or not, ulogwrapper/ulog_syslog.c:65;
    the level given by ulog_init_cookie (modelled in Cookies.v), libulog/ulog_write.c:365-420; the byte
    malloc fills memory with, [None] when it fails. *)
Record env := mkEnv { e_long : bool; e_level : Z; e_malloc : option Z }.

(** ulog_vlog_notruncate, ulogwrapper/ulog_syslog.c:77-103: the bytes given to ulog_log_buf, if any.
    [stack]: initial content of buf. The argument list [ap] is used twice: the second use goes on
    where the first one stopped, as with the va_list of the System V ABI (ISO C leaves it undefined). *)
Definition vlog_notruncate (e : env) (long : bool) (stack : list Z) (fmt : list item) (ap : list (list Z)) : M (option (list Z)) :=
  let bufsize := zlen stack in
  match vformat fmt ap with
  | None => Bug Oob
  | Some (text, ap) =>
    let* (ret, buf) := Writer.vsnprintf stack (Some text) in
    if ret <? 0 then Ok None
    else if ret <? bufsize then (let* b := mem_read buf 0 (ret + 1) in Ok (Some b))
    else if negb long then (let* b := mem_read buf 0 bufsize in Ok (Some b))
    else
      let mbufsize := ret + 1 in
      match e_malloc e with
      | None => Ok None
      | Some c =>
        match vformat fmt ap with
        | None => Bug Oob
        | Some (text, _) =>
          let* mbuf := mem_write (zrepeat c mbufsize) 0 (text ++ [0]) in
          let* b := mem_read mbuf 0 mbufsize in Ok (Some b)
        end
      end
  end.

(** The static variables, ulogwrapper/ulog_syslog.c:26-34: init_done, cookie.name, allow_long_logs,
    cookie.level. *)
Record state := mkState { y_init : bool; y_name : list Z; y_long : bool; y_level : Z }.
(** Static variables at first, ulogwrapper/ulog_syslog.c:29-34. *)
Definition init : state := mkState false [] false (-1).

(** What can be seen: a message given to the writer of ulog with priority, tag and bytes; the result of
    setlogmask. ulogwrapper/ulog_syslog.c:105-184. *)
Inductive event := Emit (prio : Z) (tag data : list Z) | Ret (mask : Z).

(** ulog_log_buf, libulog/ulog_write.c:457-465. *)
Definition log_buf (e : env) (s : state) (prio : Z) (data : list Z) : state * list event :=
  let s := if y_level s <? 0 then mkState (y_init s) (y_name s) (y_long s) (e_level e) else s in
  (s, if Z.land prio 7 <=? y_level s then [Emit prio (y_name s) data] else []).

(** openlog without the message, ulogwrapper/ulog_syslog.c:58-70. *)
Definition do_init (e : env) (s : state) (ident : option (list Z)) : state :=
  if y_init s then s
  else mkState true (match ident with Some i => i | None => y_name s end) (y_long s || e_long e) (y_level s).

(** openlog, ulogwrapper/ulog_syslog.c:53-75; the message of lines 73-74 goes through ulog_log, which
    takes the decision of ulog_log_buf. *)
Definition openlog (e : env) (s : state) (ident : option (list Z)) (option : Z) : state * list event :=
  let s := do_init e s ident in
  if Z.land option 8 =? 0 then (s, []) else log_buf e s 6 (bytes_of_string "redirecting syslog to ulog" ++ [0]).

(** syslog, vsyslog, __syslog_chk and __vsyslog_chk, ulogwrapper/ulog_syslog.c:105-159: the same code. *)
Definition syslog (e : env) (s : state) (stack : list Z) (priority : Z) (fmt : list item) (ap : list (list Z)) : M (state * list event) :=
  let s := do_init e s None in
  let* r := vlog_notruncate e (y_long s) stack fmt ap in
  Ok (match r with Some data => log_buf e s (Z.land priority 7) data | None => (s, []) end).

(** The loop of setlogmask, ulogwrapper/ulog_syslog.c:168-171. *)
Fixpoint mask_loop (fuel : nat) (mask level : Z) : M Z :=
  match fuel with
  | O => Bug Hang
  | S fuel => if mask =? 0 then Ok level else mask_loop fuel (Z.shiftr (u32 mask) 1) (level + 1)
  end.

(** ulog_set_level on an initialised cookie, libulog/ulog_write.c:474-487; nothing else of the
    initialisation of the cookie is seen here since the level is overwritten. *)
Definition set_level (s : state) (level : Z) : state :=
  let level := if level <? 0 then 0 else level in
  let level := if level >? 7 then 7 else level in
  mkState (y_init s) (y_name s) (y_long s) level.

(** setlogmask, ulogwrapper/ulog_syslog.c:161-184. *)
Definition setlogmask (e : env) (s : state) (mask : Z) : M (state * list event) :=
  let s := do_init e s None in
  let* level := mask_loop 34 mask (-1) in
  let ret := Z.shiftl 1 (y_level s + 1) - 1 in
  let level := if level <? 2 then 2 else if level >? 7 then 7 else level in
  Ok (set_level s level, [Ret ret]).

(** Calls of the application; [OClose] is closelog, ulogwrapper/ulog_syslog.c:119-121. *)
Inductive op :=
  | OOpen (ident : option (list Z)) (option : Z)
  | OLog (stack : list Z) (priority : Z) (fmt : list item) (ap : list (list Z))
  | OMask (mask : Z)
  | OClose.

(** ulogwrapper/ulog_syslog.c:54-184, as cited above. *)
Definition step (e : env) (s : state) (o : op) : M (state * list event) :=
  match o with
  | OOpen i k => Ok (openlog e s i k)
  | OLog st p f a => syslog e s st p f a
  | OMask m => setlogmask e s m
  | OClose => Ok (s, [])
  end.

(** No code: a sequence of calls, ulogwrapper/ulog_syslog.c. *)
Fixpoint run (e : env) (s : state) (ops : list op) : M (state * list event) :=
  match ops with
  | [] => Ok (s, [])
  | o :: ops =>
    let* (s, ev) := step e s o in
    let* (s, evs) := run e s ops in Ok (s, ev ++ evs)
  end.
