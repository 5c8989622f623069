(** Model of the redirection of std::cerr, libulog-redirect/ulog_stdcerr.cpp, over the C++ streams of
    libulog/ulog.cpp (Stream.v), for one thread. *)
From Coq Require Import ZArith String List Bool.
From Verif Require Import Bytes Stream.
Import ListNotations.
Open Scope Z_scope.

(** __UlogstreamCerr, libulog/ulog.cpp:178-182, has the level of UlogI but is another object: it has the
    number 8 among the streams, its messages have the level 6 (ULOG_INFO). *)
Definition CERR : Z := 8.
(** The priority of std::cerr is INFO, libulog/ulog.cpp:179-182. *)
Definition relevel (e : event) : event := match e with Log l t x => Log (if l =? CERR then 6 else l) t x end.

(** [c_on]: the buffer of std::cerr is __UlogstreamCerr; the badbit of std::cerr is st_bad of number 8 (nothing sets it with
    the original buffer: writing to the file descriptor 2 works); [c_str]: the streams of ulog.
    libulog-redirect/ulog_stdcerr.cpp:24-27. *)
Record world := mkW { c_on : bool; c_str : state }.
(** Before the redirection, libulog-redirect/ulog_stdcerr.cpp:24-27. *)
Definition start : world := mkW false init.

(** What the thread does: use the streams of ulog (Stream.v), redirect std::cerr, or use std::cerr:
    - [Insert]: std::cerr << s, one call of sputn;
    - [Char]: std::cerr.put(c), one call of sputc;
    - [Endl]: std::cerr << std::endl, put of a newline and flush.
    The call of the redirection is in libulog-redirect/ulog_stdcerr.cpp:24-27; the others are of the C++ library. *)
Inductive op := Ulog (o : Stream.op) | Redirect | Insert (s : list Z) | Char (c : Z) | Endl.

(** What is seen: a call of ulog_log_str; bytes on the file descriptor 2. At libulog/ulog.cpp:124-142. *)
Inductive out := Logged (e : event) | Stderr (b : list Z).

(** std::cerr has the flag unitbuf: each output operation ends with a call of sync of the buffer (the
    destructor of std::ostream::sentry), here the operation Flush of Stream.v.
    sync is at libulog/ulog.cpp:124-142. *)
Definition unit_op (cap : Z) (s : state) (o : Stream.op) : state * list out :=
  let '(s, e1) := Stream.step cap s o in
  let '(s, e2) := Stream.step cap s (Flush CERR) in
  (s, map (fun e => Logged (relevel e)) (e1 ++ e2)).

(** ulog_stdcerr_redirect, libulog-redirect/ulog_stdcerr.cpp:24-27: std::ios::rdbuf sets the buffer and
    clears the state of the stream. *)
Definition step (cap : Z) (w : world) (o : op) : world * list out :=
  match o with
  | Ulog o => let '(s, e) := Stream.step cap (c_str w) o in (mkW (c_on w) s, map (fun e => Logged (relevel e)) e)
  | Redirect => (mkW true (mkState (st_str (c_str w)) (st_tag (c_str w)) (st_fill (c_str w)) (upd (st_bad (c_str w)) CERR false)), [])
  | Insert x => if c_on w then let '(s, e) := unit_op cap (c_str w) (Write CERR x) in (mkW true s, e) else (w, [Stderr x])
  | Char c => if c_on w then let '(s, e) := unit_op cap (c_str w) (Put CERR c) in (mkW true s, e) else (w, [Stderr [c]])
  | Endl =>
    if c_on w then
      let '(s, e) := unit_op cap (c_str w) (Put CERR 10) in
      let '(s, e2) := Stream.step cap s (Flush CERR) in (mkW true s, e ++ map (fun e => Logged (relevel e)) e2)
    else (w, [Stderr [10]])
  end.
(** No code: a sequence of operations of a thread on the streams of libulog/ulog.cpp:88-182. *)
Fixpoint run (cap : Z) (w : world) (l : list op) : world * list out :=
  match l with
  | [] => (w, [])
  | o :: l => let '(w, e1) := step cap w o in let '(w, e2) := run cap w l in (w, e1 ++ e2)
  end.
