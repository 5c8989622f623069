(** Model of the C++ streams libulog/ulog.cpp, for one thread. The part of the standard library used
    (std::ostream over std::streambuf) is modelled by its documented behaviour. *)
From Coq Require Import ZArith String List Bool.
From Verif Require Import Bytes.
Import ListNotations.
Open Scope Z_scope.

(** ULOG_CPP_BUF_SIZE, libulog/ulog.cpp:32. *)
Definition CPP_BUF_SIZE : Z := 512.

(** The state seen by one thread: the string attached to mBufKey (shared by the streams of the thread,
    libulog/ulog.cpp:45-47), the tag attached to mTagKey (a cookie is represented by its name, [None]:
    the default cookie), and for each stream (numbered by its level, libulog/ulog.cpp:159-165) the
    number of characters in its fake buffer and the badbit of its ostream. *)
Record state := mkState { st_str : option (list Z); st_tag : option (list Z); st_fill : Z -> Z; st_bad : Z -> bool }.
(** A thread before its first use of a stream, libulog/ulog.cpp:38-57. *)
Definition init : state := mkState None None (fun _ => 0) (fun _ => false).

(** No code: change for one stream. *)
Definition upd {A : Type} (f : Z -> A) (i : Z) (v : A) : Z -> A := fun j => if j =? i then v else f j.

(** A call of ulog_log_str: level, tag and text. libulog/ulog.cpp:124-142. *)
Inductive event := Log (level : Z) (tag : option (list Z)) (text : list Z).

(** Ulogstream::xsputn, libulog/ulog.cpp:99-122. [cap]: the capacity after reserve(mBufSize), at least
    512; append never exceeds it, so that it does not change. A negative count, from the conversion of n
    to int, would make append throw: not modelled, [n] is below 2^31. *)
Definition xsputn (cap : Z) (str : option (list Z)) (s : list Z) : option (list Z) :=
  match str with
  | None => Some (ztake (Z.min (zlen s) CPP_BUF_SIZE) s)
  | Some c => Some (c ++ ztake (Z.min (zlen s) (Z.max 0 (cap - zlen c))) s)
  end.

(** Ulogstream::sync, libulog/ulog.cpp:124-142, for the stream of level [l]. *)
Definition sync (s : state) (l : Z) : state * list event :=
  let '(str, ev) :=
    match st_str s with
    | Some (c :: cs) => (Some [], [Log l (st_tag s) (cstr (c :: cs))])
    | x => (x, [])
    end in
  (mkState str (st_tag s) (upd (st_fill s) l 0) (st_bad s), ev).

(** What an application does with the streams.
    - [Tag]: UlogX, OstreamUlog::operator(), libulog/ulog.cpp:64-69 and 151-154;
    - [Write]: output of a string without padding, one call of sputn;
    - [Put]: std::ostream::put and everything that goes through sputc: it stores in the fake buffer of
      the base class; when that is full, overflow() of the base class fails and sets badbit;
    - [Flush]: std::flush, sync; std::endl is [Put] of a newline and [Flush].
    All but [Tag] do nothing when badbit is set. *)
Inductive op := Tag (tag : list Z) | Write (l : Z) (s : list Z) | Put (l c : Z) | Flush (l : Z).

(** libulog/ulog.cpp:100-165, as cited above. *)
Definition step (cap : Z) (s : state) (o : op) : state * list event :=
  match o with
  | Tag t => (mkState (st_str s) (Some t) (st_fill s) (st_bad s), [])
  | Write l x => if st_bad s l then (s, []) else (mkState (xsputn cap (st_str s) x) (st_tag s) (st_fill s) (st_bad s), [])
  | Put l _ =>
    if st_bad s l then (s, [])
    else if st_fill s l <? CPP_BUF_SIZE then (mkState (st_str s) (st_tag s) (upd (st_fill s) l (st_fill s l + 1)) (st_bad s), [])
    else (mkState (st_str s) (st_tag s) (st_fill s) (upd (st_bad s) l true), [])
  | Flush l => if st_bad s l then (s, []) else sync s l
  end.

(** No code: a sequence of operations on the streams, libulog/ulog.cpp. *)
Fixpoint run (cap : Z) (s : state) (ops : list op) : state * list event :=
  match ops with
  | [] => (s, [])
  | o :: ops => let '(s1, e1) := step cap s o in let '(s2, e2) := run cap s1 ops in (s2, e1 ++ e2)
  end.
