(** Model of a program whose threads log with the C++ streams of libulog/ulog.cpp, up to the calls on the
    device. *)
From Coq Require Import ZArith String List Bool.
From Verif Require Import Bytes Ring Iov Stream StreamThreads.
From Verif Require Macros.
Import ListNotations.
Open Scope Z_scope.

(** The process: its open file (libulog/ulog_write.c:187), its threads, the levels of its tags (Cookies.v)
    and the capacity of the strings (libulog/ulog.cpp:108). *)
Record cprog := mkProg { cp_fid : Z; cp_task : nat -> task; cp_level : list Z -> Z; cp_cap : Z }.
(** An operation of a thread on a stream, or the end of the thread, with the time of the driver then.
    libulog/ulog.cpp:88-165. *)
Record use := mkUse { us_top : top; us_sec : Z; us_nsec : Z }.

(** The name of the cookie of a message; that of __ulog_default_cookie is empty,
    libulog/ulog_write.c:39-45, libulog/ulog.cpp:128-130. *)
Definition tag_name (tag : option (list Z)) : list Z := match tag with Some t => t | None => [] end.

(** sync, libulog/ulog.cpp:132-137: ulog_log_str (libulog/ulog_write.c:447-455) and the write of the kernel
    writer (libulog/ulog_write.c:82-102). *)
Definition sync_write (g : cprog) (u : use) (x : nat * event) : M (list Ring.op) :=
  match x with
  | (t, Log level tag text) =>
    let* r := Macros.ulog_log_str level (cp_level g (tag_name tag)) (text ++ [0]) in
    Ok (match r with
        | Some data => [OpWrite (cp_fid g) (cp_task g t) (us_sec u) (us_nsec u) (iovec (kernel_iov level (tag_name tag) data))]
        | None => []
        end)
  end.
(** No code: for each message, libulog/ulog.cpp:132-137. *)
Fixpoint sync_writes (g : cprog) (u : use) (l : list (nat * event)) : M (list Ring.op) :=
  match l with
  | [] => Ok []
  | x :: l => let* a := sync_write g u x in let* b := sync_writes g u l in Ok (a ++ b)
  end.
(** No code: the operations of all threads in the order in which they happen, libulog/ulog.cpp. *)
Fixpoint sperform (g : cprog) (w : world) (l : list use) : M (list Ring.op) :=
  match l with
  | [] => Ok []
  | u :: l =>
    let '(w, ev) := wstep (cp_cap g) w (us_top u) in
    let* a := sync_writes g u ev in
    let* b := sperform g w l in
    Ok (a ++ b)
  end.
