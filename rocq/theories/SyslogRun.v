(** Model of programs that log with the syslog functions of ulogwrapper/ulog_syslog.c, up to the calls on the
    device. *)
From Coq Require Import ZArith String List Bool.
From Verif Require Import Bytes Ring Iov Syslog.
Import ListNotations.
Open Scope Z_scope.

(** A call of the wrapper (ulogwrapper/ulog_syslog.c:54-184): [c_fid] is the open file of the process
    (libulog/ulog_write_android.c:80-102) and stands for the process; thread, time of the write, the
    function with its arguments. *)
Record wcall := mkW { w_fid : Z; w_task : task; w_sec : Z; w_nsec : Z; w_op : op }.

(** The write of an event, libulog/ulog_write_android.c:105-143 (Iov.v); a result of setlogmask writes
    nothing, ulogwrapper/ulog_syslog.c:161-184. *)
Definition written (c : wcall) (ev : event) : list Ring.op :=
  match ev with
  | Emit prio tag data => [OpWrite (w_fid c) (w_task c) (w_sec c) (w_nsec c) (iovec (kernel_iov prio tag data))]
  | Ret _ => []
  end.

(** No code: the calls of several processes, each with its own static variables,
    ulogwrapper/ulog_syslog.c:26-34. *)
Fixpoint perform (es : Z -> env) (ss : Z -> state) (l : list wcall) : M (list Ring.op) :=
  match l with
  | [] => Ok []
  | c :: l =>
    let* (s, evs) := step (es (w_fid c)) (ss (w_fid c)) (w_op c) in
    let* ops := perform es (fun f => if f =? w_fid c then s else ss f) l in
    Ok (concat (map (written c) evs) ++ ops)
  end.
