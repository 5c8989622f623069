(** The processes of a system from their logging calls to the log device: ulog_log (Macros.v),
    __writer_kernel (Iov.v), the driver (Ring.v).

    Not modelled here: the choice and opening of the device (Devopen.v), the registration of the
    tag and the reading of ULOG_LEVEL (Cookies.v): the level of the tag at the time of each call
    is an input. *)
From Coq Require Import ZArith String List Bool.
From Verif Require Import Bytes Ring Parse Iov.
From Verif Require Macros.
Import ListNotations.
Open Scope Z_scope.

(** One execution of a logging macro: the descriptor of the log device in the calling process, the
    calling thread, the time at which the driver handles the call, the content of buf in
    ulog_vlog_write (libulog/ulog_write.c:426), the name of the cookie and its level at that
    time, the priority word of the macro (libulog/include/ulog.h:173-178), the formatted text. *)
Record call := mkCall {
  p_fid : Z; p_task : task; p_sec : Z; p_nsec : Z; p_stack : list Z;
  p_tag : list Z; p_level : Z; p_prio : Z; p_text : list Z }.

(** The system call made for it, if any: ulog_log, libulog/include/ulog.h:500-508;
    ulog_vlog_write, libulog/ulog_write.c:422-436; __writer_kernel, libulog/ulog_write.c:82-102. *)
Definition log_call (c : call) : M (option op) :=
  let* r := Macros.ulog_log (p_stack c) (p_prio c) (p_level c) (p_text c) in
  Ok match r with
     | None => None
     | Some buf => Some (OpWrite (p_fid c) (p_task c) (p_sec c) (p_nsec c)
                           (iovec (kernel_iov (p_prio c) (p_tag c) buf)))
     end.

(** The calls of all the threads in the order in which the driver serves them (it holds its lock
    while it stores an entry, kernel/ulogger-6.x.c:608-678). *)
Fixpoint program (l : list call) : M (list op) :=
  match l with
  | [] => Ok []
  | c :: l =>
    let* r := log_call c in
    let* rest := program l in
    Ok match r with Some o => o :: rest | None => rest end
  end.

(** Each process opens the device for writing only, libulog/ulog_write.c:187. *)
Definition opens (procs : list Z) : list op := map (fun f => OpOpen f false true false false) procs.
