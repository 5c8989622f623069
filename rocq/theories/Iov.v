(** Models of the places of libulog that build the vectors given to writev(2) on a log device.

    A vector is the list of the byte strings its elements point to.  writev itself is the
    driver's [OpWrite] (Ring.v). *)
From Coq Require Import ZArith String List Bool.
From Verif Require Import Bytes Ring Parse.
Import ListNotations.
Open Scope Z_scope.

(** The vectors as seen by the driver: all of the memory is accessible. As at libulog/ulog_write.c:82-97. *)
Definition iovec (v : list (list Z)) : iter := IterIovec (map (fun b => mkSeg b (zlen b)) v).

(** __writer_kernel, libulog/ulog_write.c:82-97.  [name] is the cookie name, namesize counts its
    NUL; [buf] is the [len] bytes of the message. *)
Definition kernel_iov (prio : Z) (name buf : list Z) : list (list Z) :=
  [le 4 prio; name ++ [0]; buf].

(** ulog_bin_writev, libulog/ulog_write_bin.c:110-142 (no custom write function); [tag] is the
    [tagsize] bytes of the tag. *)
Definition bin_prio : Z := Z.lor ULOG_INFO (Z.shiftl 1 PRIO_BINARY_SHIFT).
(** libulog/ulog_write_bin.c:110-162. *)
Definition bin_iov (tag : list Z) (iov : list (list Z)) : list (list Z) := le 4 bin_prio :: tag :: iov.

(** "do { ret = writev(..) } while (ret < 0 && errno == EINTR)", e.g.
    libulog/ulog_write_raw.c:169-171, applied to the results [rets] writev will give (-errno on
    failure): the final result and the number of calls; [None] if [rets] is too short. *)
Fixpoint retry_eintr (rets : list Z) : option (Z * nat) :=
  match rets with
  | [] => None
  | r :: rest => if r =? - EINTR
                 then match retry_eintr rest with Some (v, n) => Some (v, S n) | None => None end
                 else Some (r, 1%nat)
  end.

(** struct ulog_raw_entry, libulog/include/ulograw.h:43-54: strings are the bytes
    [pname, pname + pname_len) and so on; [rw_message] is [None] for a NULL pointer. *)
Record raw_entry := mkRaw {
  rw_pid : Z; rw_tid : Z; rw_sec : Z; rw_nsec : Z; rw_euid : Z; rw_prio : Z;
  rw_pname : list Z; rw_tname : list Z; rw_tag : list Z; rw_message : option (list Z)
}.

(** Outcome of preparing a system call: an error at once, or a writev to do. libulog/ulog_write_raw.c:86-174. *)
Inductive prep := Refuse (ret : Z) | Writev (v : list (list Z)).

(** ulog_raw_logv, libulog/ulog_write_raw.c:107-166. *)
Definition ulog_raw_logv (fd : Z) (raw : option raw_entry) (iov : list (list Z)) : prep :=
  match raw with
  | None => Refuse (- EINVAL)
  | Some r =>
    if (fd <? 0) || match rw_message r with Some _ => true | None => false end
    then Refuse (- EINVAL) else
    if (rw_pid r =? -1) && (rw_tid r =? -1) then Refuse (- EINVAL) else
    Writev ([le 4 (rw_pid r) ++ le 4 (rw_tid r) ++ le 4 (rw_sec r) ++ le 4 (rw_nsec r) ++ le 4 (rw_euid r)]
            ++ [rw_pname r]
            ++ (if rw_pid r =? rw_tid r then [] else [rw_tname r])
            ++ [le 4 (rw_prio r)] ++ [rw_tag r] ++ iov)
  end.

(** ulog_raw_log, libulog/ulog_write_raw.c:86-105. *)
Definition ulog_raw_log (fd : Z) (raw : option raw_entry) : prep :=
  match raw with
  | None => Refuse (- EINVAL)
  | Some r =>
    ulog_raw_logv fd (Some (mkRaw (rw_pid r) (rw_tid r) (rw_sec r) (rw_nsec r) (rw_euid r) (rw_prio r)
                                  (rw_pname r) (rw_tname r) (rw_tag r) None))
                  [match rw_message r with Some m => m | None => [] end]
  end.

(** "return (ret < 0) ? -errno : 0", libulog/ulog_write_raw.c:173. *)
Definition raw_result (ret : Z) : Z := if ret <? 0 then ret else 0.
