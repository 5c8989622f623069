(** The write functions of the three versions of the driver: kernel/ulogger-3.x.c, ulogger-4.x.c and
    ulogger-6.x.c. They differ in how they walk through the vectors of the caller (and in the types of
    the clock and user ids). Ring.v models the 6.x version with the walk simplified to a recursion on
    the list of segments; here the walks are modelled as they are written. *)
From Coq Require Import ZArith String List Bool.
From Verif Require Import Bytes Ring.
Import ListNotations.
Open Scope Z_scope.

(** struct iov_iter of type ITER_IOVEC (Linux, include/linux/uio.h): the segments not passed yet, the
    offset in the first one, the bytes left. *)
Record iov_iter := mkIter { v_segs : list seg; v_off : Z; v_count : Z }.

(** iov_iter_iovec (Linux, include/linux/uio.h): the part of the first segment left to do. *)
Definition iov_iter_iovec (it : iov_iter) : M seg :=
  match v_segs it with
  | [] => Bug Oob
  | s :: _ => Ok (mkSeg (ztake (Z.min (v_count it) (seg_len s - v_off it)) (zdrop (v_off it) (s_data s))) (s_valid s - v_off it))
  end.
(** iter_iov (Linux 6.4, include/linux/uio.h): the first segment itself. *)
Definition iter_iov (it : iov_iter) : M seg := match v_segs it with [] => Bug Oob | s :: _ => Ok s end.

(** How iov_iter_advance passes [n] bytes from the start of the segments. Since Linux 5.11
    (lib/iov_iter.c, iov_iter_iovec_advance) it stops at the first segment that holds more than what is
    left, so also passes the empty segments that follow; before, it stopped after the segment it
    finished. *)
Fixpoint pass_new (segs : list seg) (n : Z) : list seg * Z :=
  match segs with
  | [] => ([], n)
  | s :: r => if n <? seg_len s then (segs, n) else pass_new r (n - seg_len s)
  end.
(** The loop of kernel/ulogger-4.x.c:48-66 with the iov_iter_advance of Linux. *)
Fixpoint pass_old (segs : list seg) (n : Z) : list seg * Z :=
  match segs with
  | [] => ([], n)
  | s :: r => if n <? seg_len s then (segs, n) else if n =? seg_len s then (r, 0) else pass_old r (n - seg_len s)
  end.
(** Of Linux; used at kernel/ulogger-4.x.c:673-690 and kernel/ulogger-6.x.c:637-661. *)
Definition iov_iter_advance (pass : list seg -> Z -> list seg * Z) (it : iov_iter) (n : Z) : iov_iter :=
  let n := Z.min n (v_count it) in
  if v_count it =? 0 then it
  else let (segs, off) := pass (v_segs it) (n + v_off it) in mkIter segs off (v_count it - n).

(** The loop of 3.x on nr_segs and iov, kernel/ulogger-3.x.c:635-652. *)
Fixpoint loop_3 (nr_segs : nat) (l : log) (iov : list seg) (size ret : Z) : M (log * option Z) :=
  match nr_segs with
  | O => Ok (l, Some ret)
  | S nr_segs =>
    match iov with
    | [] => Bug Oob
    | s :: iov =>
      let len := Z.min (seg_len s) (size - ret) in
      let* (l, bad) := do_write_log_from_user l s len in
      if bad : bool then Ok (l, None) else loop_3 nr_segs l iov size (ret + len)
    end
  end.
(** The loops of 4.x, kernel/ulogger-4.x.c:48-66 and 673-690, and of 6.x, kernel/ulogger-6.x.c:637-661;
    [get]: iov_iter_iovec, or iter_iov from Linux 6.4 on. The fuel bounds the number of turns. *)
Fixpoint loop_4 (get : iov_iter -> M seg) (pass : list seg -> Z -> list seg * Z) (fuel : nat) (l : log) (it : iov_iter) (size ret : Z)
  : M (log * option Z) :=
  if v_count it =? 0 then Ok (l, Some ret) else
  match fuel with
  | O => Bug Hang
  | S fuel =>
    let* s := get it in
    let len := Z.min (seg_len s) (size - ret) in
    let* (l, bad) := do_write_log_from_user l s len in
    if bad : bool then Ok (l, None)
    else loop_4 get pass fuel l (iov_iter_advance pass it (seg_len s)) size (ret + len)
  end.

(** The drivers kernel/ulogger-3.x.c, ulogger-4.x.c and ulogger-6.x.c, with the versions of Linux that matter. *)
Inductive version := V3 | V4_old | V4_new | V6 | V6_4.
(** The iterator at the start of a write, kernel/ulogger-6.x.c:554-684. *)
Definition start (segs : list seg) : iov_iter := mkIter segs 0 (iter_count (IterIovec segs)).
(** The loop of each driver: kernel/ulogger-3.x.c:635-652, kernel/ulogger-4.x.c:673-690, kernel/ulogger-6.x.c:637-661. *)
Definition walk (v : version) (l : log) (segs : list seg) (size : Z) : M (log * option Z) :=
  match v with
  | V3 => loop_3 (length segs) l segs size 0
  | V4_old => loop_4 iov_iter_iovec pass_old (length segs) l (start segs) size 0
  | V4_new | V6 => loop_4 iov_iter_iovec pass_new (length segs) l (start segs) size 0
  | V6_4 => loop_4 iter_iov pass_new (length segs) l (start segs) size 0
  end.

(** ulogger_aio_write, kernel/ulogger-3.x.c:551-660, and ulogger_write_iter,
    kernel/ulogger-4.x.c:580-698 and ulogger-6.x.c:554-684, for vectors of the caller. Outside the walk
    the three have the same text. The length is ulogger_kiocb_left or iov_iter_count. *)
Definition write_version (v : version) (d : dev) (rawmode : bool) (t : task) (sec nsec : Z) (segs : list seg) : M (dev * Z) :=
  let len0 := iter_count (IterIovec segs) in
  let prefix := 4 in
  if rawmode && (len0 <? HDR - prefix) then Ok (d, - EINVAL) else
  let pname := comm_str (t_pcomm t) ++ [0] in
  let tname := if t_tgid t =? t_pid t then [] else comm_str (t_tcomm t) ++ [0] in
  let hlen := if rawmode then Z.min (len0 - (HDR - prefix)) MAX_PAYLOAD
              else Z.min (zlen pname + zlen tname + len0) MAX_PAYLOAD in
  if hlen =? 0 then Ok (d, 0) else
  let size0 := HDR + hlen in
  let orig := w_off (d_log d) in
  let* d1 := fix_up_readers d size0 in
  let* (l2, size1) :=
    if rawmode then
      let* l := do_write_log (d_log d1) (ztake prefix (mk_header hlen 0 0 0 0 0)) in
      Ok (l, size0 - prefix)
    else
      let* l := do_write_log (d_log d1)
                  (mk_header hlen (t_tgid t) (t_pid t) sec nsec (t_euid t)) in
      let* l := do_write_log l pname in
      let* l := if zlen tname =? 0 then Ok l else do_write_log l tname in
      Ok (l, size0 - HDR - zlen pname - zlen tname) in
  let* (l3, ret) := walk v l2 segs size1 in
  match ret with
  | Some n => Ok (mkDev l3 (d_files d1), n)
  | None => Ok (mkDev (set_w_off l3 orig) (d_files d1), - EFAULT)
  end.
