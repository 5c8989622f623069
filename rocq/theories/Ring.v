(** Model of the ulogger character device (kernel/ulogger-6.x.c), function by function.

    The state of one log device is a concrete ring of bytes plus offsets, exactly as in
    [struct ulogger_log]; each operation is one critical section under [log->mutex], so a
    schedule of system calls is a list of operations.  [ulogger_read] has two critical
    sections and hence two operations.

    Simplifications (see also DESIGN.md): pointers to the log and the reader held in
    [file->private_data] are replaced by record fields; the linked list [log->readers] is the
    list of readers of the open files (list_add_tail in open, list_del in release); the drop
    counters (size_t) do not wrap. *)
From Coq Require Import ZArith String List Bool.
From Verif Require Import Bytes.
Import ListNotations.
Open Scope Z_scope.

(** kernel/ulogger-6.x.h: sizeof(struct ulogger_entry), sizeof(struct
    user_ulogger_entry_compat), ULOGGER_ENTRY_MAX_PAYLOAD (ulogger-3.x.h:69 and same lines in
    the other versions). *)
Definition HDR := 24.
(** Size of the header of version 1, kernel/ulogger-6.x.c:170-176. *)
Definition HDR_V1 := 20.
(** ULOGGER_ENTRY_MAX_PAYLOAD, kernel/ulogger-6.x.h:58. *)
Definition MAX_PAYLOAD := 4076.

(** struct ulogger_log, kernel/ulogger-6.x.c:48-58 (wait queue, mutex and misc device other
    than its name left out). *)
Record log := mkLog {
  buffer : list Z;
  w_off : Z;
  head : Z;
  size : Z;
  dropped : Z;
  name : list Z
}.

(** struct ulogger_reader, kernel/ulogger-6.x.c:66-73. *)
Record reader := mkReader {
  r_off : Z;
  r_all : bool;
  r_ver : Z;
  r_dropped : Z
}.

(** struct file: mode bits, the writer flag stored in bit 0 of private_data
    (kernel/ulogger-6.x.c:81-104) and the reader if opened for reading. *)
Record file := mkFile {
  f_write : bool;
  f_raw : bool;
  f_reader : option reader
}.

(** One device with its open files, keyed by a file id.
    struct ulogger_log and the private data of its files, kernel/ulogger-6.x.c:48-104. *)
Record dev := mkDev {
  d_log : log;
  d_files : list (Z * file)
}.

(** The calling task: current->tgid, current->pid, group leader comm, comm, effective uid.
    Used at kernel/ulogger-6.x.c:554-684. *)
Record task := mkTask {
  t_tgid : Z;
  t_pid : Z;
  t_pcomm : list Z;
  t_tcomm : list Z;
  t_euid : Z
}.

(** log->w_off = x, kernel/ulogger-6.x.c:48-58. *)
Definition set_w_off (l : log) (x : Z) := mkLog (buffer l) x (head l) (size l) (dropped l) (name l).
(** log->head = x and log->dropped = n, kernel/ulogger-6.x.c:48-58; as at 480-497. *)
Definition set_head (l : log) (x n : Z) := mkLog (buffer l) (w_off l) x (size l) n (name l).
(** Change of the bytes of log->buffer, kernel/ulogger-6.x.c:48-58. *)
Definition set_buffer (l : log) (b : list Z) := mkLog b (w_off l) (head l) (size l) (dropped l) (name l).
(** reader->r_off = x, kernel/ulogger-6.x.c:66-73. *)
Definition set_r_off (r : reader) (x : Z) := mkReader x (r_all r) (r_ver r) (r_dropped r).
(** Both assignments of kernel/ulogger-6.x.c:480-497. *)
Definition set_r_off_dropped (r : reader) (x n : Z) := mkReader x (r_all r) (r_ver r) n.
(** reader->dropped = n, kernel/ulogger-6.x.c:66-73. *)
Definition set_r_dropped (r : reader) (n : Z) := mkReader (r_off r) (r_all r) (r_ver r) n.
(** reader->r_ver = v, ulogger_set_version, kernel/ulogger-6.x.c:786-797. *)
Definition set_r_ver (r : reader) (v : Z) := mkReader (r_off r) (r_all r) v (r_dropped r).

(** ulogger_offset, kernel/ulogger-6.x.c:75-79: [n & (size - 1)]. *)
Definition ulogger_offset (l : log) (n : Z) : Z := Z.land n (size l - 1).

(** get_entry_header, kernel/ulogger-6.x.c:136-149: the 24 header bytes at [off], copied to a
    scratch header when they straddle the end of the buffer. *)
Definition get_entry_header (l : log) (off : Z) : M (list Z) :=
  let len := Z.min HDR (size l - off) in
  if negb (len =? HDR) then
    let* a := mem_read (buffer l) off len in
    let* b := mem_read (buffer l) 0 (HDR - len) in
    Ok (a ++ b)
  else mem_read (buffer l) off HDR.

(** Fields of a header given as its 24 bytes; struct ulogger_entry (kernel/ulogger-6.x.h:45-54):
    len u16, hdr_size u16, pid, tid, sec, nsec s32, euid u32, little endian. *)
Definition h_len (h : list Z) : Z := of_le (zsub 0 2 h).
(** The field euid of struct ulogger_entry, kernel/ulogger-6.x.c:314-332. *)
Definition h_euid (h : list Z) : Z := of_le (zsub 20 4 h).

(** get_entry_msg_len, kernel/ulogger-6.x.c:161-168. *)
Definition get_entry_msg_len (l : log) (off : Z) : M Z :=
  let* h := get_entry_header l off in Ok (h_len h).

(** get_user_hdr_len, kernel/ulogger-6.x.c:170-176. *)
Definition get_user_hdr_len (ver : Z) : Z := if ver <? 2 then HDR_V1 else HDR.

(** The header bytes produced by copy_header_to_user, kernel/ulogger-6.x.c:178-200: version 1
    has len, a zero pad instead of hdr_size, pid, tid, sec, nsec and no euid. *)
Definition user_header (ver : Z) (h : list Z) : list Z :=
  if ver <? 2 then zsub 0 2 h ++ [0; 0] ++ zsub 4 16 h else h.

(** copy_to_user(buf + off, data, n) on a user buffer whose first [valid] bytes are
    accessible: success flag.  (On failure the driver only looks at the fact that it failed.).
    Used at kernel/ulogger-6.x.c:178-308. *)
Definition user_ok (valid off n : Z) : bool := off + n <=? valid.

(** Result of the body of a read: negative errno, or the bytes placed in the user buffer
    (their number is the return value). kernel/ulogger-6.x.c:346-418. *)
Inductive rres := RErr (e : Z) | RData (bs : list Z).

(** do_read_drop_summary, kernel/ulogger-6.x.c:208-257.  The message of the generated entry is
    pname, prio, tag, text; [(int)reader->r_dropped] is a 32-bit cast. *)
Definition do_read_drop_summary (l : log) (r : reader) (count valid : Z) : M (reader * rres) :=
  let* entry := get_entry_header l (r_off r) in
  let msgbuf := [0] ++ [4; 0; 0; 0] ++ name l ++ [0] ++ dec_d (s32 (r_dropped r))
                ++ bytes_of_string " log entries dropped" ++ [10] in
  let ret := zlen msgbuf in
  if ret >=? 128 then Ok (r, RErr EFAULT) else
  let slen := ret + 1 in
  let summary := le 2 slen ++ zsub 2 2 entry ++ le 4 (-1) ++ le 4 (-1) ++ zsub 12 12 entry in
  let hdrlen := get_user_hdr_len (r_ver r) in
  if count <? hdrlen + slen then Ok (r, RErr EINVAL) else
  if negb (user_ok valid 0 hdrlen) then Ok (r, RErr EFAULT) else
  if negb (user_ok valid hdrlen slen) then Ok (r, RErr EFAULT) else
  Ok (set_r_dropped r 0, RData (user_header (r_ver r) summary ++ msgbuf ++ [0])).

(** do_read_log_to_user, kernel/ulogger-6.x.c:265-308. *)
Definition do_read_log_to_user (l : log) (r : reader) (count valid : Z) : M (reader * rres) :=
  let* entry := get_entry_header l (r_off r) in
  let hl := get_user_hdr_len (r_ver r) in
  if negb (user_ok valid 0 hl) then Ok (r, RErr EFAULT) else
  let count := count - hl in
  let msg_start := ulogger_offset l (r_off r + HDR) in
  let len := Z.min count (size l - msg_start) in
  let* a := mem_read (buffer l) msg_start len in
  if negb (user_ok valid hl len) then Ok (r, RErr EFAULT) else
  let* b := if count =? len then Ok [] else mem_read (buffer l) 0 (count - len) in
  if negb (count =? len) && negb (user_ok valid (hl + len) (count - len))
  then Ok (r, RErr EFAULT) else
  Ok (set_r_off r (ulogger_offset l (r_off r + HDR + count)),
      RData (user_header (r_ver r) entry ++ a ++ b)).

(** get_next_entry_by_uid, kernel/ulogger-6.x.c:314-332: a while loop, given fuel. *)
Fixpoint get_next_entry_by_uid (fuel : nat) (l : log) (off euid : Z) : M Z :=
  if off =? w_off l then Ok off else
  match fuel with
  | O => Bug Hang
  | S f =>
    let* entry := get_entry_header l off in
    if h_euid entry =? u32 euid then Ok off else
    get_next_entry_by_uid f l (ulogger_offset l (off + (HDR + h_len entry))) euid
  end.

(** Fuel for the scan: no entry is shorter than one byte, so [size] steps visit the whole ring.
    For the loop of kernel/ulogger-6.x.c:314-332. *)
Definition scan_fuel (l : log) : nat := Z.to_nat (size l).

(** The [if (!reader->r_all)] prologue of read, poll and GET_NEXT_ENTRY_LEN
    (kernel/ulogger-6.x.c:384-386, 775-777, 844-846). *)
Definition skip_foreign (l : log) (r : reader) (euid : Z) : M reader :=
  if r_all r then Ok r else
  let* off := get_next_entry_by_uid (scan_fuel l) l (r_off r) euid in
  Ok (set_r_off r off).

(** Second critical section of ulogger_read, kernel/ulogger-6.x.c:382-417.  [None] stands for
    [goto start]. *)
Definition ulogger_read_body (l : log) (r : reader) (euid count valid : Z)
  : M (reader * option rres) :=
  let* r := skip_foreign l r euid in
  if w_off l =? r_off r then Ok (r, None) else
  if r_dropped r >? 0 then
    let* (r', x) := do_read_drop_summary l r count valid in Ok (r', Some x)
  else
    let* ml := get_entry_msg_len l (r_off r) in
    let ret := get_user_hdr_len (r_ver r) + ml in
    if count <? ret then Ok (r, Some (RErr EINVAL)) else
    let* (r', x) := do_read_log_to_user l r ret valid in Ok (r', Some x).

(** get_next_entry, kernel/ulogger-6.x.c:426-441: a do-while loop, given fuel; returns the new
    offset and the number of entries passed. *)
Fixpoint get_next_entry (fuel : nat) (l : log) (off len count entries : Z) : M (Z * Z) :=
  match fuel with
  | O => Bug Hang
  | S f =>
    let* ml := get_entry_msg_len l off in
    let nr := HDR + ml in
    let off := ulogger_offset l (off + nr) in
    let count := count + nr in
    let entries := entries + 1 in
    if count <? len then get_next_entry f l off len count entries else Ok (off, entries)
  end.

(** is_between, kernel/ulogger-6.x.c:457-470. *)
Definition is_between (a b c : Z) : bool :=
  if a <? b then (a <? c) && (c <=? b) else (c <=? b) || (a <? c).

(** The [list_for_each_entry] body of fix_up_readers for one reader. kernel/ulogger-6.x.c:480-497. *)
Definition fix_up_reader (l : log) (old new len : Z) (r : reader) : M reader :=
  if is_between old new (r_off r) then
    let* (off, n) := get_next_entry (Z.to_nat len) l (r_off r) len 0 0 in
    Ok (set_r_off_dropped r off (r_dropped r + n))
  else Ok r.

(** The loop over the readers, kernel/ulogger-6.x.c:480-497. *)
Fixpoint fix_up_files (l : log) (old new len : Z) (fs : list (Z * file)) : M (list (Z * file)) :=
  match fs with
  | [] => Ok []
  | (id, f) :: rest =>
    let* f' := match f_reader f with
               | None => Ok f
               | Some r => let* r' := fix_up_reader l old new len r in
                           Ok (mkFile (f_write f) (f_raw f) (Some r'))
               end in
    let* rest' := fix_up_files l old new len rest in
    Ok ((id, f') :: rest')
  end.

(** fix_up_readers, kernel/ulogger-6.x.c:480-497. *)
Definition fix_up_readers (d : dev) (len : Z) : M dev :=
  let l := d_log d in
  let old := w_off l in
  let new := ulogger_offset l (old + len) in
  let* l' := if is_between old new (head l) then
               let* (off, n) := get_next_entry (Z.to_nat len) l (head l) len 0 0 in
               Ok (set_head l off (dropped l + n))
             else Ok l in
  let* fs := fix_up_files l' old new len (d_files d) in
  Ok (mkDev l' fs).

(** do_write_log, kernel/ulogger-6.x.c:504-515. *)
Definition do_write_log (l : log) (buf : list Z) : M log :=
  let count := zlen buf in
  let len := Z.min count (size l - w_off l) in
  let* b1 := mem_write (buffer l) (w_off l) (ztake len buf) in
  let* b2 := if count =? len then Ok b1 else mem_write b1 0 (zdrop len buf) in
  Ok (set_w_off (set_buffer l b2) (ulogger_offset l (w_off l + count))).

(** A user-space segment (struct iovec): its bytes and how many of them, from the start, are
    accessible. Used at kernel/ulogger-6.x.c:525-547 and 637-672. *)
Record seg := mkSeg { s_data : list Z; s_valid : Z }.

(** copy_from_user(dst, seg + off, n): on a fault the accessible prefix is copied and the rest
    of the destination is zero filled (Linux copy_from_user); second component: fault flag.
    Used at kernel/ulogger-6.x.c:525-547. *)
Definition user_read (s : seg) (off n : Z) : list Z * bool :=
  if off + n <=? s_valid s then (zsub off n (s_data s), false)
  else let k := Z.max 0 (Z.min n (s_valid s - off)) in
       let got := zsub off k (s_data s) in
       (got ++ zrepeat 0 (n - zlen got), true).

(** do_write_log_from_user, kernel/ulogger-6.x.c:525-547; the boolean is true on -EFAULT. *)
Definition do_write_log_from_user (l : log) (s : seg) (count : Z) : M (log * bool) :=
  let len := Z.min count (size l - w_off l) in
  let* (l1, bad1) :=
     if len =? 0 then Ok (l, false) else
     let (bs, bad) := user_read s 0 len in
     let* b := mem_write (buffer l) (w_off l) bs in Ok (set_buffer l b, bad) in
  if bad1 then Ok (l1, true) else
  let* (l2, bad2) :=
     if count =? len then Ok (l1, false) else
     let (bs, bad) := user_read s len (count - len) in
     let* b := mem_write (buffer l1) 0 bs in Ok (set_buffer l1 b, bad) in
  if bad2 then Ok (l2, true) else
  Ok (set_w_off l2 (ulogger_offset l2 (w_off l2 + count)), false).

(** The source of a write: struct iov_iter of type ITER_IOVEC (a list of segments), ITER_UBUF
    (one segment), or another type holding [n] bytes, for which ulogger_write_iter has no copy
    loop. Used at kernel/ulogger-6.x.c:554-684. *)
Inductive iter := IterIovec (segs : list seg) | IterUbuf (s : seg) | IterOther (n : Z).

(** iov_len, kernel/ulogger-6.x.c:646. *)
Definition seg_len (s : seg) : Z := zlen (s_data s).
(** iov_iter_count. Used at kernel/ulogger-6.x.c:565 and 638. *)
Definition iter_count (it : iter) : Z :=
  match it with
  | IterIovec segs => fold_right (fun s a => seg_len s + a) 0 segs
  | IterUbuf s => seg_len s
  | IterOther n => n
  end.

(** The iovec loop, kernel/ulogger-6.x.c:638-661.  [None] as second component: -EFAULT. *)
Fixpoint write_iovecs (l : log) (segs : list seg) (size ret : Z) : M (log * option Z) :=
  match segs with
  | [] => Ok (l, Some ret)
  | s :: rest =>
    let len := Z.min (seg_len s) (size - ret) in
    let* (l', bad) := do_write_log_from_user l s len in
    if bad then Ok (l', None) else write_iovecs l' rest size (ret + len)
  end.

(** Names: memcpy of the 16 bytes of comm, forced NUL, strlen (kernel/ulogger-6.x.c:580-590). *)
Definition comm_str (comm : list Z) : list Z := cstr (ztake 16 comm).

(** The header built for a normal write, kernel/ulogger-6.x.c:575-599. *)
Definition mk_header (len pid tid sec nsec euid : Z) : list Z :=
  le 2 len ++ le 2 HDR ++ le 4 pid ++ le 4 tid ++ le 4 sec ++ le 4 nsec ++ le 4 euid.

(** ulogger_write_iter, kernel/ulogger-6.x.c:554-684.  Result: return value. *)
Definition ulogger_write_iter (d : dev) (rawmode : bool) (t : task) (sec nsec : Z) (it : iter)
  : M (dev * Z) :=
  let len0 := iter_count it in
  let prefix := 4 in
  if rawmode && (len0 <? HDR - prefix) then Ok (d, - EINVAL) else
  let pname := comm_str (t_pcomm t) ++ [0] in
  let tname := if t_tgid t =? t_pid t then [] else comm_str (t_tcomm t) ++ [0] in
  let hlen := if rawmode then Z.min (len0 - (HDR - prefix)) MAX_PAYLOAD
              else Z.min (zlen pname + zlen tname + len0) MAX_PAYLOAD in
  if hlen =? 0 then Ok (d, 0) else
  let size0 := HDR + hlen in
  let orig := w_off (d_log d) in
  let* d1 := fix_up_readers d size0 in
  let* (l2, size1) :=
    if rawmode then
      let* l := do_write_log (d_log d1) (ztake prefix (mk_header hlen 0 0 0 0 0)) in
      Ok (l, size0 - prefix)
    else
      let* l := do_write_log (d_log d1)
                  (mk_header hlen (t_tgid t) (t_pid t) sec nsec (t_euid t)) in
      let* l := do_write_log l pname in
      let* l := if zlen tname =? 0 then Ok l else do_write_log l tname in
      Ok (l, size0 - HDR - zlen pname - zlen tname) in
  let* (l3, ret) :=
    match it with
    | IterIovec segs => write_iovecs l2 segs size1 0
    | IterUbuf s =>
      let len := Z.min size1 len0 in
      let* (l', bad) := do_write_log_from_user l2 s len in
      Ok (l', if bad : bool then None else Some len)
    | IterOther _ => Ok (l2, Some 0)
    end in
  match ret with
  | Some n => Ok (mkDev l3 (d_files d1), n)
  | None => Ok (mkDev (set_w_off l3 orig) (d_files d1), - EFAULT)
  end.

(** ulogger_poll, kernel/ulogger-6.x.c:760-784: readable flag. *)
Definition ulogger_poll (l : log) (r : reader) (euid : Z) : M (reader * bool) :=
  let* r := skip_foreign l r euid in
  Ok (r, negb (w_off l =? r_off r)).

(** Commands of ulogger_ioctl with their argument: [None] is an argument pointer that
    faults. [capable] is capable(CAP_SYS_ADMIN); the check on SET_RAW_MODE is compiled only on
    targets other than x86, which [strict] tells. kernel/ulogger-6.x.c:812-905. *)
Inductive cmd :=
  | GetLogBufSize | GetLogLen | GetNextEntryLen | FlushLog | GetVersion
  | SetVersion (arg : option Z) | SetRawMode (arg : option Z) (strict capable : bool)
  | OtherCmd.

(** ULOGGER_GET_LOG_LEN, kernel/ulogger-6.x.c:826-836. *)
Definition get_log_len (l : log) (r : reader) : Z :=
  if w_off l >=? r_off r then w_off l - r_off r else (size l - r_off r) + w_off l.

(** The loop over the readers in ULOGGER_FLUSH_LOG, kernel/ulogger-6.x.c:812-905. *)
Definition flush_file (w : Z) (f : file) : file :=
  match f_reader f with
  | None => f
  | Some r => mkFile (f_write f) (f_raw f) (Some (set_r_off_dropped r w 0))
  end.

(** ulogger_ioctl, kernel/ulogger-6.x.c:812-905, on the file [f]; gives the new device log, the
    new state of this file, whether all readers are flushed, and the return value. *)
Definition ulogger_ioctl (l : log) (f : file) (c : cmd) (euid : Z) : M (log * file * bool * Z) :=
  match c with
  | GetLogBufSize => Ok (l, f, false, size l)
  | GetLogLen =>
    match f_reader f with
    | None => Ok (l, f, false, - EBADF)
    | Some r => Ok (l, f, false, get_log_len l r)
    end
  | GetNextEntryLen =>
    match f_reader f with
    | None => Ok (l, f, false, - EBADF)
    | Some r =>
      let* r := skip_foreign l r euid in
      let f' := mkFile (f_write f) (f_raw f) (Some r) in
      if negb (w_off l =? r_off r) then
        let* ml := get_entry_msg_len l (r_off r) in
        Ok (l, f', false, get_user_hdr_len (r_ver r) + ml)
      else Ok (l, f', false, 0)
    end
  | FlushLog =>
    if negb (f_write f) then Ok (l, f, false, - EBADF)
    else Ok (set_head l (w_off l) 0, f, true, 0)
  | GetVersion =>
    match f_reader f with
    | None => Ok (l, f, false, - EBADF)
    | Some r => Ok (l, f, false, r_ver r)
    end
  | SetVersion arg =>
    match f_reader f with
    | None => Ok (l, f, false, - EBADF)
    | Some r =>
      match arg with
      | None => Ok (l, f, false, - EFAULT)
      | Some v => if (v <? 1) || (v >? 2) then Ok (l, f, false, - EINVAL)
                  else Ok (l, mkFile (f_write f) (f_raw f) (Some (set_r_ver r v)), false, 0)
      end
    end
  | SetRawMode arg strict capable =>                       (* ulogger_set_raw_mode, kernel/ulogger-6.x.c:799-810 *)
    if negb (f_write f) then Ok (l, f, false, - EBADF) else
    if strict && negb capable then Ok (l, f, false, - EPERM) else
    match arg with
    | None => Ok (l, f, false, - EFAULT)
    | Some m => if negb (m =? 0) && negb (m =? 1) then Ok (l, f, false, - EINVAL)
                else Ok (l, mkFile (f_write f) (m =? 1) (f_reader f), false, 0)
    end
  | OtherCmd => Ok (l, f, false, - EINVAL)
  end.

(** ** Operations: one per critical section *)
(** The functions of kernel/ulogger-6.x.c:346-418, 554-784 and 812-905. *)
Inductive op :=
  (** open(2) of the device; [all]: in_egroup_p(gid) || capable(CAP_SYS_ADMIN); [nomem]: the
      kmalloc of the reader fails *)
  | OpOpen (fid : Z) (rd wr all nomem : bool)
  | OpClose (fid : Z)
  (** first critical section of read(2), with O_NONBLOCK and signal_pending *)
  | OpReadCheck (fid : Z) (nonblock signal : bool)
  (** second critical section of read(2): caller, byte count, accessible bytes of the buffer *)
  | OpReadBody (fid : Z) (euid count valid : Z)
  | OpWrite (fid : Z) (t : task) (sec nsec : Z) (it : iter)
  | OpPoll (fid : Z) (euid : Z)
  | OpIoctl (fid : Z) (c : cmd) (euid : Z).

(** Results of the functions of kernel/ulogger-6.x.c:346-418, 554-784 and 812-905. *)
Inductive out :=
  | OutNoFile          (** the call never reaches the driver (no such file, or wrong mode) *)
  | OutErr (e : Z)     (** negative errno -e *)
  | OutVal (v : Z)     (** non-negative return value *)
  | OutData (bs : list Z)  (** read: the bytes placed in the user buffer *)
  | OutCont            (** read, first section: there is something, go on *)
  | OutSleep           (** read, first section: schedule() *)
  | OutRetry           (** read, second section: goto start *)
  | OutPoll (readable : bool).

(** A negative result is an error, kernel/ulogger-6.x.c:554-684. *)
Definition ret_out (v : Z) : out := if v <? 0 then OutErr (- v) else OutVal v.

(** filp->private_data by file: file_get_log, kernel/ulogger-6.x.c:120-127. *)
Fixpoint lookup (fid : Z) (fs : list (Z * file)) : option file :=
  match fs with
  | [] => None
  | (id, f) :: rest => if id =? fid then Some f else lookup fid rest
  end.

(** Change of the private data of a file, kernel/ulogger-6.x.c:81-104. *)
Fixpoint update (fid : Z) (f : file) (fs : list (Z * file)) : list (Z * file) :=
  match fs with
  | [] => []
  | (id, g) :: rest => if id =? fid then (id, f) :: rest else (id, g) :: update fid f rest
  end.

(** Release of a file, kernel/ulogger-6.x.c:735-749. *)
Fixpoint remove (fid : Z) (fs : list (Z * file)) : list (Z * file) :=
  match fs with
  | [] => []
  | (id, g) :: rest => if id =? fid then rest else (id, g) :: remove fid rest
  end.

(** ulogger_open, kernel/ulogger-6.x.c:691-728. *)
Definition ulogger_open (d : dev) (fid : Z) (rd wr all nomem : bool) : dev * out :=
  match lookup fid (d_files d) with
  | Some _ => (d, OutNoFile)
  | None =>
    if rd && nomem then (d, OutErr ENOMEM) else
    let l := d_log d in
    let r := if rd then Some (mkReader (head l) all 2 (dropped l)) else None in
    (mkDev l (d_files d ++ [(fid, mkFile wr false r)]), OutVal 0)
  end.

(** Change of the reader of a file, kernel/ulogger-6.x.c:81-104. *)
Definition with_reader (f : file) (r : reader) : file := mkFile (f_write f) (f_raw f) (Some r).

(** First critical section of ulogger_read, kernel/ulogger-6.x.c:356-375. *)
Definition ulogger_read_check (l : log) (r : reader) (nonblock signal : bool) : out :=
  if negb (w_off l =? r_off r) then OutCont
  else if nonblock then OutErr EAGAIN
  else if signal then OutErr EINTR
  else OutSleep.

(** One system-call critical section. kernel/ulogger-6.x.c:346-418, 554-784 and 812-905, as cited above. *)
Definition step (d : dev) (o : op) : M (dev * out) :=
  let l := d_log d in
  match o with
  | OpOpen fid rd wr all nomem => Ok (ulogger_open d fid rd wr all nomem)
  | OpClose fid =>
    (* ulogger_release, kernel/ulogger-6.x.c:735-749 *)
    match lookup fid (d_files d) with
    | None => Ok (d, OutNoFile)
    | Some _ => Ok (mkDev l (remove fid (d_files d)), OutVal 0)
    end
  | OpReadCheck fid nonblock signal =>
    match lookup fid (d_files d) with
    | Some (mkFile _ _ (Some r)) => Ok (d, ulogger_read_check l r nonblock signal)
    | _ => Ok (d, OutNoFile)
    end
  | OpReadBody fid euid count valid =>
    match lookup fid (d_files d) with
    | Some (mkFile w m (Some r)) =>
      let* (r', x) := ulogger_read_body l r euid count valid in
      Ok (mkDev l (update fid (mkFile w m (Some r')) (d_files d)),
          match x with
          | None => OutRetry
          | Some (RErr e) => OutErr e
          | Some (RData bs) => OutData bs
          end)
    | _ => Ok (d, OutNoFile)
    end
  | OpWrite fid t sec nsec it =>
    match lookup fid (d_files d) with
    | Some f =>
      if f_write f then
        let* (d', v) := ulogger_write_iter d (f_raw f) t sec nsec it in Ok (d', ret_out v)
      else Ok (d, OutNoFile)
    | None => Ok (d, OutNoFile)
    end
  | OpPoll fid euid =>
    match lookup fid (d_files d) with
    | Some (mkFile w m (Some r)) =>
      let* (r', b) := ulogger_poll l r euid in
      Ok (mkDev l (update fid (mkFile w m (Some r')) (d_files d)), OutPoll b)
    | Some (mkFile _ _ None) => Ok (d, OutPoll false)
    | None => Ok (d, OutNoFile)
    end
  | OpIoctl fid c euid =>
    match lookup fid (d_files d) with
    | Some f =>
      let* (l', f', fl, v) := ulogger_ioctl l f c euid in
      let fs := update fid f' (d_files d) in
      let fs := if fl : bool then map (fun p => (fst p, flush_file (w_off l') (snd p))) fs else fs in
      Ok (mkDev l' fs, ret_out v)
    | None => Ok (d, OutNoFile)
    end
  end.

(** No code: a sequence of calls, in the order in which they hold log->mutex, kernel/ulogger-6.x.c. *)
Fixpoint run (d : dev) (ops : list op) : M (dev * list out) :=
  match ops with
  | [] => Ok (d, [])
  | o :: rest =>
    let* (d1, x) := step d o in
    let* (d2, xs) := run d1 rest in
    Ok (d2, x :: xs)
  end.

(** A whole non-blocking read(2), kernel/ulogger-6.x.c:346-418, with no other operation between
    its critical sections; the fuel bounds the number of [goto start]. *)
Fixpoint ulogger_read_nb (fuel : nat) (d : dev) (fid euid count valid : Z) : M (dev * out) :=
  match fuel with
  | O => Bug Hang
  | S f =>
    let* (d1, x) := step d (OpReadCheck fid true false) in
    match x with
    | OutCont =>
      let* (d2, y) := step d1 (OpReadBody fid euid count valid) in
      match y with
      | OutRetry => ulogger_read_nb f d2 fid euid count valid
      | _ => Ok (d2, y)
      end
    | _ => Ok (d1, x)
    end
  end.

(** A freshly created device: ulogger_add_log / ulogger_init, kernel/ulogger-6.x.c:1050-1058,
    1110-1112, with a buffer of 2^pow2 bytes of unspecified content [mem]. *)
Definition init_dev (nm mem : list Z) (pow2 : Z) : dev :=
  mkDev (mkLog mem 0 0 (2 ^ pow2) 0 nm) [].

(** Assumptions on a new device: the checks of ulogger_add_log (kernel/ulogger-6.x.c:1020-1035)
    or the constants of ulog_main. *)
Definition init_ok (nm mem : list Z) (pow2 : Z) : Prop :=
  14 <= pow2 <= 24 /\ zlen mem = 2 ^ pow2 /\ zlen nm <= 15.

(** Writes coming from user space use ITER_IOVEC or ITER_UBUF. For kernel/ulogger-6.x.c:637-672. *)
Definition user_iter (it : iter) : Prop := match it with IterOther _ => False | _ => True end.
(** The same for operations, kernel/ulogger-6.x.c:637-672. *)
Definition user_op (o : op) : Prop :=
  match o with OpWrite _ _ _ _ it => user_iter it | _ => True end.
