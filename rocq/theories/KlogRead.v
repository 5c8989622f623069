(** Model of the reading of /dev/kmsg: klog_read_entry and klog_receive_entry as a whole
    (ulogcat/libulogcat_klog.c:100-173), with the frames of the log reader
    (ulogcat/libulogcat_private.h:82-92, libulogcat_core.c:48-74). What is done with the bytes of a
    record once read is Klog.klog_receive and Klog.klog_parse. *)
From Coq Require Import ZArith String List Bool.
From Verif Require Import Bytes Parse Klog.
Import ListNotations.
Open Scope Z_scope.

(** ULOGCAT_FRAME_BUFSIZE, ulogcat/libulogcat_private.h:82; BUFSIZ of the C library (glibc). *)
Definition FRAME_BUFSIZE := 200.
(** Of the C library; used at ulogcat/libulogcat_klog.c:249-309. *)
Definition BUFSIZ := 8192.
(** Used at ulogcat/libulogcat_klog.c:100-129. *)
Definition EPIPE := 32.

(** frame->buf: the array of the frame, NULL, or an allocated block (with its bytes).
    ulogcat/libulogcat_private.h:84-92. *)
Inductive fbuf := InFrame | Null | Heap (mem : list Z).
(** struct frame, ulogcat/libulogcat_private.h:84-92: [f_data] is the array data; the parsed entry,
    the stamp and the device are the [krec] returned by the functions below. *)
Record frame := mkF { f_data : list Z; f_buf : fbuf; f_size : Z }.

(** read: data, or -1 and errno. At ulogcat/libulogcat_klog.c:100-129. *)
Inductive rres := RData (r : list Z) | RErr (e : Z).

(** read(fd, frame->buf, n) on a device [rd]: the bytes read go to the start of the buffer.
    At ulogcat/libulogcat_klog.c:100-129. *)
Definition read_buf {D} (rd : D -> Z -> D * rres) (d : D) (f : frame) (n : Z) : M (D * frame * rres) :=
  match rd d n with
  | (d, RErr e) => Ok (d, f, RErr e)
  | (d, RData r) =>
    match f_buf f with
    | InFrame => let* m := mem_write (f_data f) 0 r in Ok (d, mkF m InFrame (f_size f), RData r)
    | Null => Bug Oob
    | Heap m => let* m := mem_write m 0 r in Ok (d, mkF (f_data f) (Heap m) (f_size f), RData r)
    end
  end.

(** The block frame->buf, and the frame with other bytes in it. ulogcat/libulogcat_private.h:84-92. *)
Definition buf_of (f : frame) : list Z := match f_buf f with InFrame => f_data f | Null => [] | Heap m => m end.
(** As above, ulogcat/libulogcat_private.h:84-92. *)
Definition with_buf (f : frame) (m : list Z) : frame :=
  match f_buf f with InFrame => mkF m InFrame (f_size f) | Null => f | Heap _ => mkF (f_data f) (Heap m) (f_size f) end.

(** klog_read_entry, ulogcat/libulogcat_klog.c:100-129. [blk]: what malloc(BUFSIZ) gives, a block
    with its bytes or NULL. Result: the device, the frame, the returned value. *)
Definition klog_read_entry {D} (rd : D -> Z -> D * rres) (blk : option (list Z)) (d : D) (f : frame) : M (D * frame * Z) :=
  let* (d, f, r) := read_buf rd d f (f_size f - 1) in
  let again := match r, f_buf f with RErr e, InFrame => e =? EINVAL | _, _ => false end in
  let finish (d : D) f r :=
    match r with
    | RErr e => Ok (d, f, if (e =? EINTR) || (e =? EAGAIN) || (e =? EPIPE) then 0 else -1)
    | RData b => let* m := store (buf_of f) (zlen b) 0 in Ok (d, with_buf f m, zlen b)
    end in
  if again then
    match blk with
    | None => Ok (d, mkF (f_data f) Null (f_size f), -1)
    | Some m =>
      let f := mkF (f_data f) (Heap m) BUFSIZ in
      let* (d, f, r) := read_buf rd d f (f_size f - 1) in finish d f r
    end
  else finish d f r.

(** klog_receive_entry, ulogcat/libulogcat_klog.c:138-173. Result: the device, the frame, the returned
    value (-1, 0 or 1), the decoded start of the record, and by how much dev->mark_readable decreases. *)
Definition klog_receive_entry {D} (rd : D -> Z -> D * rres) (W : Z) (blk : option (list Z)) (d : D) (f : frame) : M (D * frame * Z * option krec * Z) :=
  let* (d, f, ret) := klog_read_entry rd blk d f in
  if ret <=? 0 then Ok (d, f, ret, None, 0) else
  let* (m, k) := klog_receive W (buf_of f) in
  let f := with_buf f m in
  match k with None => Ok (d, f, -1, None, 0) | Some _ => Ok (d, f, 1, k, ret) end.

(** free_frame, ulogcat/libulogcat_core.c:62-74: the frame as it is put back to the free queue. *)
Definition free_frame (f : frame) : frame :=
  match f_buf f with InFrame => f | _ => mkF (f_data f) InFrame (zlen (f_data f)) end.

(** What is shown of an entry: priority, seconds, nanoseconds, message bytes with their NUL.
    libulog/include/ulogprint.h:31-44. *)
Record shown := mkS { s_prio : Z; s_sec : Z; s_nsec : Z; s_msg : list Z }.

(** The log reader with /dev/kmsg as its only device and nothing held back: each time a frame is taken
    from the head of the free queue (alloc_frame, ulogcat/libulogcat_core.c:48-60), an entry received
    (302-331), parsed by klog_parse_entry (dev->parse_entry in libulogcat_core.c:130-149) and the frame put back at the tail of
    the free queue. An entry whose parsing fails is not shown. [blks]: the results of malloc, one for
    each call. -1 from the receive function ends the reading ([false]); it also ends after [n] calls.
    Simplified: one device, rendering and polling left out (see Cat.v). *)
Fixpoint follow {D} (rd : D -> Z -> D * rres) (W : Z) (n : nat) (blk : option (list Z)) (d : D) (free : list frame) : M (D * list frame * list shown * bool) :=
  match n with
  | O => Ok (d, free, [], true)
  | S n =>
    match free with
    | [] => follow rd W n blk d free
    | f :: free =>
      let* (d, f, ret, k, _) := klog_receive_entry rd W blk d f in
      if ret <? 0 then Ok (d, free ++ [free_frame f], [], false) else
      let* (f, out) :=
        match k with
        | None => Ok (f, [])
        | Some k =>
          let* (m, r) := klog_parse (buf_of f) (r_off k) in
          Ok (with_buf f m, match r with None => [] | Some (off, len) => [mkS (r_prio k) (r_sec k) (r_nsec k) (zsub off len m)] end)
        end in
      let* (d, fs, os, b) := follow rd W n blk d (free ++ [free_frame f]) in
      Ok (d, fs, out ++ os, b)
    end
  end.
