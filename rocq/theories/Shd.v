(** Model of the shared-memory backend ulog_shd/src/ulog.c and of the relay shdlogd/src/shdlogd.c.

    The shared memory library is an oracle: a sample written is read back as it was, or is lost. The
    buffer of a sample is a block of ULOG_BUF_SIZE bytes and every access is bounds checked. *)
From Coq Require Import ZArith String List Bool.
From Verif Require Import Bytes Parse Iov.
Import ListNotations.
Open Scope Z_scope.

(** ULOG_BUF_SIZE, libulog/include/ulog.h:293. *)
Definition BUF_SIZE : Z := 256.

(** struct ulog_shd_blob, ulog_shd/include/ulog_shd.h:31-39. *)
Record blob := mkBlob {
  b_index : Z; b_prio : Z; b_tid : Z; b_thn : Z; b_tag : Z; b_log : Z; b_buf : list Z }.

(** The thread name in the sample, ulog_shd/src/ulog.c:62-80: the buffer and thnsize. [thread]: the 16
    bytes of thread_name after prctl, [None] when it fails. *)
Definition put_thread (stack : list Z) (thread : option (list Z)) : M (list Z * Z) :=
  match thread with
  | Some t =>
    let s := cstr (ztake 15 t) in
    let* b := mem_write stack 0 (ztake (BUF_SIZE - 1) s ++ [0]) in
    Ok (b, if zlen s >=? BUF_SIZE then BUF_SIZE else zlen s + 1)
  | None => Ok (stack, 0)
  end.

(** A field of [len] bytes [src] at offset [off], ulog_shd/src/ulog.c:84-90 and 92-98: the buffer and
    the size of the field. *)
Definition put_field (b : list Z) (off : Z) (src : list Z) : M (list Z * Z) :=
  if off <? BUF_SIZE then
    let n := Z.min (zlen src) (BUF_SIZE - off) in
    let* d := mem_read src 0 n in
    let* b := mem_write b off d in Ok (b, n)
  else Ok (b, 0).

(** ulog_shd_write, ulog_shd/src/ulog.c:43-113. [stack]: initial content of blob.buf; [index]:
    ctrl.index; [name]: the cookie name, namesize counts its NUL; [buf]: the [len] bytes of the
    message. Left out: the mutex, the flag against recursion and the time stamp, which shd_write
    carries beside the sample. *)
Definition ulog_shd_write (stack : list Z) (index prio tid : Z) (thread : option (list Z)) (name buf : list Z)
  : M blob :=
  let* (b, thn) := put_thread stack thread in
  let* (b, tag) := put_field b thn (name ++ [0]) in
  let* (b, log) := put_field b (thn + tag) buf in
  let* b := (if thn + tag + log =? BUF_SIZE then store b (BUF_SIZE - 1) 0 else Ok b) in
  Ok (mkBlob (u16 index) (Z.land prio PRIO_LEVEL_MASK) (u32 tid) thn tag log b).

(** shdcolor, shdlogd/src/shdlogd.c:95-104. *)
Definition shdcolor : list Z := [0; 16711680; 65280; 16776960; 255; 16711935; 16776960; 8421504].

(** fill_raw_entry, shdlogd/src/shdlogd.c:106-136. [pname]: the bytes of ctx.raw.pname, NUL included;
    ctx.raw.entry.pid and euid are 0 (lines 72-79). *)
Definition fill_raw_entry (b : blob) (sec nsec : Z) (pname : list Z) : M raw_entry :=
  let tid := if b_thn b =? 0 then 0 else s32 (b_tid b) in
  let* tname := mem_read (b_buf b) 0 (b_thn b) in
  let* tag := mem_read (b_buf b) (b_thn b) (b_tag b) in
  let p := b_thn b + b_tag b in
  let* c0 := load (b_buf b) p in
  if (c0 =? 27) && (b_log b >=? 7) then
    let* c5 := load (b_buf b) (p + 5) in
    let* m := mem_read (b_buf b) (p + 7) (b_log b - 7) in
    Ok (mkRaw 0 tid sec nsec 0
          (Z.lor (b_prio b) (Z.shiftl (znth (Z.land (c5 - 48) 7) shdcolor) PRIO_COLOR_SHIFT))
          pname tname tag (Some m))
  else
    let* m := mem_read (b_buf b) p (b_log b) in
    Ok (mkRaw 0 tid sec nsec 0 (b_prio b) pname tname tag (Some m)).

(** What the loop of read_samples does with a sample: an entry given to ulog_raw_log, and messages of
    the relay itself. shdlogd/src/shdlogd.c:178-192. *)
Inductive act := Relay (r : raw_entry) | Lost (d : Z) | Many.

(** Conversion to short. shdlogd/src/shdlogd.c:184-189. *)
Definition s16 (v : Z) : Z := let u := v mod 65536 in if u <? 32768 then u else u - 65536.

(** The index check, shdlogd/src/shdlogd.c:184-189; [prev]: ctx.index. *)
Definition check_index (prev index : Z) : list act :=
  let d := s16 (index - prev - 1) in
  if d >? 0 then [Lost d] else if d <? 0 then [Many] else [].

(** The sending loop of read_samples, shdlogd/src/shdlogd.c:178-192, on samples with their time
    stamps; the result: the actions and the new ctx.index. *)
Fixpoint send_samples (pname : list Z) (prev : Z) (l : list (blob * Z * Z)) : M (list act * Z) :=
  match l with
  | [] => Ok ([], prev)
  | (b, sec, nsec) :: l =>
    let* r := fill_raw_entry b sec nsec pname in
    let* (a, i) := send_samples pname (b_index b) l in
    Ok (Relay r :: check_index prev (b_index b) ++ a, i)
  end.
