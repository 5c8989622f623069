(** Model of the chunked binary writer, libulog/ulog_write_bin.c:165-272.

    An iovec array is the list of the byte strings its elements designate; every index into the
    caller's array, every access to a vector and every store in the local array [iov2] is
    bounds checked. *)
From Coq Require Import ZArith String List Bool.
From Verif Require Import Bytes.
Import ListNotations.
Open Scope Z_scope.

(** ULOGGER_ENTRY_MAX_PAYLOAD, libulog/include/ulogger.h:65. *)
Definition ENTRY_MAX_PAYLOAD := 4076.
(** Arithmetic on size_t. For libulog/ulog_write_bin.c:175-272. *)
Definition size_t (v : Z) : Z := v mod 2 ^ 64.

(** compute_max_chunk_len, libulog/ulog_write_bin.c:175-180. *)
Definition compute_max_chunk_len (tagsize hdrlen : Z) : Z :=
  let extra := size_t (2 * 16 + 4 + tagsize + hdrlen + 1) in
  if extra <? ENTRY_MAX_PAYLOAD then ENTRY_MAX_PAYLOAD - extra else 0.

(** iov[i]. For libulog/ulog_write_bin.c:196-272. *)
Definition nth_vec (iov : list (list Z)) (i : Z) : M (list Z) :=
  if (0 <=? i) && (i <? zlen iov) then Ok (nth (Z.to_nat i) iov []) else Bug Oob.

(** iov2[iovcnt2] = x; iovcnt2++ for an array of [cap] elements; elements are always stored in
    order, so the filled part is a list and iovcnt2 its length. For libulog/ulog_write_bin.c:196-272. *)
Definition push (cap : Z) (v : list (list Z)) (x : list Z) : M (list (list Z)) :=
  if zlen v <? cap then Ok (v ++ [x]) else Bug Oob.

(** The inner loop "while (chunkrem > 0)", libulog/ulog_write_bin.c:243-261.  State: filled part
    of iov2, iovidx, iovoff; the result is the state after the loop. *)
Fixpoint fill (fuel : nat) (cap : Z) (iov v : list (list Z)) (idx off rem : Z)
  : M (list (list Z) * Z * Z) :=
  if rem >? 0 then
    match fuel with
    | O => Bug Hang
    | S f =>
      let* src := nth_vec iov idx in
      let n := if size_t (zlen src - off) <? rem then size_t (zlen src - off) else rem in
      let* piece := mem_read src off n in
      let* v := push cap v piece in
      let off := off + n in
      let '(idx, off) := if off =? zlen src then (idx + 1, 0) else (idx, off) in
      fill f cap iov v idx off (rem - n)
    end
  else Ok (v, idx, off).

(** The outer loop "while (total > 0)", libulog/ulog_write_bin.c:224-269.  [res k] is the result
    of the [k]-th ulog_bin_writev; the model returns the vectors given to ulog_bin_writev, in
    order, and the result. *)
Fixpoint chunks (fuel : nat) (res : nat -> Z) (k : nat) (hdr : list Z) (iov : list (list Z))
  (maxchunklen chunkidx idx off total : Z) (done : list (list (list Z))) : M (list (list (list Z)) * Z) :=
  if total >? 0 then
    match fuel with
    | O => Bug Hang
    | S f =>
      let cap := zlen iov + 2 in
      let chunklen := if total <? maxchunklen then total else maxchunklen in
      let* v := if zlen hdr >? 0 then push cap [] hdr else Ok [] in
      let* v := push cap v [chunkidx] in
      let* (v, idx, off) := fill (S (length iov)) cap iov v idx off chunklen in
      if res k <? 0 then Ok (done ++ [v], res k)
      else chunks f res (S k) hdr iov maxchunklen (u8 (chunkidx + 1)) idx off
                  (size_t (total - chunklen)) (done ++ [v])
    end
  else Ok (done, 0).

(** Total size of the payload, libulog/ulog_write_bin.c:219-221. *)
Definition total_size (iov : list (list Z)) : Z := fold_left (fun t b => size_t (t + zlen b)) iov 0.

(** ulog_bin_writev_chunk, libulog/ulog_write_bin.c:196-272; [tagsize] and [hdr] (its [hdrlen]
    bytes) are arguments.  The fuel of the outer loop is the number of bytes. *)
Definition ulog_bin_writev_chunk (res : nat -> Z) (tagsize : Z) (hdr : list Z) (iov : list (list Z))
  : M (list (list (list Z)) * Z) :=
  let maxchunklen := compute_max_chunk_len tagsize (zlen hdr) in
  if maxchunklen <=? 0 then Ok ([], - EINVAL)
  else chunks (Z.to_nat (total_size iov)) res 0 hdr iov maxchunklen 0 0 0 (total_size iov) [].

(** ulog_bin_write_chunk, libulog/ulog_write_bin.c:182-194. *)
Definition ulog_bin_write_chunk (res : nat -> Z) (tagsize : Z) (hdr buf : list Z) :=
  ulog_bin_writev_chunk res tagsize hdr [buf].
