(** Model of libulog/ulog_read.c: parsing of an entry as it is read from the device.

    The [size] bytes handed to the payload parser are one memory block (a byte list of exactly
    that length); pointers into it are offsets and every access is bounds checked.  Field
    pointers of the result are offsets in the block or constant strings. *)
From Coq Require Import ZArith String List Bool.
From Verif Require Import Bytes.
Import ListNotations.
Open Scope Z_scope.

(** ULOG_INFO, libulog/include/ulog.h:164; ULOG_PRIO_*, libulog/include/ulog.h:418-420. *)
Definition ULOG_INFO := 6.
(** libulog/include/ulog.h:418-420. *)
Definition PRIO_LEVEL_MASK := 7.
(** libulog/include/ulog.h:418-420. *)
Definition PRIO_BINARY_SHIFT := 7.
(** libulog/include/ulog.h:418-420. *)
Definition PRIO_COLOR_SHIFT := 8.

(** A "const char *" field of the result: a pointer into the buffer or to a string constant
    (given without its NUL). libulog/include/ulogprint.h:31-44. *)
Inductive ptr := InBuf (off : Z) | Const (s : list Z).

(** struct ulog_entry, libulog/include/ulogprint.h:32-45. *)
Record pentry := mkPEntry {
  pe_sec : Z; pe_nsec : Z; pe_prio : Z; pe_pid : Z; pe_pname : ptr; pe_tid : Z; pe_tname : ptr;
  pe_tag : ptr; pe_msg : ptr; pe_len : Z; pe_bin : bool; pe_color : Z
}.

(** *p. As at libulog/ulog_read.c:28-135. *)
Definition load (mem : list Z) (p : Z) : M Z :=
  if (0 <=? p) && (p <? zlen mem) then Ok (znth p mem) else Bug Oob.
(** *p = v. As at libulog/ulog_read.c:44-73. *)
Definition store (mem : list Z) (p v : Z) : M (list Z) := mem_write mem p [v].

(** strnlen(p, n) of the C library: looks at the bytes up to the first NUL, at most [n].
    Used at libulog/ulog_read.c:83-135. *)
Fixpoint strnlen (mem : list Z) (p : Z) (n : nat) : M Z :=
  match n with
  | O => Ok 0
  | S n' => let* b := load mem p in
            if b =? 0 then Ok 0 else let* k := strnlen mem (p + 1) n' in Ok (k + 1)
  end.

(** get_token, libulog/ulog_read.c:28-41.  [None]: NULL, the caller's pointer and size are
    unchanged; [Some (tok, p, size)]: the token and the new pointer and size. *)
Definition get_token (mem : list Z) (p size : Z) : M (option (Z * Z * Z)) :=
  let* len := strnlen mem p (Z.to_nat size) in
  if len + 1 >? size then Ok None
  else Ok (Some (p, p + len + 1, size - len - 1)).

(** "<<zero-length>>", libulog/ulog_read.c:48. *)
Definition zero_length_str : list Z := bytes_of_string "<<zero-length>>".

(** ulog_parse_payload_unformatted, libulog/ulog_read.c:44-73.  [sec nsec pid tid] are the fields
    of the entry set by the caller before.  The result code is always 0. *)
Definition parse_unformatted (mem : list Z) (p size sec nsec pid tid : Z) : M (list Z * pentry) :=
  let fin m msg len := Ok (m, mkPEntry sec nsec ULOG_INFO pid (Const []) tid (Const []) (Const [])
                                       msg len false 0) in
  let* len := strnlen mem p (Z.to_nat size) in
  if len =? 0 then fin mem (Const zero_length_str) (zlen zero_length_str + 1)
  else if len <? size then
    let* mem' := store mem (p + len) 0 in fin mem' (InBuf p) (len + 1)
  else
    let* mem' := store mem (p + size - 1) 0 in fin mem' (InBuf p) size.

(** ulog_parse_payload, libulog/ulog_read.c:83-135.  Result code always 0. *)
Definition parse_payload (mem : list Z) (p size sec nsec pid tid : Z) : M (list Z * pentry) :=
  let unformatted := fun p size => parse_unformatted mem p size sec nsec pid tid in
  let* t1 := get_token mem p size in
  match t1 with
  | None => unformatted p size
  | Some (pname, p, size) =>
    let* t2 := if pid =? tid then Ok (Some (pname, p, size)) else get_token mem p size in
    match t2 with
    | None => unformatted p size
    | Some (tname, p, size) =>
      if size <? 4 then unformatted p size else
      let* b0 := load mem p in
      let* b1 := load mem (p + 1) in
      let* b2 := load mem (p + 2) in
      let* b3 := load mem (p + 3) in
      let prio := Z.land b0 PRIO_LEVEL_MASK in
      let bin := Z.testbit b0 PRIO_BINARY_SHIFT in
      let color := Z.lor (Z.lor b1 (Z.shiftl b2 8)) (Z.shiftl b3 16) in
      let p := p + 4 in
      let size := size - 4 in
      let* t3 := get_token mem p size in
      match t3 with
      | None => unformatted (p - 4) (size + 4)
      | Some (tag, p, size) =>
        let fin m len := Ok (m, mkPEntry sec nsec prio pid (InBuf pname) tid (InBuf tname)
                                         (InBuf tag) (InBuf p) len bin color) in
        if bin then fin mem size
        else if size =? 0 then unformatted p 0
        else
          let* len := strnlen mem p (Z.to_nat size) in
          if len =? size then let* mem' := store mem (p + size - 1) 0 in fin mem' len
          else fin mem (len + 1)
      end
    end
  end.

(** struct ulogger_entry, libulog/include/ulogger.h:46-55: u16 len, u16 hdr_size, s32 pid, s32 tid,
    s32 sec, s32 nsec, u32 euid; little-endian. *)
Definition hdr_len (buf : list Z) : Z := of_le (zsub 0 2 buf).
(** hdr_size to hdr_nsec: fields of struct ulogger_entry as read at libulog/ulog_read.c:149-172. *)
Definition hdr_size (buf : list Z) : Z := of_le (zsub 2 2 buf).
(** As above, libulog/ulog_read.c:149-172. *)
Definition hdr_pid (buf : list Z) : Z := s32 (of_le (zsub 4 4 buf)).
(** As above, libulog/ulog_read.c:149-172. *)
Definition hdr_tid (buf : list Z) : Z := s32 (of_le (zsub 8 4 buf)).
(** As above, libulog/ulog_read.c:149-172. *)
Definition hdr_sec (buf : list Z) : Z := s32 (of_le (zsub 12 4 buf)).
(** As above, libulog/ulog_read.c:149-172. *)
Definition hdr_nsec (buf : list Z) : Z := s32 (of_le (zsub 16 4 buf)).

(** Fields pointing into the payload, as pointers into the whole buffer. libulog/ulog_read.c:149-172. *)
Definition shift_ptr (n : Z) (q : ptr) : ptr :=
  match q with InBuf off => InBuf (n + off) | Const s => Const s end.
(** The same for all fields, libulog/ulog_read.c:149-172. *)
Definition shift_entry (n : Z) (e : pentry) : pentry :=
  mkPEntry (pe_sec e) (pe_nsec e) (pe_prio e) (pe_pid e) (shift_ptr n (pe_pname e)) (pe_tid e)
           (shift_ptr n (pe_tname e)) (shift_ptr n (pe_tag e)) (shift_ptr n (pe_msg e)) (pe_len e)
           (pe_bin e) (pe_color e).

(** The payload parser applied to bytes [off, off + n) of [buf]; these bytes are its block.
    libulog/ulog_read.c:137-172. *)
Definition parse_at (buf : list Z) (off n sec nsec pid tid : Z) : M (list Z * pentry) :=
  let* blk := mem_read buf off n in
  let* (blk', e) := parse_payload blk 0 n sec nsec pid tid in
  let* buf' := mem_write buf off blk' in
  Ok (buf', shift_entry off e).

(** ulog_parse_buf, libulog/ulog_read.c:137-147, on a buffer [buf] (an access outside it is
    [Oob]). *)
Definition ulog_parse_buf (buf : list Z) : M (list Z * pentry) :=
  let* h := mem_read buf 0 24 in
  parse_at buf (hdr_size h) (hdr_len h) (hdr_sec h) (hdr_nsec h) (hdr_pid h) (hdr_tid h).

(** ulog_parse_raw, libulog/ulog_read.c:149-172; [len] is the length of [buf].  [None] is the
    result -1. *)
Definition ulog_parse_raw (buf : list Z) : M (list Z * option pentry) :=
  let len := zlen buf in
  if len <? 24 then Ok (buf, None) else
  let* h := mem_read buf 0 24 in
  if len <? hdr_size h then Ok (buf, None) else
  if negb (hdr_len h =? len - hdr_size h) then Ok (buf, None) else
  let* (buf', e) := parse_at buf (hdr_size h) (hdr_len h) (hdr_sec h) (hdr_nsec h)
                             (hdr_pid h) (hdr_tid h) in
  Ok (buf', Some e).
