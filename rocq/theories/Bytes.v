(** Byte strings, C memory blocks and small C library helpers shared by all models.

    Sizes, offsets and byte values are [Z]; a byte string is a [list Z].  A C memory block
    is a [list Z] whose length is the size of the block; every access is bounds checked and
    an access outside the block is the distinct outcome [Oob]. *)
From Coq Require Import ZArith List Bool Ascii String.
Import ListNotations.
Open Scope Z_scope.

(** Outcome of a computation that may hit undefined behaviour.
    [Oob]: an access outside a memory block.  [Hang]: a loop did not finish within its fuel.
    No code: meaning of the C language in all of /repo, for instance the memcpy of kernel/ulogger-6.x.c:504-515. *)
Inductive bug := Oob | Hang.
(** Outcome with a value or undefined behaviour; no code: meaning of C, as [bug]. *)
Inductive M (A : Type) := Ok (a : A) | Bug (b : bug).
Arguments Ok {A} _.
Arguments Bug {A} _.

(** Sequence of two statements; no code: meaning of C. *)
Definition bind {A B} (m : M A) (f : A -> M B) : M B :=
  match m with Ok a => f a | Bug b => Bug b end.
Notation "'let*' x ':=' m 'in' k" := (bind m (fun x => k))
  (at level 200, x pattern, m at level 100, k at level 200, right associativity).

(** Lengths, prefixes and suffixes of blocks of bytes: pointer arithmetic of C, as in libulog/ulog_read.c:83-135. *)
Definition zlen {A} (l : list A) : Z := Z.of_nat (List.length l).
(** The first [n] bytes of a block, as above. *)
Definition ztake {A} (n : Z) (l : list A) : list A := firstn (Z.to_nat n) l.
(** A pointer moved by [n] bytes, as above. *)
Definition zdrop {A} (n : Z) (l : list A) : list A := skipn (Z.to_nat n) l.
(** [n] elements of [l] from offset [off]. As in kernel/ulogger-6.x.c:136-149. *)
Definition zsub {A} (off n : Z) (l : list A) : list A := ztake n (zdrop off l).
(** memset, as in ulogcat/ulogcat.c:105. *)
Definition zrepeat {A} (x : A) (n : Z) : list A := repeat x (Z.to_nat n).
(** Element [i] of [l]; -1 (not a byte) when outside. Indexing, as in libulog/ulog_read.c:28-41. *)
Definition znth (i : Z) (l : list Z) : Z := nth (Z.to_nat i) l (-1).

(** Reading [n] bytes of block [buf] at [off] (the source side of memcpy). As in kernel/ulogger-6.x.c:136-149. *)
Definition mem_read (buf : list Z) (off n : Z) : M (list Z) :=
  if (0 <=? off) && (0 <=? n) && (off + n <=? zlen buf) then Ok (zsub off n buf) else Bug Oob.

(** Writing [data] into block [buf] at [off] (the destination side of memcpy).
    As in kernel/ulogger-6.x.c:504-515. *)
Definition mem_write (buf : list Z) (off : Z) (data : list Z) : M (list Z) :=
  if (0 <=? off) && (off + zlen data <=? zlen buf)
  then Ok (ztake off buf ++ data ++ zdrop (off + zlen data) buf) else Bug Oob.

(** Little-endian encoding of the low [n] bytes of [v] (so [v] is reduced modulo 256^n).
    The layout of integers in struct ulogger_entry, libulog/include/ulogger.h, on a little-endian machine. *)
Fixpoint le (n : nat) (v : Z) : list Z :=
  match n with
  | O => []
  | S m => v mod 256 :: le m (v / 256)
  end.

(** Value of a little-endian byte string. Reading such a field, as libulog/ulog_read.c:149-172 does. *)
Fixpoint of_le (bs : list Z) : Z :=
  match bs with
  | [] => 0
  | b :: r => b + 256 * of_le r
  end.

(** Conversion to a signed 32-bit integer (two's complement wrap).
    As in the field pid, libulog/ulog_read.c:149-172. *)
Definition s32 (v : Z) : Z :=
  let u := v mod 4294967296 in if u <? 2147483648 then u else u - 4294967296.
(** Conversion to uint32_t, as of the priority in libulog/include/ulog.h:500-508. *)
Definition u32 (v : Z) : Z := v mod 4294967296.
(** Conversion to uint16_t, as of the length in kernel/ulogger-6.x.c:575-599. *)
Definition u16 (v : Z) : Z := v mod 65536.
(** Conversion to an exit status, as of main in ulogcat/ulogcat.c:189-221. *)
Definition u8 (v : Z) : Z := v mod 256.

(** The C string held by [l]: the bytes before the first NUL.
    As strlen and %s take it, for instance at libulog/ulog_write.c:447-455. *)
Fixpoint cstr (l : list Z) : list Z :=
  match l with
  | [] => []
  | b :: r => if b =? 0 then [] else b :: cstr r
  end.

(** Bytes of a Coq string literal. For the literals of the code, such as that of kernel/ulogger-6.x.c:208-257. *)
Definition bytes_of_string (s : string) : list Z :=
  map (fun a => Z.of_nat (nat_of_ascii a)) (list_ascii_of_string s).

(** Decimal digits of a non-negative number, as printed by printf %u; the fuel argument is
    the number of digits allowed.
    Used for the texts of kernel/ulogger-6.x.c:208-257 and ulogcat/libulogcat_text.c:110-179. *)
Fixpoint dec_digits (fuel : nat) (v : Z) : list Z :=
  match fuel with
  | O => []
  | S f => if v <? 10 then [48 + v] else dec_digits f (v / 10) ++ [48 + v mod 10]
  end.

(** printf %u / %d for values whose magnitude fits in 64 bits (at most 20 digits).
    Used as [dec_digits], and at libulog/include/ulog.h:514-538. *)
Definition dec_u (v : Z) : list Z := dec_digits 20 v.
(** printf %d, as at kernel/ulogger-6.x.c:208-257. *)
Definition dec_d (v : Z) : list Z := if v <? 0 then 45 :: dec_u (- v) else dec_u v.

(** Equality test on byte strings (strcmp(a,b) == 0, memcmp). As at libulog/ulog_write.c:494-515. *)
Fixpoint bytes_eqb (a b : list Z) : bool :=
  match a, b with
  | [], [] => true
  | x :: a', y :: b' => (x =? y) && bytes_eqb a' b'
  | _, _ => false
  end.

(** errno values used by the models (Linux, generic).
    For the results of kernel/ulogger-6.x.c, libulog/ulog_write_raw.c:86-105 and others. *)
Definition EPERM := 1.
(** As above, for example kernel/ulogger-6.x.c:346-418. *)
Definition EINTR := 4.
(** As above, for example kernel/ulogger-6.x.c:812-905. *)
Definition EBADF := 9.
(** As above, for example kernel/ulogger-6.x.c:346-418. *)
Definition EAGAIN := 11.
(** As above, for example kernel/ulogger-6.x.c:691-728. *)
Definition ENOMEM := 12.
(** As above, for example kernel/ulogger-6.x.c:265-308. *)
Definition EFAULT := 14.
(** As above, for example libulogctl/src/ulogctl_srv.c:380-398. *)
Definition EBUSY := 16.
(** As above, for example kernel/ulogger-6.x.c:346-418. *)
Definition EINVAL := 22.
