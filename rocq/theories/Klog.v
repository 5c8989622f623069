(** Model of the decoding of kernel messages: ulogcat/libulogcat_klog.c.

    A block of memory is a byte list. Where the code only reads through a pointer, the pointer is
    the rest of the block from it; reading past the end of the block is [Bug Oob]. Where it writes,
    pointers are offsets. [W] is the number of bits of long and time_t (32 or 64). The C locale is
    assumed; bytes above 127 are in no character class. *)
From Coq Require Import ZArith String List Bool.
From Verif Require Import Bytes Parse.
Import ListNotations.
Open Scope Z_scope.

(** ** Character classes and numbers of the C library *)
(** C library; used at ulogcat/libulogcat_klog.c:22-83. *)
Definition isspace (c : Z) : bool := (c =? 32) || ((9 <=? c) && (c <=? 13)).
(** C library; used at ulogcat/libulogcat_klog.c:22-83. *)
Definition isdigit (c : Z) : bool := (48 <=? c) && (c <=? 57).
(** C library; used at ulogcat/libulogcat_klog.c:223-224. *)
Definition isxdigit (c : Z) : bool :=
  isdigit c || ((65 <=? c) && (c <=? 70)) || ((97 <=? c) && (c <=? 102)).
(** C library; used at ulogcat/libulogcat_klog.c:176-179. *)
Definition tolower (c : Z) : Z := if (65 <=? c) && (c <=? 90) then c + 32 else c.

(** *s. As at ulogcat/libulogcat_klog.c:22-49. *)
Definition ch (s : list Z) : M Z := match s with [] => Bug Oob | c :: _ => Ok c end.
(** The longest prefix of bytes satisfying [f], and the rest.
    No code: the scan of strtol and strlen of the C library, ulogcat/libulogcat_klog.c:22-83. *)
Fixpoint span_c (f : Z -> bool) (s : list Z) : M (list Z * list Z) :=
  match s with
  | [] => Bug Oob
  | c :: r => if f c then let* (a, b) := span_c f r in Ok (c :: a, b) else Ok ([], s)
  end.
(** Value of digits in strtol of the C library, ulogcat/libulogcat_klog.c:22-83. *)
Definition num_of (ds : list Z) : Z := fold_left (fun a c => 10 * a + (c - 48)) ds 0.

(** Common part of strtol, strtoll and strtoul with base 10: sign, digits, end pointer.
    C library; used at ulogcat/libulogcat_klog.c:22-83. *)
Definition strto (s : list Z) : M (bool * list Z * list Z) :=
  let* (_, s1) := span_c isspace s in
  let* c := ch s1 in
  let (neg, s2) := if c =? 45 then (true, tl s1) else if c =? 43 then (false, tl s1) else (false, s1) in
  let* (ds, s3) := span_c isdigit s2 in
  Ok (neg, ds, match ds with [] => s | _ => s3 end).
(** C library; used at ulogcat/libulogcat_klog.c:22-83. *)
Definition strtoul (W : Z) (s : list Z) : M (Z * list Z) :=
  let* (neg, ds, e) := strto s in
  let v := num_of ds in
  Ok (if 2 ^ W <=? v then 2 ^ W - 1 else if neg : bool then (- v) mod 2 ^ W else v, e).
(** C library; used at ulogcat/libulogcat_klog.c:159-160. *)
Definition strtol (W : Z) (s : list Z) : M Z :=
  let* (neg, ds, _) := strto s in
  let v := num_of ds in
  Ok (if neg : bool then Z.max (- v) (- 2 ^ (W - 1)) else Z.min v (2 ^ (W - 1) - 1)).

(** Conversion to a signed number of [W] bits. As of the result of strtoul at ulogcat/libulogcat_klog.c:51-83. *)
Definition sW (W v : Z) : Z :=
  let u := v mod 2 ^ W in if u <? 2 ^ (W - 1) then u else u - 2 ^ W.

(** ** Kernel messages read from the kmsgd device *)

(** The fields of struct ulog_entry that change; [k_msg] is the block from entry->message.
    libulog/include/ulogprint.h:31-44. *)
Record kent := mkK { k_prio : Z; k_sec : Z; k_nsec : Z; k_msg : list Z; k_len : Z }.

(** parse_prefix, ulogcat/libulogcat_klog.c:22-49. *)
Definition parse_prefix (W : Z) (e : kent) : M kent :=
  let p := k_msg e in
  let* c := ch p in
  if negb (c =? 60) || (k_len e <? 4) then Ok e else
  let* c1 := ch (zdrop 1 p) in
  let* c2 := ch (zdrop 2 p) in
  let moved prio p' :=
    Ok (mkK prio (k_sec e) (k_nsec e) p' (k_len e - (zlen p - zlen p'))) in
  if c2 =? 62 then
    moved (if isdigit c1 then Z.land (c1 - 48) 7 else ULOG_INFO) (zdrop 3 p)
  else
    let* (v, endp) := strtoul W (zdrop 1 p) in
    let prio := Z.land v 7 in
    let* ce := ch endp in
    if negb (ce =? 62) then Ok (mkK prio (k_sec e) (k_nsec e) p (k_len e))
    else moved prio (zdrop 1 endp).

(** parse_timestamp, ulogcat/libulogcat_klog.c:51-83. *)
Definition parse_timestamp (W : Z) (e : kent) : M kent :=
  let p := k_msg e in
  let notime := Ok (mkK (k_prio e) 0 0 p (k_len e)) in
  let* c := ch p in
  if negb (c =? 91) then notime else
  let* (sec, endp) := strtoul W (zdrop 1 p) in
  let* ce := ch endp in
  if negb (ce =? 46) then notime else
  let* (usec, endp) := strtoul W (zdrop 1 endp) in
  let* c0 := ch endp in
  if negb (c0 =? 93) then notime else
  let* c1 := ch (zdrop 1 endp) in
  if negb (c1 =? 32) then notime else
  let p' := zdrop 2 endp in
  Ok (mkK (k_prio e) (sW W sec) (sW W (usec * 1000)) p' (k_len e - (zlen p - zlen p'))).

(** kmsgd_fix_entry, ulogcat/libulogcat_klog.c:85-98, on the fields above. The others become
    constants: pid = tid = 0, empty names, tag "KERNEL", is_binary = 0, colour 0 (see [fixed]). *)
Definition kmsgd_fix_entry (W : Z) (e : kent) : M kent :=
  let* e := parse_prefix W e in parse_timestamp W e.

(** strlen: the string at a pointer, as the renderer takes it. ulogcat/libulogcat_klog.c:85-98. *)
Definition str_at (s : list Z) : M (list Z) := let* (a, _) := span_c (fun c => negb (c =? 0)) s in Ok a.

(** ** Records of /dev/kmsg *)

(** strtok_r(p, ",", &saveptr) on block [mem], [p] an offset: the block, the token ([None] for
    NULL) and the new saveptr. C library; used at ulogcat/libulogcat_klog.c:152-154. *)
Definition strtok (mem : list Z) (p : Z) : M (list Z * option Z * Z) :=
  let* (skip, s) := span_c (fun c => c =? 44) (zdrop p mem) in
  let p := p + zlen skip in
  let* c := ch s in
  if c =? 0 then Ok (mem, None, p) else
  let* (tok, s') := span_c (fun c => negb (c =? 44) && negb (c =? 0)) s in
  let q := p + zlen tok in
  let* c := ch s' in
  if c =? 0 then Ok (mem, Some p, q)
  else let* mem := store mem q 0 in Ok (mem, Some p, q + 1).

(** strchr(p, c): offset of the first [c] before the NUL.
    C library; used at ulogcat/libulogcat_klog.c:164, 201 and 216. *)
Definition strchr (mem : list Z) (p c : Z) : M (option Z) :=
  let* (a, s) := span_c (fun x => negb (x =? 0) && negb (x =? c)) (zdrop p mem) in
  let* x := ch s in
  Ok (if x =? c then Some (p + zlen a) else None).

(** The decoded start of a record: priority, time, stamp, offset of the semicolon.
    ulogcat/libulogcat_klog.c:138-174. *)
Record krec := mkR { r_prio : Z; r_sec : Z; r_nsec : Z; r_stamp : Z; r_off : Z }.

(** klog_receive_entry after the read, ulogcat/libulogcat_klog.c:152-168; [mem]: the frame buffer
    holding the record, its NUL (line 127) and older bytes. [None]: -1. *)
Definition klog_receive (W : Z) (mem : list Z) : M (list Z * option krec) :=
  let* (mem, prio, sv) := strtok mem 0 in
  let* (mem, _, sv) := strtok mem sv in
  let* (mem, ts, sv) := strtok mem sv in
  match prio, ts with
  | Some prio, Some ts =>
    let* usec := strtol 64 (zdrop ts mem) in
    let* pr := strtol W (zdrop prio mem) in
    let u := usec mod 2 ^ 64 in
    let sec := sW W (u / 1000000) in
    let nsec := sW W ((usec - sec * 1000000) mod 2 ^ 64 * 1000) in
    let* t := str_at (zdrop ts mem) in
    let* semi := strchr mem (ts + zlen t + 1) 59 in
    match semi with
    | None => Ok (mem, None)
    | Some off => Ok (mem, Some (mkR (Z.land pr 7) sec nsec u off))
    end
  | _, _ => Ok (mem, None)
  end.

(** hex2dec, ulogcat/libulogcat_klog.c:176-179. *)
Definition hex2dec (x : Z) : Z := Z.land (if isdigit x then x - 48 else tolower x - 97 + 10) 15.

(** A test of lines 221-224: is there an escape at [p]? The reads stop at the first that fails. *)
Definition escape_at (mem : list Z) (p : Z) : M bool :=
  let* c0 := load mem p in
  if negb (c0 =? 92) then Ok false else
  let* c1 := load mem (p + 1) in
  if negb (c1 =? 120) then Ok false else
  let* c2 := load mem (p + 2) in
  if negb (isxdigit c2) then Ok false else
  let* c3 := load mem (p + 3) in
  Ok (isxdigit c3).

(** The loop of lines 219-230; result: the block, the final [p] and [q]. *)
Fixpoint unesc_loop (fuel : nat) (mem : list Z) (p q : Z) : M (list Z * Z * Z) :=
  match fuel with
  | O => Bug Hang
  | S n =>
    let* c := load mem p in
    if c =? 0 then Ok (mem, p, q) else
    let* esc := escape_at mem p in
    if esc then
      let* c2 := load mem (p + 2) in
      let* c3 := load mem (p + 3) in
      let* mem := store mem q (Z.lor (Z.shiftl (hex2dec c2) 4) (hex2dec c3)) in
      unesc_loop n mem (p + 4) (q + 1)
    else
      let* mem := store mem q c in
      unesc_loop n mem (p + 1) (q + 1)
  end.

(** klog_parse_entry, ulogcat/libulogcat_klog.c:194-236: [semi] is the offset of the semicolon;
    result: the block, and the message offset and length ([None]: -1). *)
Definition klog_parse (mem : list Z) (semi : Z) : M (list Z * option (Z * Z)) :=
  let msg := semi + 1 in
  let* nl := strchr mem msg 10 in
  match nl with
  | None => Ok (mem, None)
  | Some p =>
    let* mem := store mem p 0 in
    let len := p - msg + 1 in
    let* bs := strchr mem msg 92 in
    match bs with
    | None => Ok (mem, Some (msg, len))
    | Some p =>
      let* (mem, _, q) := unesc_loop (S (length mem)) mem p p in
      let* mem := store mem q 0 in
      Ok (mem, Some (msg, q - msg + 1))
    end
  end.
