(** Model of the text rendering: ulogcat/libulogcat_text.c.

    C strings are their bytes before the terminating NUL. The render buffer is a list of cells that
    are either still unwritten ([None]) or hold a byte; a write outside it is [Bug Oob].
    Simplified: snprintf never fails (no conversion that can), and lengths stay far from the range
    of int (an entry has at most 5120 bytes, a kernel record at most 8192), so int arithmetic is
    done on unbounded numbers. The text made by strftime is a parameter. *)
From Coq Require Import ZArith String List Bool.
From Verif Require Import Bytes.
Import ListNotations.
Open Scope Z_scope.

(** struct ulog_entry, libulog/include/ulogprint.h:32-45. For a text entry [u_msg] is the string,
    for a binary entry the [len] bytes. *)
Record uentry := mkU {
  u_sec : Z; u_nsec : Z; u_prio : Z; u_pid : Z; u_pname : list Z; u_tid : Z; u_tname : list Z;
  u_tag : list Z; u_msg : list Z; u_bin : bool; u_color : Z }.

(** ULOGCAT_FORMAT_*, ulogcat/include/libulogcat.h:26-32. *)
Inductive format := FShort | FAligned | FProcess | FLong | FCsv.

(** text_render_size, ulogcat/libulogcat_text.c:22-25. *)
Definition text_render_size : Z := 5 * 1024 + 128.

(** ** printf conversions *)

(** %-Ns. Of printf; used at ulogcat/libulogcat_text.c:110-179. *)
Definition padr (n : Z) (s : list Z) : list Z := s ++ zrepeat 32 (n - zlen s).
(** %0Nd after the digits are known. Of printf; used at ulogcat/libulogcat_text.c:55-179. *)
Definition pad0 (n : Z) (s : list Z) : list Z := zrepeat 48 (n - zlen s) ++ s.
(** %0Nld. Of printf; used at ulogcat/libulogcat_text.c:110-179. *)
Definition dec_pad (n : Z) (v : Z) : list Z :=
  if v <? 0 then 45 :: pad0 (n - 1) (dec_u (- v)) else pad0 n (dec_u v).
(** Of printf %x and of the table hex, ulogcat/libulogcat_text.c:55-108. *)
Definition hexdigit (d : Z) : Z := if d <? 10 then 48 + d else 87 + d.
(** Of printf %x; used at ulogcat/libulogcat_text.c:55-108. *)
Fixpoint hex_digits (fuel : nat) (v : Z) : list Z :=
  match fuel with
  | O => []
  | S f => if v <? 16 then [hexdigit v] else hex_digits f (v / 16) ++ [hexdigit (v mod 16)]
  end.
(** %0Nx of an unsigned int. Used at ulogcat/libulogcat_text.c:55-108. *)
Definition hex_pad (n : Z) (v : Z) : list Z := pad0 n (hex_digits 8 (u32 v)).

(** ** The render buffer *)
(** ctx->render_buf, allocated at ulogcat/libulogcat_core.c:509; a byte not written yet is [None]. *)
Definition rbuf := list (option Z).

(** Bytes [bs] written from offset [off]. As at ulogcat/libulogcat_text.c:92-105. *)
Definition put (b : rbuf) (off : Z) (bs : list Z) : M rbuf :=
  if (off <? 0) || (zlen b <? off + zlen bs) then Bug Oob
  else Ok (ztake off b ++ map Some bs ++ zdrop (off + zlen bs) b).

(** snprintf(buf + off, size, ...) of a text: at most [size] bytes, NUL included; the result is the
    length of the text. Used at ulogcat/libulogcat_text.c:67-79, 110-233 and 260-262. *)
Definition snprintf (b : rbuf) (off size : Z) (text : list Z) : M (rbuf * Z) :=
  if size <=? 0 then Ok (b, zlen text)
  else let* b := put b off (ztake (size - 1) text ++ [0]) in Ok (b, zlen text).

(** snprintf into a local array of [n] bytes that is then used as a string. ulogcat/libulogcat_text.c:110-179. *)
Definition local_str (n : Z) (text : list Z) : list Z := ztake (n - 1) text.

(** ** CSV *)

(** The prefix, ulogcat/libulogcat_text.c:67-79. *)
Definition comma (l : list (list Z)) : list Z := concat (map (fun f => f ++ [44]) l).
(** The conversion 0x%0Nx, ulogcat/libulogcat_text.c:68. *)
Definition hex0x (n v : Z) : list Z := [48; 120] ++ hex_pad n v.
(** ulogcat/libulogcat_text.c:64. *)
Definition csv_len (e : uentry) : Z := if u_bin e then 2 * zlen (u_msg e) else zlen (u_msg e).
(** ulogcat/libulogcat_text.c:67-79. *)
Definition csv_prefix (e : uentry) : list Z :=
  comma [hex0x 8 (u_sec e); hex0x 8 (u_nsec e); dec_d (u_prio e); hex0x 6 (u_color e);
         dec_d (if u_bin e then 1 else 0); u_tag e; u_pname e; dec_d (u_pid e); u_tname e;
         dec_d (u_tid e); dec_d (csv_len e)].
(** The payload, ulogcat/libulogcat_text.c:92-104. *)
Definition hex_byte (b : Z) : list Z := [hexdigit (b / 16); hexdigit (b mod 16)].
(** ulogcat/libulogcat_text.c:92-104. *)
Definition csv_payload (e : uentry) : list Z :=
  if u_bin e then concat (map hex_byte (u_msg e)) else u_msg e.

(** print_log_line_csv, ulogcat/libulogcat_text.c:55-108; -1 is an error. *)
Definition print_log_line_csv (e : uentry) (b : rbuf) (size : Z) : M (rbuf * Z) :=
  let len := csv_len e in
  let* (b, count) := snprintf b 0 size (csv_prefix e) in
  if size <=? count then Ok (b, -1) else
  let p := count in
  let count := count + (len + 1) in
  if size <? count then Ok (b, -1) else
  let* b := put b p (csv_payload e) in
  let* b := put b (p + zlen (csv_payload e)) [10] in
  Ok (b, count).

(** ** Text formats *)

(** priotab, ulogcat/libulogcat_text.c:28. *)
Definition priotab : list Z := [32; 32; 67; 69; 87; 78; 73; 68].
(** ansinone, ulogcat/libulogcat_text.c:27. *)
Definition ansinone : list Z := [27; 91; 48; 109].

(** The settings: format, colours shown (with the colour table), labels shown, text of the time
    made by strftime (at most 31 bytes). ulogcat/libulogcat_private.h:117-139. *)
Record opts := mkO { o_fmt : format; o_color : bool; o_colors : list (list Z); o_label : bool; o_time : list Z }.

(** What the snprintf of print_ulog_line (ulogcat/libulogcat_text.c:110-179) prints before and
    after the message, for the formats other than CSV; [None]: read outside priotab. *)
Definition ident (e : uentry) : list Z :=
  u_pname e ++ (if u_pid e =? u_tid e then [] else [47] ++ u_tname e).
(** print_ulog_line, ulogcat/libulogcat_text.c:110-179: the texts put before and after the message. *)
Definition ulog_parts (o : opts) (e : uentry) : M (list Z * list Z) :=
  if (u_prio e <? 0) || (8 <=? u_prio e) then Bug Oob else
  let cprio := [znth (u_prio e) priotab] in
  let cstart := if o_color o then nth (Z.to_nat (u_prio e)) (o_colors o) [] else [] in
  let cend := if o_color o then ansinone else [] in
  let clabel := if o_label o then [85; 32] else [] in
  let head := cstart ++ clabel in
  let pre :=
    match o_fmt o with
    | FShort => head ++ cprio ++ [32] ++ padr 12 (u_tag e)
    | FProcess => head ++ cprio ++ [32] ++ padr 12 (u_tag e) ++ [40] ++ ident e ++ [41]
    | FLong =>
      let buf2 := local_str 128
        (if u_pid e =? u_tid e then padr 12 (u_tag e) ++ [40] ++ u_pname e ++ [45] ++ dec_d (u_pid e) ++ [41]
         else padr 12 (u_tag e) ++ [40] ++ u_pname e ++ [45] ++ dec_d (u_pid e) ++ [47] ++
              u_tname e ++ [45] ++ dec_d (u_tid e) ++ [41]) in
      head ++ o_time o ++ [46] ++ dec_pad 3 (Z.quot (u_nsec e) 1000000) ++ [32] ++ cprio ++ [32] ++ padr 45 buf2
    | _ =>
      let buf2 := local_str 128 (padr 12 (u_tag e) ++ [40] ++ ident e ++ [41]) in
      head ++ cprio ++ [32] ++ padr 45 buf2
    end in
  Ok (pre ++ [58; 32], cend ++ [10]).

(** print_klog_line, ulogcat/libulogcat_text.c:181-233. *)
Definition klog_parts (o : opts) (e : uentry) : M (list Z * list Z) :=
  if (u_prio e <? 0) || (8 <=? u_prio e) then Bug Oob else
  let cprio := [znth (u_prio e) priotab] in
  let cstart := if o_color o then nth (Z.to_nat (u_prio e)) (o_colors o) [] else [] in
  let cend := if o_color o then ansinone else [] in
  let clabel := if o_label o then [75; 32] else [] in
  let head := cstart ++ clabel in
  let pre :=
    match o_fmt o with
    | FShort | FProcess => head ++ cprio ++ [32] ++ padr 12 (u_tag e)
    | FLong => head ++ o_time o ++ [46] ++ dec_pad 3 (Z.quot (u_nsec e) 1000000) ++ [32] ++ cprio ++ [32] ++ padr 45 (u_tag e)
    | _ => head ++ cprio ++ [32] ++ padr 45 (u_tag e)
    end in
  Ok (pre ++ [58; 32], cend ++ [10]).

(** print_log_line, ulogcat/libulogcat_text.c:235-248, with the common end of the two functions
    above (174-178, 228-232): a truncated text counts for the whole room. *)
Definition print_log_line (klog : bool) (o : opts) (e : uentry) (message : list Z) (b : rbuf) (off size : Z) : M (rbuf * Z) :=
  let* (pre, post) := if klog then klog_parts o e else ulog_parts o e in
  let* (b, count) := snprintf b off size (pre ++ message ++ post) in
  Ok (b, if size <=? count then size else count).

(** strchr(message, '\n'): the text before the line feed, and what follows it.
    ulogcat/libulogcat_text.c:284-300. *)
Fixpoint split_nl (m : list Z) : list Z * option (list Z) :=
  match m with
  | [] => ([], None)
  | c :: r => if c =? 10 then ([], Some r)
              else let (a, x) := split_nl r in (c :: a, x)
  end.

(** The loop of text_render_frame, ulogcat/libulogcat_text.c:283-300. *)
Fixpoint render_lines (fuel : nat) (klog : bool) (o : opts) (e : uentry) (m : list Z) (b : rbuf) (off size : Z) : M (rbuf * Z) :=
  match fuel with
  | O => Bug Hang
  | S n =>
    let (line, nl) := split_nl m in
    let* (b, count) := print_log_line klog o e line b off size in
    match nl with
    | Some (c :: r) => render_lines n klog o e (c :: r) b (off + count) (size - count)
    | _ => Ok (b, off + count)
    end
  end.

(** text_render_frame, ulogcat/libulogcat_text.c:250-303, on a fresh render buffer, followed by
    output_rendered (ulogcat/libulogcat_core.c:22-45): [None] when nothing is output, else the
    cells handed to the output. *)
Definition handed (b : rbuf) (len : Z) : M (option (list (option Z))) :=
  if (len <? 0) || (zlen b <? len) then Bug Oob else Ok (Some (ztake len b)).
(** The buffer when it is allocated, ulogcat/libulogcat_core.c:509; its size: ulogcat/libulogcat_text.c:22-25. *)
Definition fresh : rbuf := zrepeat None text_render_size.
(** text_render_frame for an entry, ulogcat/libulogcat_text.c:267-302. *)
Definition text_render (klog : bool) (o : opts) (e : uentry) : M (option (list (option Z))) :=
  match o_fmt o with
  | FCsv =>
    let* (b, count) := print_log_line_csv e fresh text_render_size in
    if count <? 0 then Ok None else handed b count
  | _ =>
    if u_bin e then Ok None else
    let* (b, len) := render_lines (S (length (u_msg e))) klog o e (u_msg e) fresh 0 text_render_size in
    if len =? 0 then Ok None else handed b len
  end.

(** The banner, ulogcat/libulogcat_core.c:100-128 and libulogcat_text.c:258-265; [path]: the
    device path (at most 63 bytes). *)
Definition banner_text (path : list Z) : list Z :=
  bytes_of_string "---------------------------------------" ++
  local_str 128 (bytes_of_string "------------- beginning of " ++ path) ++ [10].
(** text_render_frame for a banner, ulogcat/libulogcat_text.c:258-265. *)
Definition render_banner (path : list Z) : M (option (list (option Z))) :=
  let* (b, count) := snprintf fresh 0 text_render_size (banner_text path) in
  handed b count.

(** setup_colors, ulogcat/libulogcat_text.c:30-53: eight entries separated by bars, each made an
    escape sequence of at most 31 bytes. *)
Fixpoint strsep_bar (s : list Z) : list Z * option (list Z) :=
  match s with
  | [] => ([], None)
  | c :: r => if c =? 124 then ([], Some r)
              else let (a, x) := strsep_bar r in (c :: a, x)
  end.
(** setup_colors, ulogcat/libulogcat_text.c:30-53. *)
Fixpoint setup_colors (n : nat) (tmp : option (list Z)) : list (list Z) :=
  match n with
  | O => []
  | S n' =>
    match tmp with
    | None => [] :: setup_colors n' None
    | Some s => let (seq, rest) := strsep_bar s in
                (match seq with [] => [] | _ => local_str 32 ([27; 91] ++ seq ++ [109]) end) :: setup_colors n' rest
    end
  end.
