(** Model of the redirections of foreign logging libraries, libulog-redirect/. *)
From Coq Require Import ZArith String List Bool.
From Verif Require Import Bytes.
Import ListNotations.
Open Scope Z_scope.

(** A call of ulog_log_str or ulog_vlog that passes its filter: priority, tag and text.
    At libulog-redirect/ulog_glib.c:30-68 and libulog-redirect/ulog_gst.c:78-150. *)
Inductive call := Log (prio : Z) (tag text : list Z).

(** The filter of ulog_log_str, libulog/ulog_write.c:450-454, for a cookie of level >= 0. *)
Definition log_str (prio level : Z) (tag text : list Z) : list call :=
  if Z.land prio 7 <=? level then [Log prio tag text] else [].

(** The name of a domain or category, "APP" when it is NULL, libulog-redirect/ulog_glib.c:36-38 and
    libulog-redirect/ulog_gst.c:93-96. *)
Definition or_app (name : option (list Z)) : list Z := match name with Some n => n | None => bytes_of_string "APP" end.

(** ** GLib *)

(** The conversion of the level flags, libulog-redirect/ulog_glib.c:40-53; the bits are those of
    GLogLevelFlags: ERROR 4, CRITICAL 8, WARNING 16, MESSAGE 32, INFO 64, DEBUG 128. *)
Definition glib_level (level : Z) : Z :=
  if negb (Z.land level 4 =? 0) then 2
  else if negb (Z.land level 8 =? 0) then 3
  else if negb (Z.land level 16 =? 0) then 4
  else if negb (Z.land level 32 =? 0) then 6
  else if negb (Z.land level 64 =? 0) then 6
  else if negb (Z.land level 128 =? 0) then 7
  else -1.

(** glog_func, libulog-redirect/ulog_glib.c:30-68. [master]: level of the cookie ulog_glib. *)
Definition glog_func (master : Z) (domain : option (list Z)) (level : Z) (message : list Z) : list call :=
  let u := glib_level level in
  if negb (u =? -1) && (master >=? 0) then log_str u master (or_app domain) message else [].

(** ** OBus *)

(** obus_func, libulog-redirect/ulog_obus.c:29-33, with OBUS_LOG_CRITICAL = 0; [text]: the message
    formatted in a buffer of ULOG_BUF_SIZE bytes (ulog_vlog_write, see Writer.v). *)
Definition obus_func (master level : Z) (text : list Z) : list call :=
  log_str (u32 (level - 0 + 2)) master (bytes_of_string "obus") text.

(** ** GStreamer *)

(** The conversion of GstDebugLevel, libulog-redirect/ulog_gst.c:98-112: ERROR 1, WARNING 2, FIXME 3,
    INFO 4, DEBUG 5, LOG 6, TRACE 7. *)
Definition gst_level (level : Z) : Z :=
  if level =? 1 then 3 else if level =? 2 then 4 else if level =? 3 then 4 else if level =? 4 then 6
  else if level =? 5 then 7 else if level =? 6 then 7 else if level >=? 7 then 7 else -1.

(** GST_MAX_ENTRY_LEN, libulog-redirect/ulog_gst.c:28. *)
Definition ENTRY_LEN : Z := 2048.

(** Size_t arithmetic. At libulog-redirect/ulog_gst.c:47-150. *)
Definition size_t (x : Z) : Z := x mod 18446744073709551616.

(** snprintf(buf + off, size, ...) of a format giving [text], as glibc does it: it returns the length of
    the text and writes as much as size allows, without looking at what size is.
    Used at libulog-redirect/ulog_gst.c:47-150. *)
Definition snprintf (buf : list Z) (off size : Z) (text : list Z) : M (Z * list Z) :=
  if size =? 0 then Ok (zlen text, buf)
  else let* b := mem_write buf off (ztake (size - 1) text ++ [0]) in Ok (zlen text, b).

(** prettify_object, libulog-redirect/ulog_gst.c:46-76, on the buffer from [off]; [text]: what the format
    chosen by the type of the object gives. The result is an int: size - 1 for size = 0 gives -1. *)
Definition prettify_object (buf : list Z) (off size : Z) (text : list Z) : M (Z * list Z) :=
  let* (ret, buf) := snprintf buf off size text in
  if ret <? 0 then Ok (ret, buf) else Ok (if size_t ret >=? size then s32 (size_t (size - 1)) else ret, buf).

(** The filling of buf, libulog-redirect/ulog_gst.c:132-149: [loc] is the text of "%s:%d:%s", [obj] that of
    the object, [msg] the message. *)
Definition gst_format (stack loc obj msg : list Z) : M (list Z) :=
  let size := zlen stack in
  let offset := 0 in
  let* (ret, buf) := snprintf stack offset (size_t (size - offset)) loc in
  let offset := if ret >? 0 then offset + ret else offset in
  let* (ret, buf) := prettify_object buf offset (size_t (size - offset)) obj in
  let offset := if ret >? 0 then offset + ret else offset in
  let* (_, buf) := snprintf buf offset (size_t (size - offset)) (58 :: msg) in
  Ok buf.

(** gst_log_func, libulog-redirect/ulog_gst.c:78-153. [threshold]: that of the category; [stack]: initial
    content of buf. *)
Definition gst_log_func (master threshold : Z) (category : option (list Z)) (stack : list Z) (level : Z) (loc obj msg : list Z) : M (list call) :=
  if level >? threshold then Ok []
  else
    let u := gst_level level in
    if negb (u =? -1) && (master >=? 0)
    then let* buf := gst_format stack loc obj msg in Ok (log_str u master (or_app category) (cstr buf))
    else Ok [].
