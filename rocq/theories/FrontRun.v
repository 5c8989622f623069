(** Model of programs that log through the python module and through the redirections of GLib, OBus and
    GStreamer, up to the calls on the device. *)
From Coq Require Import ZArith String List Bool.
From Verif Require Import Bytes Ring Iov.
From Verif Require Macros Redirect Py.
Import ListNotations.
Open Scope Z_scope.

(** A message of a program:
    - a record given to ULogHandler.emit, ulogpy/ulog.py:307-330;
    - a message of GLib given to glog_func, libulog-redirect/ulog_glib.c:30-68: domain, flags, text;
    - a message of OBus given to obus_func, libulog-redirect/ulog_obus.c:29-33: content of buf in
      ulog_vlog_write (libulog/ulog_write.c:426), level, formatted text;
    - a message of GStreamer given to gst_log_func, libulog-redirect/ulog_gst.c:78-153: threshold of the
      category, its name, content of buf, level, location, object, text. *)
Inductive front :=
  | Python (r : Py.record)
  | Glib (domain : option (list Z)) (flags : Z) (text : list Z)
  | Obus (stack : list Z) (level : Z) (text : list Z)
  | Gst (threshold : Z) (category : option (list Z)) (stack : list Z) (level : Z) (loc obj text : list Z).

(** With the open file of the process, the thread, the time of the writes (one time for all lines of a
    python record: simplified) and the level of the cookie that counts: that of the master cookie
    of the python handler or of the redirection. libulog/ulog_write.c:82-102 and 447-455, ulogpy/ulog.py:311-319. *)
Record fcall := mkF { f_fid : Z; f_task : task; f_sec : Z; f_nsec : Z; f_level : Z; f_front : front }.

(** The lines that pass ulog_log_str, libulog/ulog_write.c:447-455, for the calls of ULogHandler.emit,
    ulogpy/ulog.py:327-330: priority, tag and bytes. *)
Fixpoint log_lines (level : Z) (l : list (Z * list Z * list Z)) : M (list (Z * list Z * list Z)) :=
  match l with
  | [] => Ok []
  | (prio, tag, line) :: l =>
    let* r := Macros.ulog_log_str prio level line in
    let* rest := log_lines level l in
    Ok (match r with Some data => (prio, tag, data) :: rest | None => rest end)
  end.
(** The messages given to the output function: priority, tag and bytes with the NUL.
    ulogpy/ulog.py:307-330 (an exception is raised before anything is logged),
    libulog-redirect/ulog_glib.c:30-68, libulog-redirect/ulog_obus.c:29-33, libulog-redirect/ulog_gst.c:78-153;
    the temporary cookies of GLib and GStreamer have a level that is not negative, and Redirect.v
    applies the test of ulog_log_str. *)
Definition outputs (level : Z) (f : front) : M (list (Z * list Z * list Z)) :=
  let given := map (fun x => match x with Redirect.Log prio tag text => (prio, tag, text ++ [0]) end) in
  match f with
  | Python r => match Py.emit r with inl _ => Ok [] | inr l => log_lines level l end
  | Glib domain flags text => Ok (given (Redirect.glog_func level domain flags text))
  | Obus stack lv text =>
    let prio := u32 (lv - 0 + 2) in
    let* r := Macros.ulog_log stack prio level text in
    Ok (match r with Some data => [(prio, bytes_of_string "obus", data)] | None => [] end)
  | Gst threshold category stack lv loc obj text =>
    let* l := Redirect.gst_log_func level threshold category stack lv loc obj text in Ok (given l)
  end.
(** __writer_kernel for each of them, libulog/ulog_write.c:82-102. *)
Definition fwrites (c : fcall) (l : list (Z * list Z * list Z)) : list op :=
  map (fun x => match x with (prio, tag, data) => OpWrite (f_fid c) (f_task c) (f_sec c) (f_nsec c) (iovec (kernel_iov prio tag data)) end) l.
(** No code: the messages of all programs in the order in which the driver serves them,
    kernel/ulogger-6.x.c:608-678. *)
Fixpoint fperform (l : list fcall) : M (list op) :=
  match l with
  | [] => Ok []
  | c :: l =>
    let* x := outputs (f_level c) (f_front c) in
    let* ops := fperform l in
    Ok (fwrites c x ++ ops)
  end.
