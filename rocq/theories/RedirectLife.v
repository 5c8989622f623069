(** Model of the installation of the redirections (libulog-redirect/) and of the setting of their
    levels, by one thread, with what the foreign libraries do with the functions installed. The
    handling of one message is in Redirect.v. *)
From Coq Require Import ZArith String List Bool.
From Verif Require Import Bytes Parse Redirect.
From Verif Require Cookies.
Import ListNotations.
Open Scope Z_scope.

(** The cookies: 0 is __ulog_default_cookie, 1, 2 and 3 those declared at
    libulog-redirect/ulog_glib.c:26, libulog-redirect/ulog_gst.c:31 and libulog-redirect/ulog_obus.c:27;
    the others belong to the application, [app] giving their names. *)
Definition name_of (app : nat -> list Z) (c : nat) : list Z :=
  match c with
  | 0%nat => []
  | 1%nat => bytes_of_string "ulog_glib"
  | 2%nat => bytes_of_string "ulog_gst"
  | 3%nat => bytes_of_string "obus"
  | _ => app c
  end.

(** What does not change: names, environment, what is in the stack where gst_log_func has its buffer,
    and the thresholds given by name to categories of GStreamer ([None]: the default threshold).
    Simplified: gst_debug_set_threshold_for_name is used before anything else, if at all.
    For libulog-redirect/ulog_glib.c:26-83, ulog_gst.c:28-167 and ulog_obus.c:27-44. *)
Record cfg := mkCfg { c_app : nat -> list Z; c_env : list Z -> option (list Z); c_stack : list Z;
                      c_threshold : option (list Z) -> option Z }.
(** The same as Cookies.v takes it, libulog/ulog_write.c:365-420. *)
Definition ccfg (cf : cfg) : Cookies.cfg := Cookies.mkCfg (name_of (c_app cf)) (c_env cf).

(** - [s_level], [s_list]: the levels of the cookies, -1 when not registered, and ctrl.cookie_list;
    - [s_glib]: glog_func is the default handler of GLib;
    - [s_gst]: how often gst_log_func is in the list of log functions of GStreamer, [s_gstdef]: whether
      gst_debug_log_default is; [s_thr]: the default threshold;
    - [s_obus]: obus_func is the callback of libobus.
    libulog/ulog_write.c:39-70; set at libulog-redirect/ulog_glib.c:72-83, ulog_gst.c:154-167, ulog_obus.c:35-44. *)
Record state := mkS { s_level : nat -> Z; s_list : list nat; s_glib : bool; s_gst : nat; s_gstdef : bool; s_thr : Z; s_obus : bool }.

(** The start of a program; [thr]: the threshold found in the environment by GStreamer.
    Before any call, libulog-redirect/ulog_gst.c:154-162. *)
Definition init (thr : Z) : state := mkS (fun _ => -1) [] false 0 true thr false.

(** An assignment to cookie->level, libulog/ulog_write.c:365-420. *)
Definition upd (f : nat -> Z) (c : nat) (v : Z) : nat -> Z := fun i => if Nat.eqb i c then v else f i.
(** A change of levels and list, libulog/ulog_write.c:365-420. *)
Definition with_levels (s : state) (f : nat -> Z) (l : list nat) : state :=
  mkS f l (s_glib s) (s_gst s) (s_gstdef s) (s_thr s) (s_obus s).

(** ulog_init and ulog_init_cookie, libulog/ulog_write.c:365-420, 467-472 (steps in Cookies.v). *)
Definition ulog_init (cf : cfg) (s : state) (c : nat) : state :=
  if s_level s c <? 0 then
    let level := Cookies.env_level (ccfg cf) c in
    let level := if (level <? 0) && (s_level s 0%nat >=? 0) then s_level s 0%nat else level in
    let level := if level <? 0 then ULOG_INFO else level in
    with_levels s (upd (s_level s) c level) (c :: s_list s)
  else s.

(** ulog_set_level, libulog/ulog_write.c:474-486; ulog_glib_set_level, libulog-redirect/ulog_glib.c:80-83,
    ulog_gst_set_level, libulog-redirect/ulog_gst.c:164-167, and ulog_obus_set_level,
    libulog-redirect/ulog_obus.c:41-44, call it for the cookies 1, 2 and 3. *)
Definition set_level (cf : cfg) (s : state) (c : nat) (level : Z) : state :=
  let level := Cookies.clamp level in
  let s := ulog_init cf s c in with_levels s (upd (s_level s) c level) (s_list s).

(** ulog_set_tag_level, libulog/ulog_write.c:494-515, with the returned value. *)
Definition set_tag_level (cf : cfg) (s : state) (name : list Z) (level : Z) : state * Z :=
  match find (fun c => bytes_eqb (name_of (c_app cf) c) name) (s_list s) with
  | Some c => (set_level cf s c level, 0)
  | None => (s, -1)
  end.

(** What a program does.
    Functions of libulog-redirect/ulog_glib.c:30-83, ulog_gst.c:78-167, ulog_obus.c:29-44 and libulog/ulog_write.c:467-515. *)
Inductive op :=
  | GlibRedirect | GstRedirect | ObusRedirect
  | Init (c : nat)                                   (* ULOG_INIT, or the first message of an application tag *)
  | Set_ (c : nat) (level : Z)                       (* ulog_glib_set_level for 1, ulog_gst_set_level for 2, … *)
  | SetTag (name : list Z) (level : Z)               (* ulog_set_tag_level *)
  | GlibMsg (domain : option (list Z)) (level : Z) (text : list Z)
  | GstMsg (category : option (list Z)) (level : Z) (loc obj text : list Z)
  | ObusMsg (level : Z) (text : list Z).

(** What is seen: a record written by ulog, a message handled by the library itself (libobus without
    callback and the others without redirection), a value returned by ulog_set_tag_level.
    At libulog-redirect/ulog_glib.c:30-68, ulog_gst.c:78-150, ulog_obus.c:29-33. *)
Inductive event := Rec (c : call) | Native | Ret (v : Z).

(** A call of every log function of GStreamer, for those that are gst_log_func.
    libulog-redirect/ulog_gst.c:78-150. *)
Fixpoint gst_calls (n : nat) (r : list call) : list event := match n with O => [] | S n => map Rec r ++ gst_calls n r end.

(** The operations:
    - ulog_glib_redirect, libulog-redirect/ulog_glib.c:72-78: g_log_set_default_handler replaces the handler;
    - ulog_gst_redirect, libulog-redirect/ulog_gst.c:155-163: gst_debug_remove_log_function removes the
      function, gst_debug_add_log_function adds one more entry to the list of log functions;
    - ulog_obus_redirect, libulog-redirect/ulog_obus.c:35-39;
    - a message of GLib goes to the default handler; one of GStreamer to every log function, the threshold
      of its category being the one given by name or the default one; one of libobus to the callback, where
      ulog_vlog registers the tag obus if needed (libulog/include/ulog.h:484-493). *)
Definition step (cf : cfg) (s : state) (o : op) : M (state * list event) :=
  match o with
  | GlibRedirect => let s := ulog_init cf s 1 in Ok (mkS (s_level s) (s_list s) true (s_gst s) (s_gstdef s) (s_thr s) (s_obus s), [])
  | GstRedirect => let s := ulog_init cf s 2 in Ok (mkS (s_level s) (s_list s) (s_glib s) (S (s_gst s)) false 3 (s_obus s), [])
  | ObusRedirect => Ok (mkS (s_level s) (s_list s) (s_glib s) (s_gst s) (s_gstdef s) (s_thr s) true, [])
  | Init c => Ok (ulog_init cf s c, [])
  | Set_ c level => Ok (set_level cf s c level, [])
  | SetTag name level => let '(s, r) := set_tag_level cf s name level in Ok (s, [Ret r])
  | GlibMsg domain level text =>
      Ok (s, if s_glib s then map Rec (glog_func (s_level s 1%nat) domain level text) else [Native])
  | GstMsg category level loc obj text =>
      let thr := match c_threshold cf category with Some t => t | None => s_thr s end in
      let nat_ := if s_gstdef s then [Native] else [] in
      match s_gst s with
      | O => Ok (s, nat_)
      | _ => let* r := gst_log_func (s_level s 2%nat) thr category (c_stack cf) level loc obj text in
             Ok (s, nat_ ++ gst_calls (s_gst s) r)
      end
  | ObusMsg level text =>
      if s_obus s then let s := ulog_init cf s 3 in Ok (s, map Rec (obus_func (s_level s 3%nat) level text))
      else Ok (s, [Native])
  end.

(** No code: a sequence of operations, libulog-redirect/ulog_glib.c, ulog_gst.c, ulog_obus.c. *)
Fixpoint run (cf : cfg) (s : state) (l : list op) : M (state * list event) :=
  match l with
  | [] => Ok (s, [])
  | o :: l => let* (s, e1) := step cf s o in let* (s, e2) := run cf s l in Ok (s, e1 ++ e2)
  end.
