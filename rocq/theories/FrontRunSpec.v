(** What C138 says: which lines the messages of foreign interfaces give. *)
From Coq Require Import ZArith String List Bool.
From Verif Require Import Bytes Ring ParseSpec SaidSpec FrontRun PySpec.
From Verif Require Py.
Import ListNotations.
Open Scope Z_scope.

(** The first bit set from bit 2 on: the severity of the flags of GLib. *)
Definition first_flag (flags i : Z) : Prop := 2 <= i <= 7 /\ Z.testbit flags i = true /\ forall j, 2 <= j < i -> Z.testbit flags j = false.
(** Priorities of ulog: 0 gravest, 2 critical, 3 error, 4 warning, 5 notice, 6 information, 7 debug. *)
Definition glib_prio : list (Z * Z) := [(2, 2); (3, 3); (4, 4); (5, 6); (6, 6); (7, 7)].
Definition python_prio : list (Z * Z) := [(50, 0); (40, 3); (30, 4); (20, 6); (10, 7)].
Definition gst_prio : list (Z * Z) := [(1, 3); (2, 4); (3, 4); (4, 6); (5, 7); (6, 7); (7, 7)].
Definition named (name : option (list Z)) : list Z := match name with Some n => n | None => bytes_of_string "APP" end.

(** [gives f prio tag lines] *)
Inductive gives : front -> Z -> list Z -> list (list Z) -> Prop :=
  | g_event level name text tag message lines rest : encoding name tag -> encoding text message -> lines_of message lines ->
      message = bytes_of_string "EVT:" ++ rest -> gives (Python (Py.mkRec level name text)) 5 tag lines
  | g_python level name text tag message lines prio : encoding name tag -> encoding text message -> lines_of message lines ->
      (forall rest, message <> bytes_of_string "EVT:" ++ rest) -> In (level, prio) python_prio ->
      gives (Python (Py.mkRec level name text)) prio tag lines
  | g_glib domain flags text i prio : first_flag flags i -> In (i, prio) glib_prio -> gives (Glib domain flags text) prio (named domain) [text]
  | g_no_level domain flags text : (forall i, ~ first_flag flags i) -> gives (Glib domain flags text) 0 [] []
  | g_obus stack level text : gives (Obus stack level text) (level + 2) (bytes_of_string "obus") [firstn 255 text]
  | g_gst threshold category stack level loc obj text prio : level <= threshold -> In (level, prio) gst_prio ->
      gives (Gst threshold category stack level loc obj text) prio (named category) [firstn 2047 (loc ++ obj ++ [58] ++ text)]
  | g_gst_below threshold category stack level loc obj text : threshold < level -> gives (Gst threshold category stack level loc obj text) 0 [] [].
(** The messages of a call: those lines, if the level of the cookie lets them pass. *)
Definition says (c : fcall) (l : list (Z * said)) : Prop :=
  exists prio tag lines, gives (f_front c) prio tag lines /\
    l = if prio <=? f_level c then map (fun x => (f_fid c, mkSaid (f_task c) (f_sec c) (f_nsec c) prio tag x)) lines else [].

(** Strings are C strings (text of python: code points that can be encoded, no NUL), the levels are
    those of the libraries, the location of GStreamer fits the buffer (C69). *)
Definition short (tag : list Z) : Prop := ~ In 0 tag /\ zlen tag <= 1000.
Definition fit (f : front) : Prop :=
  match f with
  | Python r => Forall scalar (Py.r_name r) /\ Forall scalar (Py.r_text r) /\ zlen (Py.r_name r) <= 250 /\ (exists p, In (Py.r_level r, p) python_prio)
  | Glib domain _ text => short (named domain) /\ ~ In 0 text
  | Obus stack level text => length stack = 256%nat /\ 0 <= level <= 5 /\ ~ In 0 text /\ zlen text < 2 ^ 31
  | Gst _ category stack level loc obj text => length stack = Z.to_nat 2048 /\ short (named category) /\ 1 <= level <= 7 /\
      zlen loc <= 2048 /\ zlen obj < 2 ^ 31 /\ ~ In 0 loc /\ ~ In 0 obj /\ ~ In 0 text
  end.
Record fproper (procs : list Z) (c : fcall) : Prop := {
  pf_fid : In (f_fid c) procs;
  pf_ids : int32 (t_tgid (f_task c)) /\ int32 (t_pid (f_task c));
  pf_time : 0 <= f_sec c < 2 ^ 31 /\ 0 <= f_nsec c < 2 ^ 31;
  pf_level : 0 <= f_level c;
  pf_fit : fit (f_front c) }.
