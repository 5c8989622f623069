(** Model of the rest of the ThreadX port: the list of the tags, the letters of the levels, the throttled
    messages and the start of the sharing. *)
From Coq Require Import ZArith String List Bool.
From Verif Require Import Bytes Writer Macros Parse Threadx.
Import ListNotations.
Open Scope Z_scope.

(** The loop of ulog_get_tag_names, threadx/src/ulog.c:313-314: nametab has [room] entries; the names stored, in order. *)
Fixpoint names_loop (fuel : nat) (m : nat -> cookie) (p : option nat) (idx maxlen room : Z) : M (list (list Z)) :=
  match p with
  | None => Ok []
  | Some c =>
    if idx <? maxlen then
      match fuel with
      | O => Bug Hang
      | S fuel => if idx <? room then let* l := names_loop fuel m (c_next (m c)) (idx + 1) maxlen room in Ok (c_name (m c) :: l) else Bug Oob
      end
    else Ok []
  end.
(** ulog_get_tag_names, threadx/src/ulog.c:302-319; [lock]: the mutex could be taken. The value returned and the names. *)
Definition get_tag_names (fuel : nat) (s : st) (lock : bool) (maxlen room : Z) : M (Z * list (list Z)) :=
  if negb (s_ready s) then Ok (0, [])
  else if negb lock then Ok (0, [])
  else let* l := names_loop fuel (s_mem s) (s_list s) 0 maxlen room in Ok (zlen l, l).

(** parse_level, threadx/src/ulog.c:88-109. *)
Definition tab : list Z := [0; 0; 2; 7; 3; 0; 0; 0; 6; 0; 0; 0; 0; 5; 0; 0; 0; 0; 0; 0; 0; 0; 4; 0; 0; 0].
(** threadx/src/ulog.c:88-109. *)
Definition parse_level (c : Z) : Z :=
  let level := if (48 <=? c) && (c <=? 57) then c - 48 else if (65 <=? c) && (c <=? 90) then znth (c - 65) tab else 0 in
  if level >? 7 then 7 else level.
(** ulog_prio2char, threadx/src/ulog.c:345-362. *)
Definition prio2char (prio : Z) : Z :=
  if (prio <? 0) || (prio >? 7) then 32 else znth prio [32; 32; 67; 69; 87; 78; 73; 68].

(** ulog_log_throttle, libulog/include/ulog.h:514-538, in the ThreadX port, where ulog_log_str does nothing
    (threadx/src/ulog.c:204-207); [c_now]: what ulog_get_time_monotonic stores, threadx/src/ulog.c:321-330: the
    value of AmbaUtility_GetHighResolutionTimeStamp as it is. The text printed, if any; ulog_log is that of Threadx.v,
    ready and with a registered tag. *)
Definition tx_throttle (s : tst) (c : tcall) : tst * option (list Z) :=
  if c_now c >=? u64 (t_last s + c_ms c) then
    if negb (t_masked s =? 0) then (mkT 0 (c_now c), None)
    else (mkT (t_masked s) (c_now c), if enabled (c_prio c) (Macros.c_level c) then Some (c_text c) else None)
  else (mkT (u32 (t_masked s + 1)) (t_last s), None).
(** No code: successive executions of a call site, libulog/include/ulog.h:514-538. *)
Fixpoint tx_run (s : tst) (l : list tcall) : tst * list (option (list Z)) :=
  match l with
  | [] => (s, [])
  | c :: l => let '(s1, o) := tx_throttle s c in let '(s2, os) := tx_run s1 l in (s2, o :: os)
  end.

(** ulog_amba_shd_init, threadx/src/ulog_ctrl.c:120-145: the order of its effects; [created]: shd_create succeeds. *)
Inductive act := SetOutput | EnableShd | ConsoleOff.
(** ulog_amba_shd_init, threadx/src/ulog_ctrl.c:120-144. *)
Definition shd_init (created : bool) : list act := if created then [SetOutput; EnableShd; ConsoleOff] else [].
(** Where AmbaPrint sends a message (AmbaPrint is not in the repository: on the console unless it is off, and to the
    alternate output function if there is one); ulog_shd_put does nothing when sharing is off, threadx/src/ulog_ctrl.c:52-53. *)
Record route := mkR { r_output : bool; r_shd : bool; r_console : bool }.
(** Before any call, threadx/src/ulog.c:45-49 and threadx/src/ulog_ctrl.c:33-36. *)
Definition r_start : route := mkR false false true.
(** What these calls change, threadx/src/ulog.c:54-62, 332-342 and threadx/src/ulog_ctrl.c:120-144. *)
Definition apply (r : route) (a : act) : route :=
  match a with
  | SetOutput => mkR true (r_shd r) (r_console r)
  | EnableShd => mkR (r_output r) true (r_console r)
  | ConsoleOff => mkR (r_output r) (r_shd r) false
  end.
