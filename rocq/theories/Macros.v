(** Model of the throttled and change-filtered logging macros, libulog/include/ulog.h.

    The variables of a call site are static and per thread (ULOG_THREAD), so one thread is
    enough.  The tag of the call site is initialised; its level at the time of each call is an
    input. *)
From Coq Require Import ZArith String List Bool.
From Verif Require Import Bytes Writer.
Import ListNotations.
Open Scope Z_scope.

(** Arithmetic on unsigned long long, libulog/include/ulog.h:514-538. *)
Definition u64 (x : Z) : Z := x mod 2 ^ 64.

(** The level test of ulog_log, ulog_log_str, libulog/include/ulog.h:505-506 and
    libulog/ulog_write.c:453. *)
Definition enabled (prio level : Z) : bool := Z.land prio 7 <=? level.

(** ulog_log, libulog/include/ulog.h:500-508, with the formatted text as an argument; [stack]: the
    content of buf in ulog_vlog_write.  The bytes given to the output function. *)
Definition ulog_log (stack : list Z) (prio level : Z) (text : list Z) : M (option (list Z)) :=
  if enabled prio level then ulog_vlog_write stack (Some text) else Ok None.

(** ulog_log_str, libulog/ulog_write.c:447-455: the string read from [buf] up to its NUL. *)
Definition ulog_log_str (prio level : Z) (buf : list Z) : M (option (list Z)) :=
  if has_nul buf then Ok (if enabled prio level then Some (cstr buf ++ [0]) else None) else Bug Oob.

(** Static variables of a throttled call site, libulog/include/ulog.h:516-517. *)
Record tst := mkT { t_masked : Z; t_last : Z }.
(** Static variables are zero at first, libulog/include/ulog.h:516-517. *)
Definition t_init : tst := mkT 0 0.

(** One execution of a throttled call: delay, priority, level of the tag, time in milliseconds
    (ulog_get_time_monotonic), formatted text.
    libulog/include/ulog.h:514-538; the time: libulog/ulog_write.c:532-543. *)
Record tcall := mkTC { c_ms : Z; c_prio : Z; c_level : Z; c_now : Z; c_text : list Z }.

(** The text of "[%u] " followed by the format. libulog/include/ulog.h:514-538. *)
Definition masked_text (n : Z) (text : list Z) : list Z := [91] ++ dec_u n ++ [93; 32] ++ text.

(** ulog_log_throttle, libulog/include/ulog.h:514-538; [stack]: content of buf and _buf, which
    have the same size. *)
Definition throttle (stack : list Z) (s : tst) (c : tcall) : M (tst * option (list Z)) :=
  if c_now c >=? u64 (t_last s + c_ms c) then
    if negb (t_masked s =? 0) then
      let* r := vsnprintf stack (Some (masked_text (t_masked s) (c_text c))) in
      let* out := ulog_log_str (c_prio c) (c_level c) (snd r) in
      Ok (mkT 0 (c_now c), out)
    else
      let* out := ulog_log stack (c_prio c) (c_level c) (c_text c) in
      Ok (mkT (t_masked s) (c_now c), out)
  else Ok (mkT (u32 (t_masked s + 1)) (t_last s), None).

(** No code: successive executions of one call site, libulog/include/ulog.h:514-538. *)
Fixpoint throttle_run (stack : list Z) (s : tst) (l : list tcall) : M (tst * list (option (list Z))) :=
  match l with
  | [] => Ok (s, [])
  | c :: l => let* r := throttle stack s c in
              let* r2 := throttle_run stack (fst r) l in
              Ok (fst r2, snd r :: snd r2)
  end.

(** Variables of a change-filtered call site, libulog/include/ulog.h:554-555 (with thread local
    storage: zero at first) and 565-574 (without: as ULOG_INIT_CHANGE_STATE_INT leaves them). *)
Record cst := mkC { c_init : bool; c_last : Z }.
(** libulog/include/ulog.h:554-555. *)
Definition c_tls : cst := mkC false 0.
(** libulog/include/ulog.h:565-574. *)
Definition c_notls (w : Z) (v : Z) : cst := mkC false (v mod 2 ^ w).

(** ulog_log_change, libulog/include/ulog.h:552-562 and 576-584, uintptr_t of [w] bits; whether
    ulog_log is executed. *)
Definition change (w : Z) (s : cst) (v : Z) : cst * bool :=
  let value := v mod 2 ^ w in
  if negb (value =? c_last s) || negb (c_init s) then (mkC true value, true) else (s, false).

(** No code: successive executions of one call site, libulog/include/ulog.h:552-584. *)
Fixpoint change_run (w : Z) (s : cst) (l : list Z) : cst * list bool :=
  match l with
  | [] => (s, [])
  | v :: l => let '(s1, b) := change w s v in let '(s2, bs) := change_run w s1 l in (s2, b :: bs)
  end.
