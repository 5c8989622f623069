(** The bridge and the handler of the python binding in one program: what a message written by C code leads to when the
    loggers given to enable_bridge have handlers, among them ULogHandler, which write to the C library again.
    ulogpy/ulog.py:37-88 and 292-330, libulog/ulog_write.c:447-455.

    The rules of the module logging (isEnabledFor, handle, callHandlers) are those of its documentation. Simplified: no
    filters, the handlers have the formatter that gives the message itself, text is kept as its UTF-8 bytes. *)
From Coq Require Import ZArith String List Bool.
From Verif Require Import Bytes Parse Iov Py.
Import ListNotations.
Open Scope Z_scope.

(** A handler with its level: a ULogHandler (ulogpy/ulog.py:292-330) or another one, which does not write to ulog and does
    not raise. *)
Inductive hdl := ULogH (level : Z) | OtherH (id : nat) (level : Z).
(** The level of a handler, ulogpy/ulog.py:294-295. *)
Definition hlevel (h : hdl) : Z := match h with ULogH l | OtherH _ l => l end.
(** A logger of the module logging, without its parents. Used at ulogpy/ulog.py:53-60 and 343. *)
Record lgr := mkLgr { g_level : Z; g_disabled : bool; g_propagate : bool; g_handlers : list hdl }.
(** The loggers of a program: each with its parents up to the root; what logging.disable was given; the level of the
    cookie of the handlers (ulogpy/ulog.py:297-305); which texts are UTF-8. *)
Record ctx := mkCtx { c_path : nat -> list lgr; c_off : Z; c_master : Z; c_utf8 : list Z -> bool }.

(** Logger.getEffectiveLevel. Used at ulogpy/ulog.py:54. *)
Fixpoint effective (p : list lgr) : Z :=
  match p with [] => 0 | g :: p => if g_level g =? 0 then effective p else g_level g end.
(** Logger.isEnabledFor. Used at ulogpy/ulog.py:54. *)
Definition enabled_for (c : ctx) (l : nat) (level : Z) : bool :=
  match c_path c l with
  | [] => false
  | g :: _ => negb (g_disabled g) && negb (level <=? c_off c) && (effective (c_path c l) <=? level)
  end.

(** What happens: a message reaches the native output, or a handler other than ULogHandler gets a record, or the handler
    of last resort does. At ulogpy/ulog.py:37-60. *)
Inductive ev := Native_out (prio : Z) (tag buf : list Z) | Given (id : nat) (level : Z) (text : list Z) | Last_resort (text : list Z).

(** One after the other until an exception; the boolean tells that none came. At ulogpy/ulog.py:53-60 and 328-330. *)
Fixpoint seq {A} (f : A -> list ev * bool) (l : list A) : list ev * bool :=
  match l with
  | [] => ([], true)
  | x :: l => let '(a, ok) := f x in if ok then let '(b, ok) := seq f l in (a ++ b, ok) else (a, false)
  end.

(** ULogHandler.emit, ulogpy/ulog.py:307-330, with ulog_log_str, libulog/ulog_write.c:447-455; [again] is the write
    function of the library. The name of the record is "ulog", line 47; its level is one of the table. *)
Definition emit_again (c : ctx) (again : Z -> list Z -> list Z -> list ev) (level : Z) (text : list Z) : list ev * bool :=
  match logging_prio level with
  | None => ([], false)
  | Some prio =>
    if c_utf8 c text then
      let prio := if startswith (bytes_of_string "EVT:") text then 5 else prio in
      (concat (map (fun line => if Z.land prio 7 <=? c_master c then again prio (bytes_of_string "ulog") (cstr line ++ [0]) else []) (splitlines text)), true)
    else ([], false)
  end.
(** Handler.handle, below the level of the handler nothing. Called by ulogpy/ulog.py:60. *)
Definition give (c : ctx) (again : Z -> list Z -> list Z -> list ev) (level : Z) (text : list Z) (h : hdl) : list ev * bool :=
  if level <? hlevel h then ([], true)
  else match h with
       | ULogH _ => emit_again c again level text
       | OtherH id _ => ([Given id level text], true)
       end.
(** Logger.callHandlers: the handlers of the logger and of its parents, up to one that does not propagate.
    Called by ulogpy/ulog.py:60. *)
Fixpoint targets (p : list lgr) : list hdl :=
  match p with [] => [] | g :: p => g_handlers g ++ (if g_propagate g then targets p else []) end.
(** The same with the handler of last resort, of level WARNING. Called by ulogpy/ulog.py:60. *)
Definition handle_record (c : ctx) (again : Z -> list Z -> list Z -> list ev) (level : Z) (text : list Z) (l : nat) : list ev * bool :=
  match targets (c_path c l) with
  | [] => (if WARNING <=? level then [Last_resort text] else [], true)
  | hs => seq (give c again level text) hs
  end.

(** The write function of the library called: the native one, or _ulog_bridge, ulogpy/ulog.py:37-60, [depth] calls being
    possible one inside the other. What python does about the exceptions that end a call of the bridge (ctypes gives
    them to sys.unraisablehook) is left out. *)
Fixpoint write (c : ctx) (s : bridge) (depth : nat) (f : wf) (prio : Z) (tag buf : list Z) : list ev :=
  match depth with
  | O => []
  | S depth =>
    match f with
    | Native => [Native_out prio tag buf]
    | Bridge =>
      match b_kernel s with None => [] | Some g => write c s depth g prio tag buf end ++
      match prio_logging prio with
      | None => []
      | Some level =>
        fst (seq (fun l => if enabled_for c l level then handle_record c (write c s depth (b_current s)) level (strip (cstr buf)) l else ([], true)) (b_loggers s))
      end
    end
  end.
