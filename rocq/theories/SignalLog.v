(** Logging from a signal handler, as sig_handler of libulogctl/tool/ulogctl.c:231-237 and of
    libulogctl/examples/ulogctl-srv.c:96-102 and on_signal of shdlogd/src/shdlogd.c:206-210 do:
    the registry (Cookies.v) and the output functions (Writer.v) put together, since both use the
    mutex ctrl.lock, libulog/ulog_write.c:50-70.

    A handler running on thread [t] is a thread of its own during which [t] does not move.
    ctrl.lock is of the default kind (PTHREAD_MUTEX_INITIALIZER, libulog/ulog_write.c:62): taking
    it again from the thread that holds it blocks.  Left out: the locks inside the C library
    (getenv, snprintf, fprintf, strsignal); pomp_loop_wakeup after the message. *)
From Coq Require Import ZArith String List Bool Arith.
From Verif Require Import Bytes Parse.
From Verif Require Cookies Writer.
Import ListNotations.
Open Scope Z_scope.

(** Calls: of the registry alone (Cookies.v), of the output side alone (Writer.v), or a message:
    ulog_log, libulog/include/ulog.h:498-508, or ulog_log_str, ulog_log_buf,
    libulog/ulog_write.c:447-465. *)
Inductive call :=
  | Reg (o : Cookies.call)
  | Wri (o : Writer.call)
  | Log (c : nat) (prio : Z) (m : Writer.msg).

(** Events of both parts of libulog/ulog_write.c:39-530. *)
Definition event : Type := (Cookies.event + Writer.event)%type.

(** [pend t]: the message thread [t] writes if its level allows it. libulog/ulog_write.c:39-70 and 447-465. *)
Record state := mkState { reg : Cookies.state; wri : Writer.state; pend : nat -> option Writer.msg }.

(** Static initialisers, libulog/ulog_write.c:39-70. *)
Definition init : state := mkState Cookies.init Writer.init (fun _ => None).

(** ctrl.lock seen from the two sides, libulog/ulog_write.c:51. *)
Definition share_r (w : Writer.state) (r : Cookies.state) : Writer.state := Writer.set_lock w (Cookies.s_lock r).
(** Both parts use one ctrl.lock, libulog/ulog_write.c:50-61. *)
Definition share_w (r : Cookies.state) (w : Writer.state) : Cookies.state :=
  Cookies.mkState (Writer.s_lock w) (Cookies.s_head r) (Cookies.s_hook r) (Cookies.s_next r) (Cookies.s_level r) (Cookies.s_th r).

(** A transition of the output side, libulog/ulog_write.c:73-270, 309-339. *)
Definition step_w (e : Writer.env) (s : state) (t : nat) (o : Writer.call) (a : Writer.answer) : state * list event :=
  let '(w, ev) := Writer.step e (wri s) t o a in (mkState (share_w (reg s) w) w (pend s), map inr ev).

(** A transition of the registry, libulog/ulog_write.c:272-307, 365-420, 467-530. *)
Definition step_r (cf : Cookies.cfg) (s : state) (t : nat) (o : Cookies.call) : state * list event :=
  let '(r, ev) := Cookies.step cf (reg s) t o in (mkState r (share_r (wri s) r) (pend s), map inl ev).

(** Whether the transition found the level of the message enabled, libulog/include/ulog.h:504,
    libulog/ulog_write.c:453, 463. *)
Definition decided (l : list event) : bool :=
  existsb (fun x => match x with inl (Cookies.EvLog _ _ _ b) => b | _ => false end) l.

(** One transition of thread [t]; an idle thread starts call [o].  Once the message is found
    enabled it is given to ctrl.writer, libulog/ulog_write.c:434, 454, 464; the formatting of
    ulog_vlog_write, 422-433, touches nothing shared. *)
Definition step (cf : Cookies.cfg) (e : Writer.env) (s : state) (t : nat) (o : call) (a : Writer.answer) : state * list event :=
  match Writer.s_th (wri s) t, Cookies.s_th (reg s) t with
  | Writer.Idle, Cookies.Idle =>
      match o with
      | Reg ro => step_r cf (mkState (reg s) (wri s) (Cookies.upd (pend s) t None)) t ro
      | Log c prio m => step_r cf (mkState (reg s) (wri s) (Cookies.upd (pend s) t (Some m))) t (Cookies.CLog c prio)
      | Wri wo => step_w e s t wo a
      end
  | Writer.Idle, _ =>
      let '(s1, e1) := step_r cf s t Cookies.CForeach in
      if decided e1 then
        match pend s t with
        | Some m => let '(s2, e2) := step_w e s1 t (Writer.WLog m) a in (s2, e1 ++ e2)
        | None => (s1, e1)
        end
      else (s1, e1)
  | _, _ => step_w e s t (Writer.WReplay 0 0) a
  end.

(** No code: interleaving of threads and handlers, libulog/ulog_write.c. *)
Fixpoint run (cf : Cookies.cfg) (e : Writer.env) (s : state) (sched : list (nat * call * Writer.answer)) : state * list event :=
  match sched with
  | [] => (s, [])
  | (t, o, a) :: rest =>
      let '(s1, e1) := step cf e s t o a in let '(s2, e2) := run cf e s1 rest in (s2, e1 ++ e2)
  end.
