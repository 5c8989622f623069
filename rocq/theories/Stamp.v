(** When a message gets its time: ulogger_write_iter, kernel/ulogger-6.x.c:553-683, reads the clock
    (line 577) before it takes the lock of the device (line 608). Threads that log at the same time
    can do so in one order and take the lock in another.

    Simplified: what a call does between these two lines (names, length) depends on nothing that
    changes meanwhile; what it does under the lock is one step (Ring.v). *)
From Coq Require Import ZArith List Bool.
From Verif Require Import Bytes Ring Program.
Import ListNotations.
Open Scope Z_scope.

(** Points of ulogger_write_iter, kernel/ulogger-6.x.c:554-684, and the clock. *)
Inductive event :=
  | Tick (ns : Z)      (** time passes; CLOCK_MONOTONIC does not go back *)
  | Enter (c : call)   (** thread t_pid of the call: ktime_get_ts64, kernel/ulogger-6.x.c:577; the time in [c] is not used *)
  | Lock (th : Z).     (** rt_mutex_lock, kernel/ulogger-6.x.c:608, to rt_mutex_unlock, line 678 *)

(** The header's sec and nsec, kernel/ulogger-6.x.c:594-595. *)
Definition dated (c : call) (ns : Z) : call :=
  mkCall (p_fid c) (p_task c) (ns / 10 ^ 9) (ns mod 10 ^ 9) (p_stack c) (p_tag c) (p_level c) (p_prio c) (p_text c).
(** current->pid, kernel/ulogger-6.x.c:578. *)
Definition thread (c : call) : Z := t_pid (p_task c).

(** The clock in nanoseconds, the call each thread is in, the calls stored so far. kernel/ulogger-6.x.c:554-684. *)
Record race := mkRace { k_now : Z; k_in : Z -> option call; k_log : list call }.
(** Before the first call, kernel/ulogger-6.x.c:554. *)
Definition still : race := mkRace 0 (fun _ => None) [].
(** One event; a thread in a call makes no other (kernel/ulogger-6.x.c:553). *)
Definition happen (s : race) (e : event) : race :=
  match e with
  | Tick n => mkRace (k_now s + Z.max 0 n) (k_in s) (k_log s)
  | Enter c =>
    match k_in s (thread c) with
    | Some _ => s
    | None => mkRace (k_now s) (fun th => if th =? thread c then Some (dated c (k_now s)) else k_in s th) (k_log s)
    end
  | Lock th =>
    match k_in s th with
    | Some c => mkRace (k_now s) (fun t => if t =? th then None else k_in s t) (k_log s ++ [c])
    | None => s
    end
  end.
(** The calls in the order in which the device stores them. kernel/ulogger-6.x.c:600-684. *)
Definition stored (evs : list event) : list call := k_log (fold_left happen evs still).
