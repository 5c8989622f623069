(** Specification for property C150: what it means that calls made by several tasks at the same
    time behave as calls made one at a time. A trace says what happened: a task entered the driver,
    an operation of the device took effect, a task came back with a result. *)
From Coq Require Import ZArith String List Bool Arith.
From Verif Require Import Bytes Ring WaitQ.
Import ListNotations.
Open Scope Z_scope.

(** No code: the trace of an execution. *)
Inductive label := Inv (t : nat) (c : call) | Eff (t : nat) (o : op) (x : out) | Res (t : nat) (x : out).

(** No code: the task of a label. *)
Definition who (l : label) : nat := match l with Inv t _ | Eff t _ _ | Res t _ => t end.
(** No code: labels of one task. *)
Definition of (t : nat) (l : label) : bool := Nat.eqb (who l) t.
(** No code: what user space sees. *)
Definition seen (l : label) : bool := match l with Eff _ _ _ => false | _ => true end.
(** No code: the operations of a trace, with their results, in the order in which they happened. *)
Definition effs (tr : list label) : list (op * out) :=
  flat_map (fun l => match l with Eff _ o x => [(o, x)] | _ => [] end) tr.

(** ** The history of an execution, as user space sees it *)

(** The system calls of kernel/ulogger-6.x.c: read, write, poll, open, release, ioctl. *)
Definition entry_point (c : call) : bool :=
  match c with
  | COther (OpOpen _ _ _ _ _) | COther (OpClose _) | COther (OpIoctl _ _ _) => true
  | COther _ => false
  | _ => true
  end.

(** No code: the call that an event starts and the result that a task has got by it. *)
Definition event (s : state) (e : nat * act) (s' : state) : list label :=
  let (t, a) := e in
  match nth_error (s_ths s) t, nth_error (s_ths s') t with
  | Some th, Some th' =>
    (match a, t_pc th with
     | Call c, Idle => if entry_point c then [Inv t c] else []
     | _, _ => []
     end) ++
    (match t_rets th' with
     | x :: r => if Nat.eqb (length r) (length (t_rets th)) then [Res t x] else []
     | [] => []
     end)
  | _, _ => []
  end.
(** No code: the same for a schedule. *)
Fixpoint history (s : state) (l : list (nat * act)) : list label :=
  match l with
  | [] => []
  | e :: r => match wstep s e with Ok s' => event s e s' ++ history s' r | Bug _ => [] end
  end.

(** ** What the operations of a call may be *)

(** The sections of ulogger_read, kernel/ulogger-6.x.c:356-375 and 382-412, and the operations of
    the others, 553-684 and 760-784. *)
Definition check (c : rargs) : op := OpReadCheck (ra_fid c) (ra_nb c) false.
Definition body (c : rargs) : op := OpReadBody (ra_fid c) (ra_euid c) (ra_count c) (ra_valid c).
Definition wop (w : wargs) : op := OpWrite (wa_fid w) (wa_task w) (wa_sec w) (wa_nsec w) (wa_it w).

(** A read that has nothing yet: it found the log empty and slept, or found only entries that it
    may not see. kernel/ulogger-6.x.c:346-417. *)
Inductive waiting (c : rargs) : list (op * out) -> Prop :=
  | wait_new : waiting c []
  | wait_sleep : forall l, waiting c l -> ra_nb c = false -> waiting c (l ++ [(check c, OutSleep)])
  | wait_retry : forall l, waiting c l -> waiting c (l ++ [(check c, OutCont); (body c, OutRetry)]).
(** A poll that has nothing yet, kernel/ulogger-6.x.c:760-784. *)
Inductive polling (f u : Z) : list (op * out) -> Prop :=
  | poll_new : polling f u []
  | poll_sleep : forall l, polling f u l -> polling f u (l ++ [(OpPoll f u, OutPoll false)]).

(** The change of the raw mode of a file by its ioctl, kernel/ulogger-6.x.c:799-810. *)
Definition mode_op (f : Z) (m : bool) : op := OpIoctl f (SetRawMode (Some (if m then 1 else 0)) false false) 0.

(** No code: [loose] allows a write to be made in a mode that is not the mode of the file at the
    moment of its operation, by a change of the mode before it and another one after it. *)
Section Loose.
Variable loose : bool.

(** The operations of a call that has returned, and its result. *)
Inductive done : call -> list (op * out) -> out -> Prop :=
  | done_refused : forall c, done c [] OutNoFile
  | done_write : forall w x, done (CWrite w) [(wop w, x)] x
  | done_write_mode : forall w m m' x, loose = true ->
      done (CWrite w) [(mode_op (wa_fid w) m, OutVal 0); (wop w, x); (mode_op (wa_fid w) m', OutVal 0)] x
  | done_read : forall c l x, waiting c l -> x <> OutRetry ->
      done (CRead c) (l ++ [(check c, OutCont); (body c, x)]) x
  | done_again : forall c l, waiting c l -> ra_nb c = true ->
      done (CRead c) (l ++ [(check c, OutErr EAGAIN)]) (OutErr EAGAIN)
  | done_intr : forall c l, waiting c l -> ra_nb c = false ->
      done (CRead c) (l ++ [(check c, OutSleep)]) (OutErr EINTR)
  | done_poll : forall f u l, polling f u l ->
      done (CPoll f u) (l ++ [(OpPoll f u, OutPoll true)]) (OutPoll true)
  | done_poll_intr : forall f u l, polling f u l ->
      done (CPoll f u) (l ++ [(OpPoll f u, OutPoll false)]) (OutErr EINTR)
  | done_other : forall o x, done (COther o) [(o, x)] x.

(** No code: operations of one task. *)
Definition eff (t : nat) (p : op * out) : label := Eff t (fst p) (snd p).

(** No code: the labels of one task, all its calls having returned. *)
Inductive calls (t : nat) : list label -> Prop :=
  | calls_none : calls t []
  | calls_next : forall tr c l x, calls t tr -> done c l x ->
      calls t (tr ++ Inv t c :: map (eff t) l ++ [Res t x]).
(** No code: the labels of one task, the last call perhaps still under way. *)
Definition explained (t : nat) (tr : list label) : Prop :=
  calls t tr \/
  exists tr0 c l l' x, tr = tr0 ++ Inv t c :: map (eff t) l /\ calls t tr0 /\ done c (l ++ l') x.

(** No code: the execution from [s] by [l] to [s'] is one of calls made one at a time: there is a
    trace with the same calls and results, in the same order, in which each task has done what its
    calls say, each operation between the start and the end of its call, and all the operations,
    in the order of the trace, are a run of the device with these results and with the same device
    at the end. *)
Definition serial (s : state) (l : list (nat * act)) (s' : state) : Prop :=
  exists tr, filter seen tr = history s l /\
    (forall t, explained t (filter (of t) tr)) /\
    run (s_dev s) (map fst (effs tr)) = Ok (s_dev s', map snd (effs tr)).

End Loose.

(** ** Raw mode *)

(** The task has read the mode of the file and not yet written, kernel/ulogger-6.x.c:565-676. *)
Definition mid_write (p : pc) (f : Z) : Prop :=
  match p with WLock w _ | WBody w _ => wa_fid w = f | _ => False end.
(** The task is in the ioctl that changes the mode, kernel/ulogger-6.x.c:799-810. *)
Definition sets_raw (p : pc) (f : Z) : Prop :=
  match p with OBody (OpIoctl g (SetRawMode _ _ _) _) => g = f | _ => False end.
(** Nobody changes the mode of a file in the middle of a write to it, kernel/ulogger-6.x.c:565-810. *)
Definition calm_state (s : state) : Prop :=
  forall t u th thu f, nth_error (s_ths s) t = Some th -> nth_error (s_ths s) u = Some thu ->
  sets_raw (t_pc th) f -> ~ mid_write (t_pc thu) f.
(** No code: the same all along a schedule. *)
Definition calm (s : state) (l : list (nat * act)) : Prop :=
  forall l1 l2 s1, l = l1 ++ l2 -> wrun s l1 = Ok s1 -> calm_state s1.
