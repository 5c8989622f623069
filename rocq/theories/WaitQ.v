(** Sleeping and waking in the driver: kernel/ulogger-6.x.c, ulogger_read (346-417),
    ulogger_write_iter (553-684), ulogger_poll (760-784) and the other entry points, executed by
    any number of tasks. A step is one statement at the granularity of lock operations, wait-queue
    operations and the body of a critical section; the bodies are those of Ring.v.

    Kernel primitives modelled: rt_mutex_lock/unlock as a lock with an owner; prepare_to_wait,
    finish_wait and wake_up_interruptible as atomic operations (they hold the lock of the wait
    queue); the state of a task as runnable or not (TASK_RUNNING / TASK_INTERRUPTIBLE); schedule()
    as a statement that cannot be passed while the task is not runnable; poll(2) as the loop of
    do_poll with its per-call [triggered] flag, one descriptor and no timeout. Not modelled:
    priorities, preemption inside a statement, memory ordering weaker than sequential. *)
From Coq Require Import ZArith String List Bool.
From Verif Require Import Bytes Ring.
Import ListNotations.
Open Scope Z_scope.

(** Arguments of read(2): file, O_NONBLOCK, caller, byte count, accessible bytes of the buffer.
    kernel/ulogger-6.x.c:346-417. *)
Record rargs := mkR { ra_fid : Z; ra_nb : bool; ra_euid : Z; ra_count : Z; ra_valid : Z }.
(** Arguments of a write: file, task, time read from the clock, data. kernel/ulogger-6.x.c:553-684. *)
Record wargs := mkW { wa_fid : Z; wa_task : task; wa_sec : Z; wa_nsec : Z; wa_it : iter }.

(** Where a task is in the functions of kernel/ulogger-6.x.c:346-417, 553-684 and 760-784. *)
Inductive pc :=
  | Idle
  (** ulogger_read, kernel/ulogger-6.x.c:346-417 *)
  | RLock (c : rargs)               (** 356: rt_mutex_lock *)
  | RPrep (c : rargs)               (** 358: prepare_to_wait *)
  | RTest (c : rargs)               (** 360: compare the offsets *)
  | RUnlock (c : rargs) (e : bool)  (** 361: rt_mutex_unlock *)
  | RDecide (c : rargs) (e : bool)  (** 362-373 *)
  | RSched (c : rargs)              (** 375: schedule *)
  | RFinish (c : rargs) (ret : Z)   (** 378-380: finish_wait and return unless 0 *)
  | RLock2 (c : rargs)              (** 382 *)
  | RBody (c : rargs)               (** 384-412 *)
  | RUnlock2 (c : rargs) (x : out)  (** 390 and goto start, or 415 *)
  (** ulogger_write_iter, kernel/ulogger-6.x.c:553-684 *)
  | WStart (w : wargs)              (** 565-603: header, null writes *)
  | WLock (w : wargs) (raw : bool)  (** 608 *)
  | WBody (w : wargs) (raw : bool)  (** 610-676 *)
  | WUnlock (v : Z)                 (** 654, 673 or 678 *)
  | WWake (v : Z)                   (** 681: wake_up_interruptible *)
  (** poll(2) calling ulogger_poll, kernel/ulogger-6.x.c:760-784 *)
  | PReg (fid euid : Z)             (** 772: poll_wait *)
  | PLock (fid euid : Z)            (** 774 *)
  | PBody (fid euid : Z)            (** 775-780 *)
  | PUnlock (fid euid : Z) (b : bool)  (** 781 *)
  | PDecide (fid euid : Z) (b : bool)  (** do_poll: something ready, or a signal *)
  | PSet (fid euid : Z)             (** poll_schedule_timeout: set_current_state *)
  | PChk (fid euid : Z)             (** poll_schedule_timeout: test of triggered *)
  | PSched (fid euid : Z)           (** poll_schedule_timeout: schedule *)
  | PWoke (fid euid : Z)            (** poll_schedule_timeout: running again, triggered cleared *)
  | PFree (x : out)                 (** poll_freewait: leave the wait queue *)
  (** any other entry point with one critical section: open, release, ioctl *)
  | OLock (o : op)
  | OBody (o : op)
  | OUnlock (x : out).

(** A task: next statement, state, pending signal, poll's triggered flag, results of its calls
    (latest first). For kernel/ulogger-6.x.c:346-417 and 760-784. *)
Record thread := mkT { t_pc : pc; t_run : bool; t_sig : bool; t_trig : bool; t_rets : list out }.

(** The device, the owner of log->mutex, the wait queue log->wq (task, and whether the entry is
    one of poll), the tasks. kernel/ulogger-6.x.c:48-58. *)
Record state := mkS {
  s_dev : dev; s_mx : option nat; s_wq : list (nat * bool); s_ths : list thread }.

(** kernel/ulogger-6.x.c:346-417, 553-784 and 812-905. *)
Inductive call := CRead (c : rargs) | CWrite (w : wargs) | CPoll (fid euid : Z) | COther (o : op).

(** What the schedule can make a task do: start a call, execute its next statement, or receive a
    signal. No code: the scheduler. *)
Inductive act := Call (c : call) | Go | Signal.

(** No code: the next statement of a task. *)
Definition set_pc (th : thread) (p : pc) : thread :=
  mkT p (t_run th) (t_sig th) (t_trig th) (t_rets th).
(** set_current_state, as in prepare_to_wait of kernel/ulogger-6.x.c:356-375. *)
Definition set_run (th : thread) (b : bool) : thread :=
  mkT (t_pc th) b (t_sig th) (t_trig th) (t_rets th).
(** The flag of poll_wqueues of the kernel, for kernel/ulogger-6.x.c:760-784. *)
Definition set_trig (th : thread) (b : bool) : thread :=
  mkT (t_pc th) (t_run th) (t_sig th) b (t_rets th).
(** Return to user space: signals are handled. After kernel/ulogger-6.x.c:346-417. *)
Definition ret_user (th : thread) (x : out) : thread :=
  mkT Idle (t_run th) false (t_trig th) (x :: t_rets th).

(** No code: change of one task. *)
Fixpoint put {A} (n : nat) (x : A) (l : list A) : list A :=
  match l, n with
  | [], _ => []
  | _ :: r, O => x :: r
  | y :: r, S m => y :: put m x r
  end.

(** The file a task is using: the descriptor is held during the call, so the file cannot be
    released. fget and fput of the kernel around kernel/ulogger-6.x.c:346-417, 553-784 and 812-905. *)
Definition uses (p : pc) : option Z :=
  match p with
  | RLock c | RPrep c | RTest c | RUnlock c _ | RDecide c _ | RSched c | RFinish c _ | RLock2 c
  | RBody c | RUnlock2 c _ => Some (ra_fid c)
  | WStart w | WLock w _ | WBody w _ => Some (wa_fid w)
  | PReg f _ | PLock f _ | PBody f _ | PUnlock f _ _ | PDecide f _ _ | PSet f _ | PChk f _
  | PSched f _ | PWoke f _ => Some f
  | OLock (OpIoctl f _ _) | OBody (OpIoctl f _ _) => Some f
  | _ => None
  end.
(** No code: some task uses the file, as above. *)
Definition in_use (s : state) (fid : Z) : bool :=
  existsb (fun th => match uses (t_pc th) with Some f => f =? fid | None => false end) (s_ths s).

(** A file being released is not reachable by any task any more. kernel/ulogger-6.x.c:735-749. *)
Definition closing (s : state) (fid : Z) : bool :=
  existsb (fun th => match t_pc th with
                     | OLock (OpClose f) | OBody (OpClose f) => f =? fid | _ => false end) (s_ths s).

(** The reader of a file, kernel/ulogger-6.x.c:81-104. *)
Definition the_reader (d : dev) (fid : Z) : option reader :=
  match lookup fid (d_files d) with Some f => f_reader f | None => None end.

(** Is the task in log->wq, kernel/ulogger-6.x.c:356-375. *)
Definition in_wq (t : nat) (b : bool) (wq : list (nat * bool)) : bool :=
  existsb (fun p => Nat.eqb (fst p) t && Bool.eqb (snd p) b) wq.
(** finish_wait, kernel/ulogger-6.x.c:356-375. *)
Definition leave (t : nat) (b : bool) (wq : list (nat * bool)) : list (nat * bool) :=
  filter (fun p => negb (Nat.eqb (fst p) t && Bool.eqb (snd p) b)) wq.

(** wake_up_interruptible: every entry of the queue is visited. An entry of read
    (autoremove_wake_function) makes a sleeping task runnable and leaves the queue; a task that is
    runnable already keeps its entry. An entry of poll (pollwake) sets the triggered flag and
    makes the task runnable. Called at kernel/ulogger-6.x.c:681. *)
Definition wake_one (wq : list (nat * bool)) (t : nat) (th : thread) : thread :=
  let th := if in_wq t true wq then set_run (set_trig th true) true else th in
  if in_wq t false wq then set_run th true else th.
(** The same for all tasks, kernel/ulogger-6.x.c:681. *)
Fixpoint wake_all (wq : list (nat * bool)) (t : nat) (ths : list thread) : list thread :=
  match ths with
  | [] => []
  | th :: r => wake_one wq t th :: wake_all wq (S t) r
  end.
(** The queue after the call of kernel/ulogger-6.x.c:681. *)
Definition wake_queue (ths : list thread) (wq : list (nat * bool)) : list (nat * bool) :=
  filter (fun p => snd p || match nth_error ths (fst p) with Some th => t_run th | None => true end) wq.

(** kernel/ulogger-6.x.c:565-603: the call goes on to the critical section. *)
Definition write_locks (raw : bool) (t : task) (it : iter) : bool :=
  let pname := comm_str (t_pcomm t) ++ [0] in
  let tname := if t_tgid t =? t_pid t then [] else comm_str (t_tcomm t) ++ [0] in
  let hlen := if raw then Z.min (iter_count it - (HDR - 4)) MAX_PAYLOAD
              else Z.min (zlen pname + zlen tname + iter_count it) MAX_PAYLOAD in
  negb (raw && (iter_count it <? HDR - 4)) && negb (hlen =? 0).

(** The VFS refuses calls on files that are not open in the right mode.
    Before kernel/ulogger-6.x.c:346-417, 553-684 and 760-784. *)
Definition start (s : state) (th : thread) (c : call) : thread :=
  match c with
  | CRead c =>
    match the_reader (s_dev s) (ra_fid c) with
    | Some _ => if closing s (ra_fid c) then ret_user th OutNoFile else set_pc th (RLock c)
    | None => ret_user th OutNoFile
    end
  | CWrite w =>
    match lookup (wa_fid w) (d_files (s_dev s)) with
    | Some f => if f_write f && negb (closing s (wa_fid w)) then set_pc th (WStart w)
                else ret_user th OutNoFile
    | None => ret_user th OutNoFile
    end
  | CPoll fid euid =>
    match the_reader (s_dev s) fid with
    | Some _ => if closing s fid then ret_user th OutNoFile else set_pc th (PReg fid euid)
    | None => ret_user th OutNoFile
    end
  | COther o =>
    match o with
    | OpOpen _ _ _ _ _ => set_pc th (OLock o)
    | OpClose fid => if in_use s fid || closing s fid then ret_user th OutNoFile else set_pc th (OLock o)
    | OpIoctl fid _ _ => if closing s fid then ret_user th OutNoFile else set_pc th (OLock o)
    | _ => th
    end
  end.

(** rt_mutex_lock: passed only when the mutex is free; the task is runnable afterwards.
    As at kernel/ulogger-6.x.c:356-382. *)
Definition lock (s : state) (t : nat) (th : thread) (p : pc) : state :=
  match s_mx s with
  | Some _ => s
  | None => mkS (s_dev s) (Some t) (s_wq s) (put t (set_run (set_pc th p) true) (s_ths s))
  end.
(** rt_mutex_unlock, as at kernel/ulogger-6.x.c:356-417. *)
Definition unlock (s : state) (t : nat) (th : thread) : state :=
  mkS (s_dev s) None (s_wq s) (put t th (s_ths s)).
(** No code: the next statement of a task. *)
Definition goto (s : state) (t : nat) (th : thread) (p : pc) : state :=
  mkS (s_dev s) (s_mx s) (s_wq s) (put t (set_pc th p) (s_ths s)).
(** The end of a call, kernel/ulogger-6.x.c:346-417. *)
Definition leave_user (s : state) (t : nat) (th : thread) (x : out) : state :=
  mkS (s_dev s) (s_mx s) (s_wq s) (put t (ret_user th x) (s_ths s)).

(** The next statement of task [t]; a blocked task does not move.
    kernel/ulogger-6.x.c:346-417, 553-684 and 760-784. *)
Definition go (s : state) (t : nat) (th : thread) : M state :=
  let d := s_dev s in
  match t_pc th with
  | Idle => Ok s
  | RLock c => Ok (lock s t th (RPrep c))
  | RPrep c =>
    Ok (mkS d (s_mx s) (if in_wq t false (s_wq s) then s_wq s else (t, false) :: s_wq s)
            (put t (set_run (set_pc th (RTest c)) false) (s_ths s)))
  | RTest c =>
    match the_reader d (ra_fid c) with
    | Some r => Ok (goto s t th (RUnlock c (w_off (d_log d) =? r_off r)))
    | None => Bug Oob
    end
  | RUnlock c e => Ok (unlock s t (set_pc th (RDecide c e)))
  | RDecide c e =>
    if negb e then Ok (goto s t th (RFinish c 0))
    else if ra_nb c then Ok (goto s t th (RFinish c (- EAGAIN)))
    else if t_sig th then Ok (goto s t th (RFinish c (- EINTR)))
    else Ok (goto s t th (RSched c))
  | RSched c => if t_run th then Ok (goto s t th (RLock c)) else Ok s
  | RFinish c ret =>
    let th := set_run th true in
    let th := if ret =? 0 then set_pc th (RLock2 c) else ret_user th (OutErr (- ret)) in
    Ok (mkS d (s_mx s) (leave t false (s_wq s)) (put t th (s_ths s)))
  | RLock2 c => Ok (lock s t th (RBody c))
  | RBody c =>
    let* (d', x) := step d (OpReadBody (ra_fid c) (ra_euid c) (ra_count c) (ra_valid c)) in
    Ok (mkS d' (s_mx s) (s_wq s) (put t (set_pc th (RUnlock2 c x)) (s_ths s)))
  | RUnlock2 c x =>
    Ok (unlock s t (match x with OutRetry => set_pc th (RLock c) | _ => ret_user th x end))
  | WStart w =>
    match lookup (wa_fid w) (d_files d) with
    | Some f =>
      if write_locks (f_raw f) (wa_task w) (wa_it w) then Ok (goto s t th (WLock w (f_raw f)))
      else let* (_, v) := ulogger_write_iter d (f_raw f) (wa_task w) (wa_sec w) (wa_nsec w) (wa_it w) in
           Ok (leave_user s t th (ret_out v))
    | None => Bug Oob
    end
  | WLock w raw => Ok (lock s t th (WBody w raw))
  | WBody w raw =>
    let* (d', v) := ulogger_write_iter d raw (wa_task w) (wa_sec w) (wa_nsec w) (wa_it w) in
    Ok (mkS d' (s_mx s) (s_wq s) (put t (set_pc th (WUnlock v)) (s_ths s)))
  | WUnlock v =>
    Ok (unlock s t (if v <? 0 then ret_user th (ret_out v) else set_pc th (WWake v)))
  | WWake v =>
    Ok (mkS d (s_mx s) (wake_queue (s_ths s) (s_wq s))
            (put t (ret_user th (ret_out v)) (wake_all (s_wq s) O (s_ths s))))
  | PReg f u =>
    Ok (mkS d (s_mx s) ((t, true) :: s_wq s) (put t (set_trig (set_pc th (PLock f u)) false) (s_ths s)))
  | PLock f u => Ok (lock s t th (PBody f u))
  | PBody f u =>
    let* (d', x) := step d (OpPoll f u) in
    match x with
    | OutPoll b => Ok (mkS d' (s_mx s) (s_wq s) (put t (set_pc th (PUnlock f u b)) (s_ths s)))
    | _ => Bug Oob
    end
  | PUnlock f u b => Ok (unlock s t (set_pc th (PDecide f u b)))
  | PDecide f u b =>
    if b then Ok (goto s t th (PFree (OutPoll true)))
    else if t_sig th then Ok (goto s t th (PFree (OutErr EINTR)))
    else Ok (goto s t th (PSet f u))
  | PSet f u => Ok (goto s t (set_run th false) (PChk f u))
  | PChk f u => Ok (goto s t th (if t_trig th then PWoke f u else PSched f u))
  | PSched f u => if t_run th then Ok (goto s t th (PWoke f u)) else Ok s
  | PWoke f u => Ok (goto s t (set_trig (set_run th true) false) (PLock f u))
  | PFree x =>
    Ok (mkS d (s_mx s) (leave t true (s_wq s)) (put t (ret_user th x) (s_ths s)))
  | OLock o => Ok (lock s t th (OBody o))
  | OBody o =>
    let* (d', x) := step d o in
    Ok (mkS d' (s_mx s) (s_wq s) (put t (set_pc th (OUnlock x)) (s_ths s)))
  | OUnlock x => Ok (unlock s t (ret_user th x))
  end.

(** One scheduling event. A signal makes an interruptible task runnable. No code: the scheduler. *)
Definition wstep (s : state) (e : nat * act) : M state :=
  let (t, a) := e in
  match nth_error (s_ths s) t with
  | None => Ok s
  | Some th =>
    match a with
    | Go => go s t th
    | Signal => Ok (mkS (s_dev s) (s_mx s) (s_wq s)
                        (put t (mkT (t_pc th) true true (t_trig th) (t_rets th)) (s_ths s)))
    | Call c => match t_pc th with
                | Idle => Ok (mkS (s_dev s) (s_mx s) (s_wq s) (put t (start s th c) (s_ths s)))
                | _ => Ok s
                end
    end
  end.

(** No code: a schedule. *)
Fixpoint wrun (s : state) (l : list (nat * act)) : M state :=
  match l with
  | [] => Ok s
  | e :: r => let* s := wstep s e in wrun s r
  end.

(** [n] tasks in user space, a new device. kernel/ulogger-6.x.c:1050-1058. *)
Definition wstart (nm mem : list Z) (pow2 : Z) (n : nat) : state :=
  mkS (init_dev nm mem pow2) None [] (repeat (mkT Idle true false false []) n).

(** Writes come from user space. See Ring.user_iter, kernel/ulogger-6.x.c:637-672. *)
Definition user_event (e : nat * act) : Prop :=
  match snd e with Call (CWrite w) => user_iter (wa_it w) | _ => True end.
