(** The log reader on devices of the driver while other processes use them.

    As Live.v, but before each critical section of the driver that the reader enters, other
    processes make any number of system calls on any of the devices: the schedule, a list of
    batches of calls, says which. The critical sections of a non-blocking read are those of
    ulogger_read (kernel/ulogger-6.x.c:346-419): the check for data, then the read itself, and
    again if the data is gone by then. Simplified as in Live.v otherwise. *)
From Coq Require Import ZArith String List Bool.
From Verif Require Import Bytes Ring Parse Cat Live.
Import ListNotations.
Open Scope Z_scope.

(** The devices and what the other processes will do: each call with the number of its device. The
    system, not a function of /repo. *)
Definition busy := (list node * list (list (nat * op)))%type.

(** One call of another process on its device: one critical section under log->mutex of
    kernel/ulogger-6.x.c (read 356-361 and 382-415, write 608-678, open 718-722, release
    741-743, poll 774-781, ioctl 820-902), as Ring.step has them. *)
Definition other_call (w : list node) (io : nat * op) : list node :=
  match nth_error w (fst io) with
  | None => w
  | Some (d, fid) =>
    match step d (snd io) with
    | Ok (d', _) => set_nth (fst io) (d', fid) w
    | Bug _ => w
    end
  end.
(** The next batch: the scheduler, not a function of /repo. *)
Definition pause (b : busy) : busy :=
  match snd b with
  | [] => b
  | l :: r => (fold_left other_call l (fst b), r)
  end.

(** One critical section entered by the reader on device [i], those of other processes before it
    (kernel/ulogger-6.x.c:346-419 and 760-783). *)
Definition own_call (b : busy) (i : nat) (o : Z -> op) : busy * M out :=
  let b := pause b in
  match nth_error (fst b) i with
  | None => (b, Ok OutNoFile)
  | Some (d, fid) =>
    match step d (o fid) with
    | Ok (d', x) => ((set_nth i (d', fid) (fst b), snd b), Ok x)
    | Bug e => (b, Bug e)
    end
  end.

(** read(2) of [count] bytes on a non-blocking descriptor (as Live.sys_read). [fuel]: passes of the
    loop of ulogger_read, kernel/ulogger-6.x.c:346-419. *)
Fixpoint busy_read (fuel : nat) (b : busy) (i : nat) (euid count : Z) : busy * rd :=
  match fuel with
  | O => (b, RdErr EBADF)
  | S f =>
    match own_call b i (fun fid => OpReadCheck fid true false) with
    | (b, Ok OutCont) =>
      match own_call b i (fun fid => OpReadBody fid euid count count) with
      | (b, Ok OutRetry) => busy_read f b i euid count
      | (b, Ok (OutData bs)) => (b, RdBytes bs)
      | (b, Ok (OutErr e)) => (b, RdErr e)
      | (b, _) => (b, RdErr EBADF)
      end
    | (b, Ok (OutErr e)) => (b, RdErr e)
    | (b, _) => (b, RdErr EBADF)
    end
  end.
(** Once the schedule is empty two passes are enough; before, each pass uses some of it. The passes of the
    loop of ulogger_read, kernel/ulogger-6.x.c:355-419. *)
Definition passes (b : busy) : nat := (length (snd b) + 2)%nat.

(** ulog_receive_entry, ulogcat/libulogcat_ulog.c:29-92 (as Live.live_recv). *)
Definition busy_recv (csv : bool) (euid : Z) (b : busy) (i : nat) : busy * rx :=
  let (b1, r1) := busy_read (passes b) b i euid FRAME_BUFSIZE in
  let again := match r1 with RdErr e => e =? EINVAL | RdBytes _ => false end in
  let (b2, r2) := if again then busy_read (passes b1) b1 i euid ENTRY_MAX_LEN else (b1, r1) in
  (b2, match ulog_receive_entry csv r1 true r2 with Ok x => x | Bug _ => RxFail end).

(** poll(2), ulogcat/libulogcat_core.c:284-301 (as Live.poll_all), for the devices numbered [i] and
    up. *)
Fixpoint busy_poll (euid : Z) (i : nat) (fds : list bool) (b : busy) : busy * list bool :=
  match fds with
  | [] => (b, [])
  | a :: fds =>
    let (b, x) := if a then match own_call b i (fun fid => OpPoll fid euid) with
                            | (b, Ok (OutPoll x)) => (b, x)
                            | (b, _) => (b, false)
                            end
                  else (b, false) in
    let (b, r) := busy_poll euid (S i) fds b in (b, x :: r)
  end.

(** What the reader, ulogcat/libulogcat_core.c:260-420, has around it: poll and the reception of a record as above. *)
Definition busy_env (csv : bool) (euid : Z) : env busy :=
  mkEnv busy (fun b fds => let (b, r) := busy_poll euid O fds b in (b, inr r)) (busy_recv csv euid).
