(** Runs of the tool ulogger (Ulogger.v) on a device of the driver (Ring.v): the system calls of one run,
    with the answers of the driver, and runs one after the other, as from a shell script.

    Left out: the path and the kind of the device (Devopen.v), a device that cannot be opened or put in raw
    mode (C78 is about that case), other processes using the device at the same time, a close that is not
    made by the end of the process. *)
From Coq Require Import ZArith String List Bool.
From Verif Require Import Bytes Ring Iov Ulogger.
Import ListNotations.
Open Scope Z_scope.

(** A command: the number of the open device, the process, what getpid and program_invocation_short_name
    give, the command line, the standard input and the clock. [k_strict], [k_capable]: whether the target
    checks the capability to set raw mode, and whether the process has it (kernel/ulogger-6.x.c:799-810).
    ulogger/ulogger.c:174-252. *)
Record command := mkCmd { k_fid : Z; k_task : task; k_strict : bool; k_capable : bool; k_pid : Z; k_name : list Z; k_opts : list opt;
                          k_args : list (list Z); k_input : list Z; k_clock : nat -> Z * Z }.

(** The vectors given to writev, libulog/ulog_write_raw.c:122-174. *)
Definition vectors (evs : list event) : list (list (list Z)) :=
  flat_map (fun e => match e with Write v => [v] | _ => [] end) evs.

(** The calls on the device that go with the events [evs] of a run: open for writing and
    ULOGGER_SET_RAW_MODE with 1 (ulog_raw_open, libulog/ulog_write_raw.c:52-70, called at
    ulogger/ulogger.c:208), one writev for each message, close by the end of the process. The driver takes
    the time and the sender of an entry in raw mode from the data (kernel/ulogger-6.x.c:573-583). *)
Definition calls (k : command) (evs : list event) : list op :=
  [OpOpen (k_fid k) false true false false; OpIoctl (k_fid k) (SetRawMode (Some 1) (k_strict k) (k_capable k)) (t_euid (k_task k))] ++
  map (fun v => OpWrite (k_fid k) (k_task k) 0 0 (iovec v)) (vectors evs) ++ [OpClose (k_fid k)].

(** One run of main, ulogger/ulogger.c:174-295: the results of writev in ulogger_log are those of the
    driver. *)
Definition executes (W : Z) (d : dev) (k : command) (ops : list op) (outs : list out) (d' : dev) : Prop :=
  exists res evs ws, main W (k_fid k) (k_pid k) (k_name k) (k_opts k) (k_args k) (k_input k) (fun i => Some (k_clock k i)) res = Ok evs /\
    ops = calls k evs /\ outs = OutVal 0 :: OutVal 0 :: ws ++ [OutVal 0] /\ run d ops = Ok (d', outs) /\
    forall j x, nth_error ws j = Some x -> x = ret_out (res j).

(** Runs one after the other; no code. ulogger/ulogger.c:174-295. *)
Inductive script (W : Z) : dev -> list command -> list op -> list out -> dev -> Prop :=
  | sc_nil : forall d, script W d [] [] [] d
  | sc_run : forall d k ops outs d1 ks ops' outs' d', executes W d k ops outs d1 -> script W d1 ks ops' outs' d' ->
      script W d (k :: ks) (ops ++ ops') (outs ++ outs') d'.
