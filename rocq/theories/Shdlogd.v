(** Model of the life of shdlogd: options, start, loop and end (shdlogd/src/shdlogd.c:45-93, 138-210,
    226-364). What is relayed is Relay.v; here, what is obtained, used and released, and the result.

    The functions of libpomp and libshdata (not in the repository), ulog_raw_open (Devopen.v), malloc
    and the delivery of signals are oracles that see what happened before. *)
From Coq Require Import ZArith String List Bool.
From Verif Require Import Bytes.
Import ListNotations.
Open Scope Z_scope.

(** What can be obtained: a pomp loop, a timer, a descriptor, the context of a section (a number, 0 is
    NULL), the blocks of memory for blobs and for times.
    Held by ctx, shdlogd/src/shdlogd.c:45-93; obtained and released by main, 269-364. *)
Inductive res := RLoop | RTimer | RFd (fd : Z) | RShd (h : Z) | RBlobs | RTs.
(** The calls: ulog_raw_open and shd_open, followed by their results; something obtained or released, or not obtained; pomp_timer_set_periodic;
    shd_select_samples, shd_read_quantity and shd_end_read with the context and the result; the
    samples are sent to the log with a process name; pomp_loop_wait_and_process.
    At shdlogd/src/shdlogd.c:138-210 and 269-364. *)
Inductive ev :=
  | OpenRaw (device : option (list Z)) | OpenShd (section : list Z)
  | Get (r : res) | Fail
  | Free (r : res)
  | Period (ms ret : Z)
  | Select (h ret : Z) | Read (h ret : Z) | EndRead (h ret : Z) | Relay (pname : list Z)
  | Usage | Wait (ret : Z).

(** Answers of libpomp, libshdata, malloc and ulog_raw_open, shdlogd/src/shdlogd.c:138-199 and 269-364. *)
Record sys := mkSys {
  y_loop : bool; y_timer : bool; y_period : Z; y_raw : option (list Z) -> Z; y_shd : list ev -> list Z -> Z;
  y_blobs : bool; y_ts : bool;
  y_select : list ev -> Z; y_read : list ev -> Z; y_end : list ev -> Z;
  y_wait : list ev -> Z;     (** the result of pomp_loop_wait_and_process *)
  y_fires : list ev -> nat;  (** how often it calls on_timer *)
  y_signal : list ev -> bool (** a signal was delivered since the last look *) }.


(** Used at shdlogd/src/shdlogd.c:138-199. *)
Definition ENODEV := 19.

(** The options as getopt_long gives them (shdlogd/src/shdlogd.c:231-243); [OOther]: -h and what is
    not an option; the number is what atoi gives. *)
Inductive opt := OSection (s : list Z) | ODevice (s : list Z) | OPname (s : list Z) | OPeriod (n : Z) | OOther.
(** The part of ctx set by options: section, device, process name, period (uint32_t).
    shdlogd/src/shdlogd.c:226-267. *)
Record conf := mkConf { f_section : list Z; f_device : option (list Z); f_pname : list Z; f_period : Z }.
(** shdlogd/src/shdlogd.c:39-43 and 63-79. *)
Definition default : conf := mkConf (bytes_of_string "ulog") None (bytes_of_string "rtos") 50.
(** parse_opts, shdlogd/src/shdlogd.c:226-267. *)
Fixpoint parse_opts (f : conf) (run : bool) (t : list ev) (l : list opt) : list ev * conf * bool :=
  match l with
  | [] => (t, f, run)
  | OSection s :: l => parse_opts (mkConf s (f_device f) (f_pname f) (f_period f)) run t l
  | ODevice s :: l => parse_opts (mkConf (f_section f) (Some s) (f_pname f) (f_period f)) run t l
  | OPname s :: l => parse_opts (mkConf (f_section f) (f_device f) s (f_period f)) run t l
  | OPeriod n :: l => parse_opts (mkConf (f_section f) (f_device f) (f_pname f) (u32 n)) run t l
  | OOther :: l => parse_opts f false (t ++ [Usage]) l
  end.

(** ctx: stop, loop, timer, ulogfd, shd.ctx, shd.blobs, shd.ts; shdlogd/src/shdlogd.c:45-93. *)
Record ctx := mkCtx { x_tr : list ev; x_stop : bool; x_loop : bool; x_timer : bool; x_fd : Z; x_shd : Z; x_blobs : bool; x_ts : bool }.
(** The context at the start of main, shdlogd/src/shdlogd.c:63-93. *)
Definition start : ctx := mkCtx [] false false false (-1) 0 false false.
(** No code: a call is recorded. *)
Definition tr (c : ctx) (e : ev) : ctx := mkCtx (x_tr c ++ [e]) (x_stop c) (x_loop c) (x_timer c) (x_fd c) (x_shd c) (x_blobs c) (x_ts c).
(** ctx.stop = true, shdlogd/src/shdlogd.c:206-210. *)
Definition set_stop (c : ctx) : ctx := mkCtx (x_tr c) true (x_loop c) (x_timer c) (x_fd c) (x_shd c) (x_blobs c) (x_ts c).
(** Change of ctx.shd.ctx, shdlogd/src/shdlogd.c:138-199 and 269-364. *)
Definition set_shd (c : ctx) (h : Z) : ctx := mkCtx (x_tr c) (x_stop c) (x_loop c) (x_timer c) (x_fd c) h (x_blobs c) (x_ts c).
(** Change of ctx.ulogfd, shdlogd/src/shdlogd.c:269-364. *)
Definition set_fd (c : ctx) (fd : Z) : ctx := mkCtx (x_tr c) (x_stop c) (x_loop c) (x_timer c) fd (x_shd c) (x_blobs c) (x_ts c).
(** Change of ctx.loop, shdlogd/src/shdlogd.c:269-364. *)
Definition set_loop (c : ctx) (b : bool) : ctx := mkCtx (x_tr c) (x_stop c) b (x_timer c) (x_fd c) (x_shd c) (x_blobs c) (x_ts c).
(** Change of ctx.timer, shdlogd/src/shdlogd.c:269-364. *)
Definition set_timer (c : ctx) (b : bool) : ctx := mkCtx (x_tr c) (x_stop c) (x_loop c) b (x_fd c) (x_shd c) (x_blobs c) (x_ts c).
(** Change of ctx.shd.blobs and ctx.shd.ts, shdlogd/src/shdlogd.c:269-364. *)
Definition set_mem (c : ctx) (b t : bool) : ctx := mkCtx (x_tr c) (x_stop c) (x_loop c) (x_timer c) (x_fd c) (x_shd c) b t.

(** ctx.shd.ctx = shd_open(ctx.section, NULL, &ctx.shd.rev), shdlogd/src/shdlogd.c:152 and 308. *)
Definition open_shd (y : sys) (f : conf) (c : ctx) : ctx :=
  let c := tr c (OpenShd (f_section f)) in
  let h := y_shd y (x_tr c) (f_section f) in
  set_shd (tr c (if h =? 0 then Fail else Get (RShd h))) h.

(** read_samples, shdlogd/src/shdlogd.c:138-199. *)
Definition read_samples (y : sys) (f : conf) (c : ctx) : ctx * Z :=
  let ret := y_select y (x_tr c) in
  let c := tr c (Select (x_shd c) ret) in
  if ret <? 0 then
    ((if ret =? - ENODEV then open_shd y f (tr c (Free (RShd (x_shd c)))) else c), ret)
  else
    let rd := y_read y (x_tr c) in
    let c := tr c (Read (x_shd c) rd) in
    let ret := y_end y (x_tr c) in
    let c := tr c (EndRead (x_shd c) ret) in
    if ret <? 0 then ((if ret =? - ENODEV then set_stop c else c), ret)
    else (tr c (Relay (f_pname f)), 0).

(** on_signal, shdlogd/src/shdlogd.c:206-210: whether ctx.stop was set meanwhile. *)
Definition look (y : sys) (c : ctx) : ctx := if y_signal y (x_tr c) then set_stop c else c.

(** "Read oldest sample to get a timestamp reference", shdlogd/src/shdlogd.c:330-336; [None]: not left
    after [fuel] passes; otherwise whether it jumps to finish. *)
Fixpoint first_read (fuel : nat) (y : sys) (f : conf) (c : ctx) : option (ctx * Z * bool) :=
  match fuel with
  | O => None
  | S n =>
    let (c, ret) := read_samples y f c in
    let c := look y c in
    if x_stop c then Some (c, ret, true)
    else if ret =? 0 then Some (c, ret, false) else first_read n y f c
  end.
(** on_timer, shdlogd/src/shdlogd.c:201-204, called [k] times. *)
Fixpoint timers (k : nat) (y : sys) (f : conf) (c : ctx) : ctx :=
  match k with O => c | S k => timers k y f (fst (read_samples y f c)) end.
(** The loop, shdlogd/src/shdlogd.c:341-348; [ret]: the value of ret before. *)
Fixpoint main_loop (fuel : nat) (y : sys) (f : conf) (c : ctx) (ret : Z) : option (ctx * Z) :=
  let c := look y c in
  if x_stop c then Some (c, ret) else
  match fuel with
  | O => None
  | S n =>
    let r := y_wait y (x_tr c) in
    let c := timers (y_fires y (x_tr c)) y f c in
    main_loop n y f (tr c (Wait r)) r
  end.

(** "finish:", shdlogd/src/shdlogd.c:350-363: free(NULL) does nothing. *)
Definition finish (c : ctx) (ret : Z) : list ev * Z :=
  let c := if x_ts c then tr c (Free RTs) else c in
  let c := if x_blobs c then tr c (Free RBlobs) else c in
  let c := if x_shd c =? 0 then c else tr c (Free (RShd (x_shd c))) in
  let c := if 0 <=? x_fd c then tr c (Free (RFd (x_fd c))) else c in
  let c := if x_timer c then tr c (Free RTimer) else c in
  let c := if x_loop c then tr c (Free RLoop) else c in
  (x_tr c, if ret =? 0 then 0 else 1).

(** main, shdlogd/src/shdlogd.c:269-364; [None]: still running after [fuel] passes of a loop. *)
Definition main (fuel : nat) (y : sys) (l : list opt) : option (list ev * Z) :=
  let '(t, f, run) := parse_opts default true [] l in
  if negb run then Some (t, 0) else
  let c := mkCtx t false false false (-1) 0 false false in
  if negb (y_loop y) then Some (finish (tr c Fail) (- EINVAL)) else
  let c := set_loop (tr c (Get RLoop)) true in
  if negb (y_timer y) then Some (finish (tr c Fail) (- EINVAL)) else
  let c := set_timer (tr c (Get RTimer)) true in
  let ret := y_period y in
  let c := tr c (Period (f_period f) ret) in
  if ret <? 0 then Some (finish c ret) else
  let c := tr c (OpenRaw (f_device f)) in
  let fd := y_raw y (f_device f) in
  if fd <? 0 then Some (finish (tr c Fail) fd) else
  let c := set_fd (tr c (Get (RFd fd))) fd in
  let c := open_shd y f c in
  if x_shd c =? 0 then Some (finish c (- EINVAL)) else
  if negb (y_blobs y) then Some (finish (tr c Fail) (- ENOMEM)) else
  let c := set_mem (tr c (Get RBlobs)) true false in
  if negb (y_ts y) then Some (finish (tr c Fail) (- ENOMEM)) else
  let c := set_mem (tr c (Get RTs)) true true in
  match first_read fuel y f c with
  | None => None
  | Some (c, ret, true) => Some (finish c ret)
  | Some (c, ret, false) =>
    match main_loop fuel y f c ret with
    | None => None
    | Some (c, ret) => Some (finish c ret)
    end
  end.
