(** Model of the lives of the two programs of the log control, the example server
    libulogctl/examples/ulogctl-srv.c and the tool libulogctl/tool/ulogctl.c: what they obtain and release, when
    they wait, and their signal handler, which may run between any two calls. Property C145.
    What the calls do besides: Ctl.v, CtlSys.v, CtlTool.v, SrvApp.v, ToolRun.v. *)
From Coq Require Import ZArith String List Bool.
From Verif Require Import Bytes.
Import ListNotations.
Open Scope Z_scope.

(** The loop, the timer and the server or client: s_app.loop, .timer, .ulogctl or .ulogctl_cli.
    libulogctl/examples/ulogctl-srv.c:42-56, libulogctl/tool/ulogctl.c:88-103. *)
Inductive obj := OLoop | OTimer | OCtl.
(** What can be observed: creation and destruction of an object, a call that works on it, a call of
    pomp_loop_wait_and_process, of pomp_loop_wakeup, a run of the signal handler, an error that is logged
    (LOG_ERRNO) or printed. libulogctl/examples/ulogctl-srv.c:96-238, libulogctl/tool/ulogctl.c:231-452. *)
Inductive ev := Get (o : obj) | Free (o : obj) | Use (o : obj) | Wait | Wake | Handler | Error.
(** struct app: whether the three pointers are set (they keep their values when the objects are destroyed), stopped;
    [a_woken]: a wakeup the loop has not seen (an eventfd in libpomp); what happened so far.
    libulogctl/examples/ulogctl-srv.c:41-55. *)
Record life := mkApp { a_loop : bool; a_timer : bool; a_ctl : bool; a_stopped : bool; a_woken : bool; a_tr : list ev }.
(** s_app, libulogctl/examples/ulogctl-srv.c:50-56, libulogctl/tool/ulogctl.c:97-103. *)
Definition app0 : life := mkApp false false false false false [].

(** What a call of pomp_loop_wait_and_process finds: nothing, or an event; [stop]: its callbacks set
    stopped (request_status_cb, libulogctl/tool/ulogctl.c:188-199). *)
Inductive round := Nothing | Event (stop : bool).
(** The world: whether a signal arrives at this point, whether the loop and the timer are created, result and pointer of
    the creation of the server or client, results of its start, of the request or of the timer, the
    rounds of the loop. Calls with a NULL object return -EINVAL, as libpomp and
    libulogctl/src/ulogctl_srv.c:272-276 do. *)
Record world := mkW { w_signal : list ev -> bool; w_loop : bool; w_timer : bool; w_new : Z * bool; w_start : Z; w_ask : Z; w_rounds : list round }.
(** Still waiting when the known rounds are over, waiting for ever, ended with a code. main,
    libulogctl/examples/ulogctl-srv.c:106-238, libulogctl/tool/ulogctl.c:270-453. *)
Inductive outcome := Running | Blocked | Ended (code : Z).

(** No code: something is added to the trace. *)
Definition note (c : life) (e : ev) : life := mkApp (a_loop c) (a_timer c) (a_ctl c) (a_stopped c) (a_woken c) (a_tr c ++ [e]).
(** sig_handler, libulogctl/examples/ulogctl-srv.c:96-102, libulogctl/tool/ulogctl.c:231-237. Its message (ULOGI): C125, C133. *)
Definition sig_handler (c : life) : life :=
  let c := note c Handler in
  let c := mkApp (a_loop c) (a_timer c) (a_ctl c) true (a_woken c) (a_tr c) in
  if a_loop c then note (mkApp (a_loop c) (a_timer c) (a_ctl c) (a_stopped c) true (a_tr c)) Wake else c.
(** A point where a signal may arrive. A second signal meanwhile is left out: the next point follows.
    libulogctl/examples/ulogctl-srv.c:96-102, libulogctl/tool/ulogctl.c:231-237. *)
Definition point (w : world) (c : life) : life := if w_signal w (a_tr c) then sig_handler c else c.
(** No code: a call with what it makes happen, and the point after it. *)
Definition call (w : world) (c : life) (e : ev) : life := point w (note c e).

(** s_app.loop = pomp_loop_new(), libulogctl/examples/ulogctl-srv.c:160, libulogctl/tool/ulogctl.c:385. A signal between the
    call and the assignment finds what one before the call finds. *)
Definition make_loop (w : world) (c : life) : life :=
  if w_loop w then let c := note c (Get OLoop) in point w (mkApp true (a_timer c) (a_ctl c) (a_stopped c) (a_woken c) (a_tr c))
  else c.
(** s_app.timer = pomp_timer_new(), libulogctl/examples/ulogctl-srv.c:161. *)
Definition make_timer (w : world) (c : life) : life :=
  if a_loop c && w_timer w then let c := note c (Get OTimer) in point w (mkApp (a_loop c) true (a_ctl c) (a_stopped c) (a_woken c) (a_tr c))
  else c.
(** ulogctl_srv_new_* or ulogctl_cli_new*, libulogctl/examples/ulogctl-srv.c:163-188, libulogctl/tool/ulogctl.c:387-408: a
    negative result leaves the pointer NULL, another one need not set it (libulogctl/src/ulogctl_srv.c:284-302). *)
Definition make_ctl (w : world) (c : life) : life * Z :=
  if negb (a_loop c) then (c, - EINVAL) else
  let (res, ptr) := w_new w in
  if res <? 0 then (c, res)
  else if ptr then let c := note c (Get OCtl) in (point w (mkApp (a_loop c) (a_timer c) true (a_stopped c) (a_woken c) (a_tr c)), res)
  else (c, res).
(** A call on the server or client, libulogctl/examples/ulogctl-srv.c:190-193, libulogctl/tool/ulogctl.c:410-430. *)
Definition on_ctl (w : world) (c : life) (res : Z) : life * Z := if a_ctl c then (call w c (Use OCtl), res) else (c, - EINVAL).
(** pomp_timer_set_periodic, libulogctl/examples/ulogctl-srv.c:196-201. *)
Definition on_timer (w : world) (c : life) (res : Z) : life * Z := if a_timer c then (call w c (Use OTimer), res) else (c, - EINVAL).

(** The loop of main, libulogctl/examples/ulogctl-srv.c:203-205, libulogctl/tool/ulogctl.c:432-433. [true]: left. A call
    that finds nothing waits for a wakeup, made before it or by a signal meanwhile. *)
Fixpoint turns (w : world) (rounds : list round) (c : life) : life * option outcome :=
  if a_stopped c then (c, None) else
  match rounds with
  | [] => (c, Some Running)
  | r :: rounds =>
    let c := point w c in
    let c := point w (note c Wait) in
    if a_woken c then
      turns w rounds (mkApp (a_loop c) (a_timer c) (a_ctl c) (match r with Event true => true | _ => a_stopped c end) false (a_tr c))
    else
      match r with
      | Nothing => (c, Some Blocked)
      | Event stop => turns w rounds (if stop then mkApp (a_loop c) (a_timer c) (a_ctl c) true (a_woken c) (a_tr c) else c)
      end
  end.
(** Cleanup of the server, libulogctl/examples/ulogctl-srv.c:207-238; of the tool (it has no timer),
    libulogctl/tool/ulogctl.c:435-453. Destructions are taken to succeed. *)
Definition cleanup (w : world) (c : life) : life * outcome :=
  let c := if a_timer c then call w c (Use OTimer) else c in
  let c := if a_ctl c then call w (call w c (Use OCtl)) (Free OCtl) else c in
  let c := if a_timer c then call w c (Free OTimer) else c in
  let c := if a_loop c then call w c (Free OLoop) else c in
  (c, Ended 0).
(** goto out. libulogctl/examples/ulogctl-srv.c:163-201, libulogctl/tool/ulogctl.c:368-414. *)
Definition fail (w : world) (c : life) : life * outcome := cleanup w (call w c Error).
(** The loop and what follows, libulogctl/examples/ulogctl-srv.c:203-238, libulogctl/tool/ulogctl.c:431-453. *)
Definition finish (w : world) (c : life) : life * outcome :=
  match turns w (w_rounds w) c with (c, None) => cleanup w c | (c, Some o) => (c, o) end.

(** main of the server after its options, libulogctl/examples/ulogctl-srv.c:159-238; [addr]: one of -i, -u, -p was given. *)
Definition server (w : world) (addr : bool) : life * outcome :=
  let c := make_timer w (make_loop w (point w app0)) in
  if negb addr then fail w c else
  let (c, res) := make_ctl w c in
  if res <? 0 then fail w c else
  let (c, res) := on_ctl w c (w_start w) in
  if res <? 0 then fail w c else
  let (c, res) := on_timer w c (w_ask w) in
  if res <? 0 then fail w c else finish w c.

(** main of the tool after its options, libulogctl/tool/ulogctl.c:368-453; [addr]: the address could be
    parsed; [ask]: a request was asked for. *)
Definition tool (w : world) (addr ask : bool) : life * outcome :=
  let c := point w app0 in
  if negb addr then fail w c else
  let (c, res) := make_ctl w (make_loop w c) in
  if res <? 0 then fail w c else
  let (c, res) := on_ctl w c (w_start w) in
  if res <? 0 then fail w c else
  let c := if ask then let (c, res) := on_ctl w c (w_ask w) in if res <? 0 then call w c Error else c else c in
  finish w c.
