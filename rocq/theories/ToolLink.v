(** Model of the tool ulogctl (ToolRun.v) when the connection to the server can break: property C141.

    Simplified: what was not handled or received when the connection breaks is lost (the server went away). *)
From Coq Require Import ZArith String List Bool.
From Verif Require Import Bytes Ctl CtlSys CtlTool ToolRun.
Import ListNotations.
Open Scope Z_scope.

(** What can happen: a move of CtlSys.v, or the connection breaks; [first]: libpomp ends the sends under way
    (send_cb with the status ABORTED) before the event DISCONNECTED, or after it.
    libulogctl/src/ulogctl_cli.c:179-244. *)
Inductive event := Happens (m : move) | Lost (first : bool).

(** POMP_EVENT_DISCONNECTED, libulogctl/src/ulogctl_cli.c:196-201: ulogctl_cli_stop (356-378), after which libpomp
    does not connect again; send_cb, 210-244. Without a connection nothing is seen: libpomp tries again. *)
Definition lost (first : bool) (y : sys) : M (sys * list seen) :=
  match k_state (y_cli y) with
  | Connected =>
    let sends := repeat (ESendDone false) (y_sends y) in
    let* (k, t) := Ctl.run cb0 (y_cli y) (if first then sends ++ [EDisconnected] else EDisconnected :: sends) in
    Ok (mkSys k (y_reg y) [] [] 0, map (fun x => Told (snd x)) t)
  | _ => Ok (y, [])
  end.
(** One event. libulogctl/src/ulogctl_cli.c:179-244. *)
Definition lstep (y : sys) (e : event) : M (sys * list seen) :=
  match e with Happens m => sys_step cb0 y m | Lost f => lost f y end.
(** No code: a sequence of events, libulogctl/src/ulogctl_cli.c. *)
Fixpoint lrun (y : sys) (es : list event) : M (sys * list seen) :=
  match es with
  | [] => Ok (y, [])
  | e :: es =>
    let* (y, t) := lstep y e in
    let* (y, t2) := lrun y es in Ok (y, t ++ t2)
  end.
(** The loop of main, libulogctl/tool/ulogctl.c:432-433, as in ToolRun.v. *)
Fixpoint lloop (color : bool) (y : sys) (rounds : list (list event)) : M (sys * list Z * bool) :=
  match rounds with
  | [] => Ok (y, [], false)
  | es :: rounds =>
    let* (y, tr) := lrun y es in
    if stops tr then Ok (y, shows color tr, true)
    else let* (y, text, e) := lloop color y rounds in Ok (y, shows color tr ++ text, e)
  end.
(** main from ulogctl_cli_start on, libulogctl/tool/ulogctl.c:409-433: the system, the bytes written, and whether the
    loop ended (then main returns 0, line 452). *)
Definition ltool (color : bool) (reg : list cookie) (r : req) (rounds : list (list event)) : M (sys * list Z * bool) :=
  let* (y, _) := sys_run cb0 (sys_new reg) [MStart; MAsk r] in
  lloop color y rounds.
