(** Model of a control client and a control server that are connected (property C129): the client of
    libulogctl/src/ulogctl_cli.c and the server of libulogctl/src/ulogctl_srv.c (Ctl.v), with the connection of
    libpomp between them as an oracle: messages arrive in the order they were sent and are not lost. Memory
    does not run out, there is one client, and the connection stays up. *)
From Coq Require Import ZArith String List Bool.
From Verif Require Import Bytes Ctl.
Import ListNotations.
Open Scope Z_scope.

(** The client, the cookies of the process of the server, the messages under way to the server and to the
    client, and how many calls of send_cb (libulogctl/src/ulogctl_cli.c:210-244) are due. *)
Record sys := mkSys { y_cli : cli; y_reg : list cookie; y_up : list req; y_down : list answer; y_sends : nat }.
(** The client after libulogctl/src/ulogctl_cli.c:270-319, nothing on its way. *)
Definition sys_new (reg : list cookie) : sys := mkSys cli_new reg [] [] 0.

(** What can happen, in any order: the client is started, connected, asked by its application
    (libulogctl/src/ulogctl_cli.c:380-547); a call of send_cb; the server handles a message
    (libulogctl/src/ulogctl_srv.c:222-271), the client one (libulogctl/src/ulogctl_cli.c:124-141); the process of the
    server registers tags or changes levels itself. *)
Inductive move := MStart | MConnect | MAsk (r : req) | MSent | MServe | MReceive | MOwn (reg : list cookie).

(** What is recorded: a request of the application and whether it was accepted; a message handled by the
    server; a change made by its own process; what the client told the application.
    At libulogctl/src/ulogctl_cli.c:102-244 and libulogctl/src/ulogctl_srv.c:52-242. *)
Inductive seen := Asked (r : req) (accepted : bool) | Handled (r : req) | Own (reg : list cookie) | Told (l : list out).

(** The messages given to pomp_ctx_send_msg by a step of the client.
    libulogctl/src/ulogctl_cli.c:143-177 and 380-547. *)
Definition sends (l : list out) : list req := flat_map (fun o => match o with Send r => [r] | _ => [] end) l.
(** The result 0 of libulogctl/src/ulogctl_cli.c:380-547. *)
Definition accepts (l : list out) : bool := existsb (fun o => match o with Ret e => e =? 0 | _ => false end) l.

(** A step of the client, with what it sends put on its way. libulogctl/src/ulogctl_cli.c:124-244 and 335-547. *)
Definition client (cb : callback) (y : sys) (o : op) : M (sys * list out) :=
  let* (k, l) := Ctl.step cb (y_cli y) o in
  Ok (mkSys k (y_reg y) (y_up y ++ sends l) (y_down y) (y_sends y + length (sends l)), l).

(** libulogctl/src/ulogctl_cli.c:124-244 and libulogctl/src/ulogctl_srv.c:222-266, joined by libpomp. *)
Definition sys_step (cb : callback) (y : sys) (m : move) : M (sys * list seen) :=
  match m with
  | MStart => let* (y, _) := client cb y (AStart 0) in Ok (y, [])
  | MConnect =>
    match k_state (y_cli y) with
    | Connecting => let* (y, _) := client cb y (EConnected 0) in Ok (y, [])
    | _ => Ok (y, [])
    end
  | MAsk r => let* (y, l) := client cb y (AReq r true 0 0) in Ok (y, [Asked r (accepts l)])
  | MSent =>
    match y_sends y with
    | O => Ok (y, [])
    | S n => let* (y, l) := client cb (mkSys (y_cli y) (y_reg y) (y_up y) (y_down y) n) (ESendDone true) in Ok (y, [Told l])
    end
  | MServe =>
    match y_up y with
    | [] => Ok (y, [])
    | r :: up => let '(reg, a) := srv_msg (y_reg y) (Some r) in
                 Ok (mkSys (y_cli y) reg up (y_down y ++ map snd a) (y_sends y), [Handled r])
    end
  | MReceive =>
    match y_down y with
    | [] => Ok (y, [])
    | a :: down => let* (y, l) := client cb (mkSys (y_cli y) (y_reg y) (y_up y) down (y_sends y)) (EMsg a true) in Ok (y, [Told l])
    end
  | MOwn reg => Ok (mkSys (y_cli y) reg (y_up y) (y_down y) (y_sends y), [Own reg])
  end.

(** No code: a sequence of moves of the client, the server and libpomp, libulogctl/src/ulogctl_cli.c and ulogctl_srv.c. *)
Fixpoint sys_run (cb : callback) (y : sys) (ms : list move) : M (sys * list seen) :=
  match ms with
  | [] => Ok (y, [])
  | m :: ms =>
    let* (y, t) := sys_step cb y m in
    let* (y, t2) := sys_run cb y ms in Ok (y, t ++ t2)
  end.
