(** Model of the loop and the callbacks of the tool ulogctl (libulogctl/tool/ulogctl.c) on top of a
    connected client and server (CtlSys.v): property C132. Options: CtlTool.v. *)
From Coq Require Import ZArith String List Bool.
From Verif Require Import Bytes Ctl CtlSys CtlTool.
Import ListNotations.
Open Scope Z_scope.

(** level_to_color with COLOR_RED and so on, libulogctl/tool/ulogctl.c:38-43 and 201-212. *)
Definition esc (s : string) : list Z := 27 :: bytes_of_string s.
(** libulogctl/tool/ulogctl.c:38-43. *)
Definition COLOR_RESET : list Z := esc "[0m".
(** libulogctl/tool/ulogctl.c:201-212. *)
Definition level_to_color (l : Z) : list Z :=
  match l with 2 => esc "[00;91m" | 3 => esc "[00;91m" | 4 => esc "[00;93m" | 5 => esc "[00;92m" | 6 => esc "[00;94m" | 7 => esc "[00;95m"
             | _ => COLOR_RESET end.

(** request_status_cb and tag_info_cb, libulogctl/tool/ulogctl.c:188-199 and 214-227: the bytes
    written to the standard error stream; [%s] of a NULL pointer as glibc prints it. *)
Definition shown (color : bool) (o : Ctl.out) : list Z :=
  match o with
  | Status true => []
  | Status false => bytes_of_string "Error occurred." ++ [10]
  | TagInfo n l =>
    let tag := match n with Some n => n | None => bytes_of_string "(null)" end in
    (if color then level_to_color l else []) ++ [91; level2char l; 93; 32] ++ tag ++ (if color then COLOR_RESET else []) ++ [10]
  | Ret _ | Send _ => []
  end.
(** The bytes for a record of CtlSys.v, libulogctl/tool/ulogctl.c:188-227. *)
Definition shows (color : bool) (tr : list seen) : list Z :=
  flat_map (fun x => match x with Told l => flat_map (shown color) l | _ => [] end) tr.
(** app->stopped, libulogctl/tool/ulogctl.c:198: set by each request_status_cb. *)
Definition stops (tr : list seen) : bool :=
  existsb (fun x => match x with Told l => existsb (fun o => match o with Status _ => true | _ => false end) l | _ => false end) tr.

(** The application makes no request in its callbacks. libulogctl/tool/ulogctl.c:188-199. *)
Definition cb0 : callback := fun k => (k, []).

(** The loop of main, libulogctl/tool/ulogctl.c:432-433: [rounds]: what happens in each call of
    pomp_loop_wait_and_process. The result: the system, the bytes written, and whether the loop ended
    (then main returns 0, line 452). *)
Fixpoint loop (color : bool) (y : sys) (rounds : list (list move)) : M (sys * list Z * bool) :=
  match rounds with
  | [] => Ok (y, [], false)
  | ms :: rounds =>
    let* (y, tr) := sys_run cb0 y ms in
    if stops tr then Ok (y, shows color tr, true)
    else let* (y, text, e) := loop color y rounds in Ok (y, shows color tr ++ text, e)
  end.
(** main from ulogctl_cli_start on, libulogctl/tool/ulogctl.c:409-433, for the request [r] (CtlTool.request). *)
Definition tool (color : bool) (reg : list cookie) (r : req) (rounds : list (list move)) : M (sys * list Z * bool) :=
  let* (y, _) := sys_run cb0 (sys_new reg) [MStart; MAsk r] in
  loop color y rounds.
