(** Model of the memory of the level control library: what libulogctl/src/ulogctl_cli.c and
    libulogctl/src/ulogctl_srv.c allocate and free, and how clients and servers are made, started,
    stopped and destroyed. What they say is Ctl.v. *)
From Coq Require Import ZArith List Bool.
From Verif Require Import Bytes Ctl.
Import ListNotations.
Open Scope Z_scope.

(** Blocks that are allocated: the object, its pomp context, messages, names that pomp_msg_read gives
    for "%ms" (libulogctl/src/ulogctl_priv.h:86 and 102: the caller frees them), arrays of tags. *)
Record heap := mkHeap { p_self : Z; p_ctx : Z; p_msg : Z; p_name : Z; p_tags : Z }.
(** Nothing allocated: before libulogctl/src/ulogctl_cli.c:270-319. *)
Definition empty : heap := mkHeap 0 0 0 0 0.
(** pomp_msg_new and pomp_msg_destroy, as at libulogctl/src/ulogctl_cli.c:380-547. *)
Definition add_msg (h : heap) (n : Z) : heap := mkHeap (p_self h) (p_ctx h) (p_msg h + n) (p_name h) (p_tags h).
(** A name allocated by %ms, libulogctl/src/ulogctl_priv.h:86 and 102. *)
Definition add_name (h : heap) (n : Z) : heap := mkHeap (p_self h) (p_ctx h) (p_msg h) (p_name h + n) (p_tags h).
(** realloc of the array of tags, libulogctl/src/ulogctl_cli.c:66-91. *)
Definition set_tags (h : heap) (n : Z) : heap := mkHeap (p_self h) (p_ctx h) (p_msg h) (p_name h) n.

(** ** Client *)
(** pomp_msg_destroy(self->msg), as in libulogctl/src/ulogctl_cli.c:110; nothing for NULL. *)
Definition free_msg (k : cli) (h : heap) : heap := match k_msg k with Some _ => add_msg h (-1) | None => h end.
(** What an operation of Ctl.step does to the memory, for a callback that does not call the library:
    libulogctl/src/ulogctl_cli.c:65-91 (names and tags), 102-122, 143-177, 210-244, 356-378, 380-547
    (513-516: the array of tags is freed, the names are not). *)
Definition cli_mem (k : cli) (h : heap) (o : op) : heap :=
  match o with
  | AStart _ => h
  | AStop | EDisconnected => match k_state k with Idle => h | _ => free_msg k h end
  | AReq r new wres sres =>
    match k_state k, k_msg k with
    | Idle, _ | _, Some _ => h
    | st, None =>
      if negb new then h else
      let h := add_msg h 1 in
      let h := match r with RList => set_tags h 0 | _ => h end in
      if wres <? 0 then add_msg h (-1)
      else match st with Connected => if sres <? 0 then add_msg h (-1) else h | _ => h end
    end
  | EConnected sres =>
    match k_state k, k_msg k with Connecting, Some _ => if sres <? 0 then free_msg k h else h | _, _ => h end
  | ESendDone _ => match k_msg k with None | Some RList => h | Some _ => free_msg k h end
  | EMsg (WTagInfo n _) mem =>
    let h := match n with Some _ => add_name h 1 | None => h end in if mem then set_tags h 1 else h
  | EMsg WListEnd _ => free_msg k h
  | EMsg WOther _ => h
  end.
(** The callback of the application: nothing that concerns the library.
    See libulogctl/src/ulogctl_cli.c:103-122. *)
Definition no_calls : callback := fun k => (k, []).
(** No code: a sequence of calls and events of libulogctl/src/ulogctl_cli.c. *)
Fixpoint cli_run (k : cli) (h : heap) (ops : list op) : M (cli * heap) :=
  match ops with
  | [] => Ok (k, h)
  | o :: ops => let* (k', _) := step no_calls k o in cli_run k' (cli_mem k h o) ops
  end.
(** ulogctl_cli_new, libulogctl/src/ulogctl_cli.c:271-320; [mem]: calloc; [ctx]: pomp_ctx_new_with_loop
    works; [cbr]: the result of pomp_ctx_set_send_cb. Arguments are not NULL. On error it destroys what
    it made: pomp_ctx_destroy(NULL) does nothing. The address is CtlTool.v. *)
Definition cli_create (mem ctx : bool) (cbr : Z) : Z * option (cli * heap) * heap :=
  if negb mem then (- ENOMEM, None, empty) else
  if negb ctx then (- ENOMEM, None, empty) else
  if cbr <? 0 then (cbr, None, empty) else
  (0, Some (cli_new, mkHeap 1 1 0 0 0), mkHeap 1 1 0 0 0).
(** ulogctl_cli_destroy, libulogctl/src/ulogctl_cli.c:322-333; [r]: the result of pomp_ctx_destroy,
    negative when the context is not destroyed. *)
Definition destroy (r : Z) (h : heap) : heap := mkHeap (p_self h - 1) (if r <? 0 then p_ctx h else p_ctx h - 1) (p_msg h) (p_name h) (p_tags h).

(** ** Server *)
(** One request: decode_set_tag_level_msg allocates the name and does not free it,
    libulogctl/src/ulogctl_srv.c:52-73; the messages of an answer are made and destroyed
    within 108-186, so they are not counted. *)
Definition srv_mem (h : heap) (m : option req) : heap :=
  match m with Some (RSetTag _ _) => add_name h 1 | _ => h end.
(** ulogctl_srv_new, start, stop and destroy, libulogctl/src/ulogctl_srv.c:266-297 and 361-415. What is
    seen: calls of pomp_ctx_listen and pomp_ctx_stop with their results, and what was returned. *)
Inductive sop := SStart (lres : Z) | SStop (sres : Z) | SMsg (m : option req).
(** Calls of pomp_ctx_listen and pomp_ctx_stop, results of the functions at libulogctl/src/ulogctl_srv.c:366-415. *)
Inductive sout := Listen (r : Z) | Unlisten (r : Z) | SRet (r : Z).
(** struct ulogctl_srv: the field started; and its memory, libulogctl/src/ulogctl_srv.c:41-50. *)
Record srv := mkSrv { s_started : bool; s_heap : heap }.
(** libulogctl/src/ulogctl_srv.c:53-74 and 366-415. *)
Definition srv_step (s : srv) (o : sop) : srv * list sout :=
  match o with
  | SStart r =>
    if s_started s then (s, [SRet (- EBUSY)])
    else if r <? 0 then (s, [Listen r; SRet r])
    else (mkSrv true (s_heap s), [Listen r; SRet 0])
  | SStop r => if s_started s then (mkSrv false (s_heap s), [Unlisten r; SRet r]) else (s, [SRet 0])
  | SMsg m => (mkSrv (s_started s) (srv_mem (s_heap s) m), [])
  end.
(** No code: a sequence of calls and messages, libulogctl/src/ulogctl_srv.c. *)
Fixpoint srv_run (s : srv) (ops : list sop) : srv * list sout :=
  match ops with
  | [] => (s, [])
  | o :: ops => let (s, l) := srv_step s o in let (s, l') := srv_run s ops in (s, l ++ l')
  end.
(** After ulogctl_srv_new, libulogctl/src/ulogctl_srv.c:268-302. *)
Definition srv_made : srv := mkSrv false (mkHeap 1 1 0 0 0).
