(** Model of the level control library: the client libulogctl/src/ulogctl_cli.c and the server
    libulogctl/src/ulogctl_srv.c. The library libpomp is an oracle: its results and its events are
    arguments of the operations. Calls with NULL arguments (answered with EINVAL) are left out. *)
From Coq Require Import ZArith String List Bool.
From Verif Require Import Bytes.
Import ListNotations.
Open Scope Z_scope.

(** Error of libulogctl/src/ulogctl_cli.c:380-547. *)
Definition EPERM := 1.
(** Error of libulogctl/src/ulogctl_cli.c:335-547. *)
Definition EBUSY := 16.
(** Error of libulogctl/src/ulogctl_cli.c:270-547. *)
Definition ENOMEM := 12.

(** Requests: the messages SET_TAG_LEV, SET_ALL_LEV and LIST_TAGS, libulogctl/src/ulogctl_priv.h:79-118. *)
Inductive req := RSetTag (tag : list Z) (level : Z) | RSetAll (level : Z) | RList.

(** Answers of the server: TAG_INFO and TAG_LIST_END, libulogctl/src/ulogctl_priv.h:95-109. The name is
    [None] when pomp_msg_read fails. [WOther]: another message id. *)
Inductive answer := WTagInfo (name : option (list Z)) (level : Z) | WListEnd | WOther.

(** ** Client *)

(** enum ulogctl_cli_state, libulogctl/src/ulogctl_cli.c:34-38. *)
Inductive cstate := Idle | Connecting | Connected.

(** struct ulogctl_cli, libulogctl/src/ulogctl_cli.c:47-63: state, msg, tags. *)
Record cli := mkCli { k_state : cstate; k_msg : option req; k_tags : list (option (list Z) * Z) }.
(** The client made by ulogctl_cli_new, libulogctl/src/ulogctl_cli.c:270-319. *)
Definition cli_new : cli := mkCli Idle None [].

(** What can be seen: result of an API call, request_status and tag_info callbacks, message given to
    pomp_ctx_send_msg. At libulogctl/src/ulogctl_cli.c:65-378. *)
Inductive out := Ret (r : Z) | Status (done : bool) | TagInfo (name : option (list Z)) (level : Z) | Send (r : req).

(** Calls and events; [sres]: result of pomp_ctx_send_msg, [wres]: of pomp_msg_write, [new]: whether
    pomp_msg_new succeeds, [mem]: whether realloc succeeds; [sent]: status given to send_cb.
    Functions of libulogctl/src/ulogctl_cli.c:65-547. *)
Inductive op :=
  | AStart (cres : Z) | AStop
  | AReq (r : req) (new : bool) (wres sres : Z)
  | EConnected (sres : Z) | EDisconnected | ESendDone (sent : bool) | EMsg (m : answer) (mem : bool).

(** What the application does in the request_status callback: calls of the API, so a change of the client
    and outputs. Called at libulogctl/src/ulogctl_cli.c:102-122, 210-244 and 356-378. *)
Definition callback := cli -> cli * list out.

(** The three steps "notify, destroy the message, msg = NULL", libulogctl/src/ulogctl_cli.c:109-111,
    226-228, 231-233, 366-370. *)
Definition finish (cb : callback) (k : cli) (done : bool) : cli * list out :=
  let '(k, o) := cb k in (mkCli (k_state k) None (k_tags k), Status done :: o).

(** ulogctl_cli_stop, libulogctl/src/ulogctl_cli.c:356-378. *)
Definition cli_stop (cb : callback) (k : cli) : cli * list out :=
  match k_state k with
  | Idle => (k, [])
  | _ =>
    let k := mkCli Idle (k_msg k) (k_tags k) in
    match k_msg k with Some _ => finish cb k false | None => (k, []) end
  end.

(** strcmp on names, unsigned bytes. C library; used at libulogctl/src/ulogctl_cli.c:93-100. *)
Fixpoint strcmp (a b : list Z) : Z :=
  match a, b with
  | [], [] => 0
  | [], y :: _ => - y
  | x :: _, [] => x
  | x :: a, y :: b => if x =? y then strcmp a b else x - y
  end.

(** sort_increasing_name, libulogctl/src/ulogctl_cli.c:93-100; a NULL name is dereferenced. *)
Definition cmp_name (a b : option (list Z) * Z) : M Z :=
  match fst a, fst b with Some x, Some y => Ok (strcmp x y) | _, _ => Bug Oob end.

(** qsort, libulogctl/src/ulogctl_cli.c:113-115, as an insertion sort (the order among equal names is not
    specified by qsort). *)
Fixpoint insert (x : option (list Z) * Z) (l : list (option (list Z) * Z)) : M (list (option (list Z) * Z)) :=
  match l with
  | [] => Ok [x]
  | y :: r => let* c := cmp_name x y in if c <=? 0 then Ok (x :: y :: r) else let* r := insert x r in Ok (y :: r)
  end.
(** The sort itself, libulogctl/src/ulogctl_cli.c:113-115. *)
Fixpoint qsort (l : list (option (list Z) * Z)) : M (list (option (list Z) * Z)) :=
  match l with [] => Ok [] | x :: l => let* l := qsort l in insert x l end.

(** decode_list_end_msg, libulogctl/src/ulogctl_cli.c:102-122. *)
Definition list_end (cb : callback) (k : cli) : M (cli * list out) :=
  let '(k, o) := finish cb k true in
  let* tags := qsort (k_tags k) in
  Ok (mkCli (k_state k) (k_msg k) tags, o ++ map (fun t => TagInfo (fst t) (snd t)) tags).

(** decode_tag_info_msg, libulogctl/src/ulogctl_cli.c:65-91. *)
Definition tag_info (k : cli) (name : option (list Z)) (level : Z) (mem : bool) : cli :=
  if mem then mkCli (k_state k) (k_msg k) (k_tags k ++ [(name, level)]) else k.

(** ulogctl_cli_set_tag_level, ulogctl_cli_set_all_level and ulogctl_cli_list,
    libulogctl/src/ulogctl_cli.c:380-547: the same code but for the message, and for the list of tags
    cleared by the last one (lines 513-516). *)
Definition cli_request (k : cli) (r : req) (new : bool) (wres sres : Z) : cli * list out :=
  match k_state k with
  | Idle => (k, [Ret (- EPERM)])
  | st =>
    match k_msg k with
    | Some _ => (k, [Ret (- EBUSY)])
    | None =>
      if negb new then (k, [Ret (- ENOMEM)])
      else
        let tags := match r with RList => [] | _ => k_tags k end in
        if wres <? 0 then (mkCli st None tags, [Ret wres])
        else match st with
             | Connected => if sres <? 0 then (mkCli st None tags, [Send r; Ret sres]) else (mkCli st (Some r) tags, [Send r; Ret 0])
             | _ => (mkCli st (Some r) tags, [Ret 0])
             end
    end
  end.

(** connected and send_msg, libulogctl/src/ulogctl_cli.c:143-177. *)
Definition cli_connected (k : cli) (sres : Z) : cli * list out :=
  match k_state k with
  | Connecting =>
    match k_msg k with
    | Some r => (mkCli Connected (if sres <? 0 then None else Some r) (k_tags k), [Send r])
    | None => (mkCli Connected None (k_tags k), [])
    end
  | _ => (k, [])
  end.

(** send_cb, libulogctl/src/ulogctl_cli.c:210-244; its status is not looked at. The default case of the
    switch cannot happen: only the three messages are ever stored. *)
Definition send_cb (cb : callback) (k : cli) : cli * list out :=
  match k_msg k with
  | None | Some RList => (k, [])
  | Some _ => finish cb k true
  end.

(** One operation; event_cb and process_msg, libulogctl/src/ulogctl_cli.c:124-141 and 179-208;
    ulogctl_cli_start, 335-354. *)
Definition step (cb : callback) (k : cli) (o : op) : M (cli * list out) :=
  match o with
  | AStart cres =>
    match k_state k with
    | Idle => Ok (mkCli Connecting (k_msg k) (k_tags k), [Ret (if cres <? 0 then cres else 0)])
    | _ => Ok (k, [Ret (- EBUSY)])
    end
  | AStop => let '(k, l) := cli_stop cb k in Ok (k, l ++ [Ret 0])
  | AReq r new wres sres => Ok (cli_request k r new wres sres)
  | EConnected sres => Ok (cli_connected k sres)
  | EDisconnected => Ok (cli_stop cb k)
  | ESendDone _ => Ok (send_cb cb k)
  | EMsg (WTagInfo n l) mem => Ok (tag_info k n l mem, [])
  | EMsg WListEnd _ => list_end cb k
  | EMsg WOther _ => Ok (k, [])
  end.

(** A run: what is seen, operation by operation.
    No code: a sequence of calls and events, libulogctl/src/ulogctl_cli.c:65-547. *)
Fixpoint run (cb : callback) (k : cli) (ops : list op) : M (cli * list (op * list out)) :=
  match ops with
  | [] => Ok (k, [])
  | o :: ops =>
    let* (k, l) := step cb k o in
    let* (k, t) := run cb k ops in Ok (k, (o, l) :: t)
  end.

(** ** Server *)

(** The registered cookies in the order of ulog_foreach (libulog/ulog_write.c:283-307, see Cookies.v):
    default cookie or not, name, level. *)
Record cookie := mkCookie { c_default : bool; c_name : list Z; c_level : Z }.

(** ulog_set_level on a registered cookie, libulog/ulog_write.c:474-487. *)
Definition set_level (c : cookie) (level : Z) : cookie :=
  mkCookie (c_default c) (c_name c) (if level <? 0 then 0 else if level >? 7 then 7 else level).

(** ulog_set_tag_level, libulog/ulog_write.c:494-515: the first cookie with the name. *)
Fixpoint set_tag_level (reg : list cookie) (tag : list Z) (level : Z) : list cookie :=
  match reg with
  | [] => []
  | c :: reg => if bytes_eqb (c_name c) tag then set_level c level :: reg else c :: set_tag_level reg tag level
  end.

(** The answers of the server: to the connection of the request or to all connections.
    pomp_conn_send and pomp_ctx_send, libulogctl/src/ulogctl_srv.c:109-219. *)
Inductive dest := Requester | Everyone.

(** process_msg of the server, libulogctl/src/ulogctl_srv.c:52-242; [None]: a message that cannot be
    decoded or of another id. Levels travel as unsigned 32-bit numbers. *)
Definition srv_msg (reg : list cookie) (m : option req) : list cookie * list (dest * answer) :=
  match m with
  | None => (reg, [])
  | Some (RSetTag tag level) => (set_tag_level reg tag (s32 (u32 level)), [])
  | Some (RSetAll level) => (map (fun c => if c_default c then c else set_level c (s32 (u32 level))) reg, [])
  | Some RList =>
    (reg, map (fun c => (Requester, WTagInfo (Some (c_name c)) (s32 (u32 (c_level c))))) (filter (fun c => negb (c_default c)) reg)
          ++ [(Everyone, WListEnd)])
  end.
