(** Model of the example control server, libulogctl/examples/ulogctl-srv.c, and of the inet address of
    libulogctl/src/ulogctl_srv.c: property C133. The library server: Ctl.v; addresses: CtlTool.v. *)
From Coq Require Import ZArith String List Bool.
From Verif Require Import Bytes Ctl CtlTool.
From Verif Require CatOpen.
Import ListNotations.
Open Scope Z_scope.

(** ulogctl_srv_new_inet, libulogctl/src/ulogctl_srv.c:304-317: a struct sockaddr_in of 16 bytes; htons
    takes the low 16 bits of the port and stores them with the high byte first. *)
Definition srv_new_inet (port : Z) (pomp : bool) : M (Z * option (list Z)) :=
  srv_new ([2; 0] ++ [(port mod 65536) / 256; port mod 256] ++ zrepeat 0 4 ++ zrepeat 0 8) 16 pomp.

(** ** The command line *)

(** What getopt_long finds. libulogctl/examples/ulogctl-srv.c:130-154. *)
Inductive sopt := PHelp | PInet (a : list Z) | PUnix (a : list Z) | PProcess | PBad.
(** port, sock and process of main, libulogctl/examples/ulogctl-srv.c:111-113. *)
Record svars := mkSvars { s_port : Z; s_sock : option (list Z); s_process : bool }.
(** The loop over the options, libulogctl/examples/ulogctl-srv.c:130-158; [inl]: exit with this code. *)
Fixpoint soptions (W : Z) (v : svars) (l : list sopt) : M (Z + svars) :=
  match l with
  | [] => Ok (inr v)
  | PHelp :: _ => Ok (inl 0)
  | PInet a :: l => let* p := CatOpen.atoi W a in soptions W (mkSvars p (s_sock v) (s_process v)) l
  | PUnix a :: l => soptions W (mkSvars (s_port v) (Some a) (s_process v)) l
  | PProcess :: l => soptions W (mkSvars (s_port v) (s_sock v) true) l
  | PBad :: _ => Ok (inl (-1))
  end.
(** How main goes on, libulogctl/examples/ulogctl-srv.c:160-207: it ends, or it runs the loop with a server that
    listens at this address. [comm]: name of the thread; [pomp]: whether the context is created;
    [listen]: result of pomp_ctx_listen; ulogctl_srv_start refuses a NULL server. The timer is started. *)
Inductive start_of := Ends (code : Z) | Serves (addr : list Z).
(** main after its options, libulogctl/examples/ulogctl-srv.c:156-238. *)
Definition smain (W : Z) (l : list sopt) (comm : list Z) (pomp : bool) (listen : Z) : M start_of :=
  let* r := soptions W (mkSvars (-1) None false) l in
  match r with
  | inl c => Ok (Ends c)
  | inr v =>
    let* (res, srv) := match s_sock v with
                       | Some s => srv_new_unix s pomp
                       | None => if negb (s_port v =? -1) then srv_new_inet (s_port v) pomp
                                 else if s_process v then srv_new_unix_proc comm pomp else Ok (-1, None)
                       end in
    Ok (if res <? 0 then Ends 0
        else match srv with None => Ends 0 | Some a => if listen <? 0 then Ends 0 else Serves a end)
  end.

(** ** The loop *)

(** What happens: the timer, a signal with its name (strsignal), a connection, the end of one, a message
    that decodes, one with an unknown number.
    libulogctl/examples/ulogctl-srv.c:80-102 and libulogctl/src/ulogctl_srv.c:222-266. *)
Inductive sev := VTick | VSignal (n : Z) (nm : list Z) | VConnected | VDisconnected | VMsg (r : req) | VUnknown (id : Z).
(** An execution of a logging macro: tag, its level then, priority, text. libulog/include/ulog.h:500-508. *)
Record exec := mkExec { x_tag : list Z; x_level : Z; x_prio : Z; x_text : list Z }.
(** The cookies of the process and the log_id of struct app, libulogctl/examples/ulogctl-srv.c:41-47. *)
Record srv_app := mkApp { a_reg : list cookie; a_id : Z }.

(** The tags ULOG_TAG of libulogctl/examples/ulogctl-srv.c:29 and of the library
    (libulogctl/src/ulogctl_log.c). *)
Definition APP : list Z := bytes_of_string "ulogctl_srv_app".
(** The tag of libulogctl, libulogctl/src/ulogctl_log.c:23. *)
Definition LIB : list Z := bytes_of_string "ulogctl".
(** The cookie of a tag, made known by its first use with the level [env] that the environment gives it:
    ulog_log and ulog_init_cookie, libulog/include/ulog.h:500-508 and libulog/ulog_write.c:364-418. One cookie per
    name. *)
Definition use (env : list Z -> Z) (reg : list cookie) (tag : list Z) : list cookie :=
  if existsb (fun c => bytes_eqb (c_name c) tag) reg then reg else mkCookie false tag (env tag) :: reg.
(** cookie->level of the cookie of a tag, libulog/include/ulog.h:500-508. *)
Fixpoint level_of (reg : list cookie) (tag : list Z) : Z :=
  match reg with [] => -1 | c :: reg => if bytes_eqb (c_name c) tag then c_level c else level_of reg tag end.
(** A logging macro. libulog/include/ulog.h:500-508. *)
Definition say (env : list Z -> Z) (reg : list cookie) (tag : list Z) (prio : Z) (text : list Z) : list cookie * exec :=
  let reg := use env reg tag in (reg, mkExec tag (level_of reg tag) prio text).
(** Several of them one after the other, as at libulogctl/examples/ulogctl-srv.c:80-92. *)
Fixpoint says (env : list Z -> Z) (reg : list cookie) (tag : list Z) (l : list (Z * list Z)) : list cookie * list exec :=
  match l with
  | [] => (reg, [])
  | (p, t) :: l => let (reg, x) := say env reg tag p t in let (reg, xs) := says env reg tag l in (reg, x :: xs)
  end.
(** timer_cb, libulogctl/examples/ulogctl-srv.c:79-93: log_id is an int. *)
Definition tick_lines (id : Z) : list (Z * list Z) :=
  let t s := bytes_of_string "log " ++ bytes_of_string s ++ [32] ++ dec_d id in
  [(7, t "debug"%string); (6, t "info"%string); (5, t "normal"%string); (4, t "warning"%string); (3, t "error"%string); (2, t "critical"%string)].
(** decode_set_tag_level_msg, libulogctl/src/ulogctl_srv.c:70-74: ulog_set_tag_level returns -1 for an unknown
    tag; strerror as glibc has it. *)
Definition refusal (tag : list Z) (level : Z) : list Z :=
  bytes_of_string "Failed to set the tag " ++ [34] ++ tag ++ [34] ++ bytes_of_string " to the level (" ++ dec_d level ++
  bytes_of_string ") err=1(Operation not permitted)".
(** Does ulog_set_tag_level find the tag, libulog/ulog_write.c:494-515. *)
Definition known (reg : list cookie) (tag : list Z) : bool := existsb (fun c => bytes_eqb (c_name c) tag) reg.
(** One event: timer_cb; sig_handler, libulogctl/examples/ulogctl-srv.c:97-103; event_cb and process_msg,
    libulogctl/src/ulogctl_srv.c:222-266. *)
Definition sevent (env : list Z -> Z) (a : srv_app) (e : sev) : M (srv_app * list exec) :=
  let ret tag l := let (reg, xs) := says env (a_reg a) tag l in Ok (mkApp reg (a_id a), xs) in
  match e with
  | VTick =>
    let (reg, xs) := says env (a_reg a) APP (tick_lines (a_id a)) in
    if a_id a + 1 >=? 2 ^ 31 then Bug Oob else Ok (mkApp reg (a_id a + 1), xs)
  | VSignal n nm => ret APP [(6, bytes_of_string "signal " ++ dec_d n ++ [40] ++ nm ++ [41] ++ bytes_of_string " received")]
  | VConnected => ret LIB [(7, bytes_of_string "POMP_EVENT_CONNECTED ...")]
  | VDisconnected => ret LIB [(7, bytes_of_string "POMP_EVENT_DISCONNECTED ...")]
  | VMsg (RSetTag tag level) =>
    if known (a_reg a) tag then Ok (mkApp (fst (srv_msg (a_reg a) (Some (RSetTag tag level)))) (a_id a), [])
    else ret LIB [(3, refusal tag (s32 (u32 level)))]
  | VMsg r => Ok (mkApp (fst (srv_msg (a_reg a) (Some r))) (a_id a), [])
  | VUnknown id => ret LIB [(3, bytes_of_string "Message id unknown (" ++ dec_d id ++ [41])]
  end.
(** The loop of main, libulogctl/examples/ulogctl-srv.c:205-207, up to the signal that ends it. *)
Fixpoint sloop (env : list Z -> Z) (a : srv_app) (l : list sev) : M (srv_app * list (sev * list exec)) :=
  match l with
  | [] => Ok (a, [])
  | e :: l => let* (a, xs) := sevent env a e in let* (a, t) := sloop env a l in Ok (a, (e, xs) :: t)
  end.
