(** Model of the output side of libulog/ulog_write.c: choice, initialisation and change of the
    output function, any number of threads.

    Steps have the granularity of one access to the shared variables ctrl.writer, ctrl.writer2,
    ctrl.fd and ctrl.device, one lock operation or one system call; memory is sequentially
    consistent.  The build is not _WIN32 and not ANDROID (ulog_is_android() is 0,
    libulog/ulog_common.h:38).  The environment does not change. *)
From Coq Require Import ZArith String List Bool Arith.
From Verif Require Import Bytes.
Import ListNotations.
Open Scope Z_scope.

(** A message given to an output function: [m_buf] is the [len] bytes of buf. libulog/ulog_write.c:82-130. *)
Record msg := mkMsg { m_prio : Z; m_tag : list Z; m_buf : list Z }.

(** Output functions, libulog/ulog_write.c: __writer_init 214-226, __writer_null 73-78,
    __writer_kernel 82-102, __writer_stderr_wrapper 153-161 and its color variant 133-150
    ([Stderr true]); [User f]: a function of the application. *)
Inductive wr := Init | Null | Kernel | Stderr (color : bool) | User (f : nat).

(** Environment variables: ULOG_STDERR and ULOG_STDERR_COLOR present or not, ULOG_DEVICE.
    Read at libulog/ulog_write.c:167-212. *)
Record env := mkEnv { e_stderr : bool; e_color : bool; e_device : option (list Z) }.

(** ** vsnprintf and ulog_vlog_write *)

(** vsnprintf(buf, size, ...) of a format producing [text] ([None]: output error) into [buf]:
    the result and the new content of buf. Used at libulog/ulog_write.c:422-435. *)
Definition vsnprintf (buf : list Z) (text : option (list Z)) : M (Z * list Z) :=
  match text with
  | None => Ok (-1, buf)
  | Some x =>
    if zlen x >? 2147483647 then Ok (-1, buf)   (* EOVERFLOW *)
    else let* b := mem_write buf 0 (ztake (zlen buf - 1) x ++ [0]) in Ok (zlen x, b)
  end.

(** ulog_vlog_write, libulog/ulog_write.c:422-435 ([stack]: initial content of buf, of
    ULOG_BUF_SIZE = 256 bytes, libulog/include/ulog.h:293); the bytes given to ctrl.writer, if
    it is called. *)
Definition ulog_vlog_write (stack : list Z) (text : option (list Z)) : M (option (list Z)) :=
  let bufsize := zlen stack in
  let* r := vsnprintf stack text in
  let '(ret, buf) := r in
  let ret := if ret >=? bufsize then bufsize - 1 else ret in
  if ret >=? 0 then (let* b := mem_read buf 0 (ret + 1) in Ok (Some b)) else Ok None.

(** ** The text printed on stderr *)
(** A C string has an end; as strlen needs it at libulog/ulog_write.c:447-455. *)
Definition has_nul (l : list Z) : bool := existsb (fun b => b =? 0) l.

(** priotab, libulog/ulog_write.c:138-147 and 156-158 (\e is 27). *)
Definition prio_text (color : bool) (prio : Z) : list Z :=
  let plain := match Z.land prio 7 with
               | 2 => "C"%string | 3 => "E"%string | 4 => "W"%string | 5 => "N"%string | 6 => "I"%string | 7 => "D"%string
               | _ => " "%string
               end in
  let attr := match Z.land prio 7 with
              | 2 => "[7;31m"%string | 3 => "[1;31m"%string | 4 => "[1;33m"%string | 5 => "[1;32m"%string
              | 6 => "[1;35m"%string | _ => "[1;36m"%string
              end in
  if negb color || (Z.land prio 7 <? 2) then bytes_of_string plain
  else 27 :: bytes_of_string attr ++ bytes_of_string plain ++ 27 :: bytes_of_string "[0m".

(** "%03lu" of a value below 1000. As at libulog/ulog_write.c:112-130. *)
Definition dec3 (v : Z) : list Z := [48 + v / 100 mod 10; 48 + v / 10 mod 10; 48 + v mod 10].

(** ULOG_PRIO_BINARY_SHIFT, libulog/include/ulog.h:419; tested at libulog/ulog_write.c:112-130. *)
Definition is_binary (prio : Z) : bool := Z.testbit prio 7.

(** The fprintf calls of __writer_stderr, libulog/ulog_write.c:121-129; [replay]: the timestamp
    given to writer_update_replay_timestamp.  %s reads the message up to its first NUL. *)
Definition stderr_text (replay : option (Z * Z)) (color : bool) (m : msg) : M (list Z) :=
  let buf := m_buf m in
  let nl := if (2 <=? zlen buf) && (znth (zlen buf - 2) buf =? 10) then [] else [10] in
  if has_nul buf then
    Ok ((match replay with Some (sec, nsec) => dec_d sec ++ [46] ++ dec3 (nsec / 1000000) ++ [32] | None => [] end)
        ++ prio_text color (m_prio m) ++ [32] ++ m_tag m ++ [58; 32] ++ cstr buf ++ nl)
  else Bug Oob.

(** ** Threads *)

(** Calls. libulog/ulog_write.c:228-270, 309-339 and 422-465. *)
Inductive call :=
  | WLog (m : msg)             (* ctrl.writer(...), libulog/ulog_write.c:434, 454, 464 *)
  | WSet (w : wr)              (* ulog_set_write_func, non NULL function *)
  | WGet                       (* ulog_get_write_func *)
  | WDev (n : list Z)          (* ulog_set_log_device, non NULL *)
  | WReplay (sec nsec : Z).    (* writer_update_replay_timestamp *)

(** What is initialising the writer: __writer_init (called through the wrappers [cols]) or
    ulog_get_write_func. libulog/ulog_write.c:214-226 and 254-270. *)
Inductive kont := KLog (cols : list bool) (m : msg) | KGet.

(** libulog/ulog_write.c:73-339. *)
Inductive pc :=
  | Idle
  | LRead (cols : list bool) (m : msg)            (* read of ctrl.writer, 225, 434, 454, 464 *)
  | LRun (w : wr) (cols : list bool) (m : msg)    (* w was called, from the wrappers [cols] *)
  | LPrint (cols : list bool) (m : msg)           (* return of the writer, then 118-129 for each wrapper *)
  | ILock (k : kont)                              (* 218, 258 *)
  | ITest (k : kont)                              (* 220, 260 *)
  | IOpen (k : kont)                              (* 174-186 *)
  | IStat (k : kont)                              (* 187-189 *)
  | IClose (k : kont)                             (* 190 *)
  | IFd (k : kont)                                (* 191 *)
  | IWriter (k : kont)                            (* 194-199 *)
  | IW2 (w : wr) (k : kont)                       (* 203-204 *)
  | IW1 (w : wr) (k : kont)                       (* 205-211 *)
  | IUnlock (cols : list bool) (m : msg)          (* 223 *)
  | GRead                                         (* 263-266 *)
  | GUnlock (w : option wr)                       (* 268-269 *)
  | SLock (w : wr)                                (* 235 *)
  | S2 (w : wr)                                   (* 238-239 *)
  | S1 (w : wr)                                   (* 240-248 *)
  | SUnlock                                       (* 250-251 *)
  | DLock (n : list Z)                            (* 317 *)
  | DDev (n : list Z)                             (* 319-326 *)
  | DTest                                         (* 328, 330 *)
  | DClose                                        (* 331 *)
  | DFd                                           (* 332 *)
  | DWr                                           (* 334 *)
  | DUnlock (r : Z)                               (* 337-338 *)
  | Crashed.                                      (* after undefined behaviour *)

(** ctrl, libulog/ulog_write.c:50-61. *)
Record state := mkState {
  s_lock : option nat;                 (* ctrl.lock *)
  s_fd : Z;                            (* ctrl.fd *)
  s_writer : wr;                       (* ctrl.writer *)
  s_writer2 : option wr;               (* ctrl.writer2, None for NULL *)
  s_device : option (list Z);          (* ctrl.device *)
  s_replay : option (Z * Z);           (* ctrl.replay_timestamp_set, ctrl.replay_timestamp *)
  s_th : nat -> pc
}.

(** Static initialiser, libulog/ulog_write.c:61-70. *)
Definition init : state := mkState None (-1) Init None None None (fun _ => Idle).

(** Final destination of a message. libulog/ulog_write.c:73-161. *)
Inductive dest := DNull | DKernel (fd : Z) | DUser (f : nat).

(** libulog/ulog_write.c:73-339. *)
Inductive event :=
  | EvCall (t : nat) (o : call)
  | EvDeliver (t : nat) (d : dest) (m : msg)      (* null writer, writev or function of the application *)
  | EvIntr (t : nat)                              (* writev fails with EINTR *)
  | EvStderr (t : nat) (l : list Z)               (* text printed on stderr *)
  | EvOpen (t : nat) (path : list Z) (fd : Z)     (* open returns fd *)
  | EvClose (t : nat) (fd : Z)
  | EvSetBegin (t : nat) (w : wr)                 (* ulog_set_write_func got the lock *)
  | EvSetEnd (t : nat)                            (* ... returns 0 *)
  | EvDevSet (t : nat) (n : list Z) (ok : bool)   (* ulog_set_log_device stored the name, or strdup failed *)
  | EvDevEnd (t : nat) (r : Z)                    (* ulog_set_log_device returns r *)
  | EvRet (t : nat)                               (* a message was written, or the replay time set *)
  | EvGot (t : nat) (w : option wr)               (* ulog_get_write_func returns w *)
  | EvCrash (t : nat).                            (* NULL function called, or read outside of a message *)

(** No code: an assignment to one element. *)
Definition upd {A : Type} (f : nat -> A) (i : nat) (v : A) : nat -> A := fun j => if Nat.eqb j i then v else f j.
(** No code: the next statement of a thread, libulog/ulog_write.c:73-339. *)
Definition goto (s : state) (t : nat) (p : pc) : state :=
  mkState (s_lock s) (s_fd s) (s_writer s) (s_writer2 s) (s_device s) (s_replay s) (upd (s_th s) t p).
(** ctrl.lock, libulog/ulog_write.c:50-61. *)
Definition set_lock (s : state) (l : option nat) : state :=
  mkState l (s_fd s) (s_writer s) (s_writer2 s) (s_device s) (s_replay s) (s_th s).
(** ctrl.fd, libulog/ulog_write.c:50-61. *)
Definition set_fd (s : state) (fd : Z) : state :=
  mkState (s_lock s) fd (s_writer s) (s_writer2 s) (s_device s) (s_replay s) (s_th s).
(** ctrl.writer, libulog/ulog_write.c:50-61. *)
Definition set_writer (s : state) (w : wr) : state :=
  mkState (s_lock s) (s_fd s) w (s_writer2 s) (s_device s) (s_replay s) (s_th s).
(** ctrl.writer2, libulog/ulog_write.c:50-61. *)
Definition set_writer2 (s : state) (w : wr) : state :=
  mkState (s_lock s) (s_fd s) (s_writer s) (Some w) (s_device s) (s_replay s) (s_th s).
(** ctrl.device, libulog/ulog_write.c:50-61. *)
Definition set_device (s : state) (d : option (list Z)) : state :=
  mkState (s_lock s) (s_fd s) (s_writer s) (s_writer2 s) d (s_replay s) (s_th s).
(** The time kept by writer_update_replay_timestamp, libulog/ulog_write.c:105-109. *)
Definition set_replay (s : state) (sec nsec : Z) : state :=
  mkState (s_lock s) (s_fd s) (s_writer s) (s_writer2 s) (s_device s) (Some (sec, nsec)) (s_th s).

(** What the system answers to the call a step makes: descriptor returned by open (negative on
    failure), whether fstat says it is a character device, whether strdup finds memory, whether
    writev is interrupted. At libulog/ulog_write.c:82-212. *)
Record answer := mkAns { a_fd : Z; a_chr : bool; a_mem : bool; a_intr : bool }.

(** DEV_MAX_LEN and DEV_NAME_MAX_LEN, libulog/ulog_write.c:163-165. *)
Definition DEV_MAX_LEN : Z := 32.
(** libulog/ulog_write.c:164. *)
Definition DEV_PREFIX : list Z := bytes_of_string "/dev/ulog_".
(** libulog/ulog_write.c:163-165. *)
Definition DEV_NAME_MAX_LEN : Z := DEV_MAX_LEN - zlen DEV_PREFIX - 1.

(** snprintf(devbuf, sizeof(devbuf), "%s%s", DEV_PREFIX, name), libulog/ulog_write.c:178-183. *)
Definition devbuf (name : list Z) : list Z := ztake (DEV_MAX_LEN - 1) (DEV_PREFIX ++ name).

(** The device path of __ctrl_init, libulog/ulog_write.c:175-184. *)
Definition dev_path (e : env) (s : state) : list Z :=
  match s_device s with
  | Some d => devbuf d
  | None => match e_device e with Some p => devbuf p | None => bytes_of_string "/dev/ulog_main" end
  end.

(** The test of libulog/ulog_write.c:254-270. *)
Definition is_init (w : wr) : bool := match w with Init => true | _ => false end.
(** No output function was set, libulog/ulog_write.c:167-212. *)
Definition is_null (w : wr) : bool := match w with Null => true | _ => false end.

(** Used at libulog/ulog_write.c:309-339. *)
Definition E2BIG := 7.

(** One transition of thread [t]; an idle thread starts call [o]; [a]: the answer of the system.
    libulog/ulog_write.c:73-339, as cited case by case. *)
Definition step (e : env) (s : state) (t : nat) (o : call) (a : answer) : state * list event :=
  match s_th s t with
  | Idle =>
      match o with
      | WLog m => (goto s t (LRead [] m), [EvCall t o])
      | WSet w => (goto s t (SLock w), [EvCall t o])
      | WGet => (goto s t (ILock KGet), [EvCall t o])
      | WDev n =>                                                       (* ulog_write.c:309-315 *)
          if zlen n >=? DEV_NAME_MAX_LEN then (s, [EvCall t o; EvDevEnd t (- E2BIG)])
          else (goto s t (DLock n), [EvCall t o])
      | WReplay sec nsec => (set_replay s sec nsec, [EvCall t o; EvRet t])   (* 105-109, one step *)
      end
  | LRead cols m => (goto s t (LRun (s_writer s) cols m), [])
  | LRun w cols m =>
      match w with
      | Init => (goto s t (ILock (KLog cols m)), [])                    (* __writer_init, 214 *)
      | Null => (goto s t (LPrint cols m), [EvDeliver t DNull m])       (* __writer_null, 73-78 *)
      | Kernel =>                                                       (* __writer_kernel, 98-101 *)
          if a_intr a then (s, [EvIntr t]) else (goto s t (LPrint cols m), [EvDeliver t (DKernel (s_fd s)) m])
      | User f => (goto s t (LPrint cols m), [EvDeliver t (DUser f) m])
      | Stderr c =>                                                     (* __writer_stderr, 115 *)
          match s_writer2 s with
          | Some w2 => (goto s t (LRun w2 (c :: cols) m), [])
          | None => (goto s t Crashed, [EvCrash t])
          end
      end
  | LPrint [] m => (goto s t Idle, [EvRet t])
  | LPrint (c :: cols) m =>
      if is_binary (m_prio m) then (goto s t (LPrint cols m), [])       (* 117-119 *)
      else match stderr_text (s_replay s) c m with
           | Ok l => (goto s t (LPrint cols m), [EvStderr t l])
           | Bug _ => (goto s t Crashed, [EvCrash t])
           end
  | ILock k => match s_lock s with
               | None => (goto (set_lock s (Some t)) t (ITest k), [])
               | Some _ => (s, [])
               end
  | ITest k => (goto s t (if is_init (s_writer s) then IOpen k
                          else match k with KLog cols m => IUnlock cols m | KGet => GRead end), [])
  (* __ctrl_init, 167-212 *)
  | IOpen k => (goto (set_fd s (a_fd a)) t (IStat k), [EvOpen t (dev_path e s) (a_fd a)])
  | IStat k => (goto s t (if (s_fd s >=? 0) && negb (a_chr a) then IClose k else IWriter k), [])
  | IClose k => (goto s t (IFd k), [EvClose t (s_fd s)])
  | IFd k => (goto (set_fd s (-1)) t (IWriter k), [])
  | IWriter k => (goto s t (IW2 (if s_fd s >=? 0 then Kernel else Null) k), [])
  | IW2 w k =>
      if e_stderr e || is_null w then (goto (set_writer2 s w) t (IW1 (Stderr (e_color e)) k), [])
      else (goto s t (IW1 w k), [])
  | IW1 w k => (goto (set_writer s w) t (match k with KLog cols m => IUnlock cols m | KGet => GRead end), [])
  | IUnlock cols m => (goto (set_lock s None) t (LRead cols m), [])
  (* ulog_get_write_func, 254-270 *)
  | GRead => (goto s t (GUnlock (if e_stderr e then s_writer2 s else Some (s_writer s))), [])
  | GUnlock w => (goto (set_lock s None) t Idle, [EvGot t w])
  (* ulog_set_write_func, 228-252 *)
  | SLock w => match s_lock s with
               | None => (goto (set_lock s (Some t)) t (S2 w), [EvSetBegin t w])
               | Some _ => (s, [])
               end
  | S2 w => if e_stderr e then (goto (set_writer2 s w) t (S1 (Stderr (e_color e))), [])
            else (goto s t (S1 w), [])
  | S1 w => (goto (set_writer s w) t SUnlock, [])
  | SUnlock => (goto (set_lock s None) t Idle, [EvSetEnd t])
  (* ulog_set_log_device, 309-339 *)
  | DLock n => match s_lock s with
               | None => (goto (set_lock s (Some t)) t (DDev n), [])
               | Some _ => (s, [])
               end
  | DDev n => if a_mem a then (goto (set_device s (Some n)) t DTest, [EvDevSet t n true])
              else (goto (set_device s None) t (DUnlock (- ENOMEM)), [EvDevSet t n false])
  | DTest => (goto s t (if negb (is_init (s_writer s)) then if s_fd s >? 0 then DClose else DWr else DUnlock 0), [])
  | DClose => (goto s t DFd, [EvClose t (s_fd s)])
  | DFd => (goto (set_fd s (-1)) t DWr, [])
  | DWr => (goto (set_writer s Init) t (DUnlock 0), [])
  | DUnlock r => (goto (set_lock s None) t Idle, [EvDevEnd t r])
  | Crashed => (s, [])
  end.

(** No code: interleaving of threads, libulog/ulog_write.c:73-339. *)
Fixpoint run (e : env) (s : state) (sched : list (nat * call * answer)) : state * list event :=
  match sched with
  | [] => (s, [])
  | (t, o, a) :: rest => let '(s1, e1) := step e s t o a in let '(s2, e2) := run e s1 rest in (s2, e1 ++ e2)
  end.
