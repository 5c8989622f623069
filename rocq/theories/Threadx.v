(** Model of the ThreadX port: threadx/src/ulog.c and threadx/src/ulog_ctrl.c.

    A cookie is a number, 0 being __ulog_default_cookie. Every access to shared memory outside the mutex
    is a step of its own; a section under the mutex is one step. *)
From Coq Require Import ZArith String List Bool.
From Verif Require Import Bytes Parse Iov Shd.
Import ListNotations.
Open Scope Z_scope.

(** ** Cookies: threadx/src/ulog.c *)

(** struct ulog_cookie, libulog/include/ulog.h:451-457 (userdata left out). *)
Record cookie := mkCookie { c_name : list Z; c_level : Z; c_next : option nat }.
(** ctrl, threadx/src/ulog.c:45-52, and the cookies. *)
Record st := mkSt { s_ready : bool; s_mem : nat -> cookie; s_list : option nat }.

(** Change of one cookie, threadx/src/ulog.c:38-49. *)
Definition upd (m : nat -> cookie) (c : nat) (k : cookie) : nat -> cookie := fun x => if Nat.eqb x c then k else m x.
(** cookie->level = v, threadx/src/ulog.c:111-151. *)
Definition with_level (k : cookie) (v : Z) : cookie := mkCookie (c_name k) v (c_next k).

(** The state at the start: threadx/src/ulog.c:38-52; other cookies have level -1 and no successor
    (__ULOG_DECL, libulog/include/ulog.h:427-428). *)
Definition init (names : nat -> list Z) : st :=
  mkSt false (fun c => if Nat.eqb c 0 then mkCookie (bytes_of_string "threadx") 6 None else mkCookie (names c) (-1) None) (Some O).

(** Sections under ctrl.lock. threadx/src/ulog.c:64-85, 111-151, 250-319. *)
Inductive sect := Insert (c : nat) (level : Z) | Walk | Find (name : list Z).
(** What a section gives. threadx/src/ulog.c:64-85, 111-151, 250-319. *)
Inductive ans := Unit | Visited (l : list nat) | Found (c : option (nat * Z)).

(** A call in progress: what is left to do. [Print]: a call of AmbaLog. threadx/src/ulog.c:64-300. *)
Inductive prog :=
  | Ret (v : Z)
  | GetReady (k : bool -> prog)
  | GetLevel (c : nat) (k : Z -> prog)
  | SetLevel (c : nat) (v : Z) (k : prog)
  | Section (s : sect) (fail : prog) (k : ans -> prog)
  | Print (prio : Z) (c : nat) (text : list Z) (k : prog).

(** for (p = ctrl.cookie_list; p; p = p->next), threadx/src/ulog.c:79, 262, 290, 313. *)
Fixpoint walk (fuel : nat) (m : nat -> cookie) (p : option nat) : M (list nat) :=
  match p with
  | None => Ok []
  | Some c => match fuel with O => Bug Hang | S fuel => let* l := walk fuel m (c_next (m c)) in Ok (c :: l) end
  end.

(** The sections: threadx/src/ulog.c:140-146, 79-80 and 313-314, 262-267 and 290-295. [Found]: the cookie
    and its level. The three stores of [Insert] are one step: another thread that reads the level between
    them sees what it would have seen before. *)
Definition do_section (fuel : nat) (s : st) (x : sect) : M (st * ans) :=
  match x with
  | Insert c level =>
    let k := s_mem s c in
    Ok (if c_level k <? 0
        then mkSt (s_ready s) (upd (s_mem s) c (mkCookie (c_name k) level (s_list s))) (Some c) else s, Unit)
  | Walk => let* l := walk fuel (s_mem s) (s_list s) in Ok (s, Visited l)
  | Find name => let* l := walk fuel (s_mem s) (s_list s) in
                 Ok (s, Found (option_map (fun c => (c, c_level (s_mem s c)))
                                 (find (fun c => bytes_eqb (c_name (s_mem s c)) name) l)))
  end.

(** ulog_init_cookie, threadx/src/ulog.c:111-151; [k]: what the caller does next. *)
Definition ulog_init_cookie (c : nat) (k : prog) : prog :=
  GetReady (fun r => if r then
    let insert level := Section (Insert c (if level <? 0 then 6 else level)) k (fun _ => k) in
    GetLevel 0 (fun d => if d >=? 0 then GetLevel 0 insert else insert (-1))
  else k).
(** ulog_init, threadx/src/ulog.c:214-222. *)
Definition ulog_init (c : nat) (k : prog) : prog :=
  GetReady (fun r => if r then GetLevel c (fun l => if l <? 0 then ulog_init_cookie c k else k) else k).
(** As at threadx/src/ulog.c:229-233. *)
Definition clamp (level : Z) : Z := let l := if level <? 0 then 0 else level in if l >? 7 then 7 else l.
(** ulog_set_level, threadx/src/ulog.c:224-239. *)
Definition ulog_set_level (c : nat) (level : Z) (k : prog) : prog :=
  GetReady (fun r => if r then ulog_init c (SetLevel c (clamp level) k) else k).
(** ulog_get_level, threadx/src/ulog.c:241-248. *)
Definition ulog_get_level (c : nat) : prog :=
  GetReady (fun r => if r then ulog_init c (GetLevel c Ret) else Ret (-1)).
(** ulog_set_tag_level, threadx/src/ulog.c:250-276 (-EPERM is -1). *)
Definition ulog_set_tag_level (name : list Z) (level : Z) : prog :=
  GetReady (fun r => if r then
    Section (Find name) (Ret (-1)) (fun a => match a with Found (Some (c, _)) => ulog_set_level c level (Ret 0) | _ => Ret (-1) end)
  else Ret (-1)).
(** ulog_get_tag_level, threadx/src/ulog.c:278-300. *)
Definition ulog_get_tag_level (name : list Z) : prog :=
  GetReady (fun r => if r then
    Section (Find name) (Ret (-1)) (fun a => match a with Found (Some (_, l)) => Ret l | _ => Ret (-1) end)
  else Ret (-1)).
(** ulog_foreach, threadx/src/ulog.c:64-85, and ulog_get_tag_names, 302-319, with enough room: the answer
    of the section is what is visited; the callback is left out. *)
Definition ulog_foreach : prog := GetReady (fun r => if r then Section Walk (Ret (-1)) (fun _ => Ret 0) else Ret (-1)).
(** ulog_log, libulog/include/ulog.h:500-508, with ulog_log_write and ulog_vlog_write,
    threadx/src/ulog.c:185-202. *)
Definition ulog_log (prio : Z) (c : nat) (text : list Z) : prog :=
  let rest := GetLevel c (fun l => if Z.land prio 7 <=? l then
                GetReady (fun r => if r then Print prio c text (Ret 0) else Ret 0) else Ret 0) in
  GetLevel c (fun l => if l <? 0 then ulog_init_cookie c rest else rest).
(** ulog_log_str and ulog_log_buf, threadx/src/ulog.c:204-212. *)
Definition ulog_log_str (prio : Z) (c : nat) (text : list Z) : prog := Ret 0.

(** The calls of the API. threadx/src/ulog.c:64-300. *)
Inductive call := CInit (c : nat) | CInitCookie (c : nat) | CSet (c : nat) (level : Z) | CGet (c : nat)
  | CSetTag (name : list Z) (level : Z) | CGetTag (name : list Z) | CForeach | CLog (prio : Z) (c : nat) (text : list Z)
  | CStr (prio : Z) (c : nat) (text : list Z).
(** The function called, threadx/src/ulog.c:64-300. *)
Definition program (x : call) : prog :=
  match x with
  | CInit c => ulog_init c (Ret 0) | CInitCookie c => ulog_init_cookie c (Ret 0)
  | CSet c l => ulog_set_level c l (Ret 0) | CGet c => ulog_get_level c
  | CSetTag n l => ulog_set_tag_level n l | CGetTag n => ulog_get_tag_level n
  | CForeach => ulog_foreach | CLog p c t => ulog_log p c t | CStr p c t => ulog_log_str p c t
  end.

(** AmbaLog, threadx/src/ulog.c:153-183: what is printed on the console. [text]: what the format gives.
    Reading prio_tab outside its 8 entries is [Bug Oob]; entries 0 and 1 are zero. The colour -1 is none; the numbers of the
    others, constants of AmbaPrint.h which is not in the repository, are arbitrary. *)
Definition CYAN := 36. Definition RED := 31. Definition YELLOW := 33. Definition MAGENTA := 35. Definition GRAY := 90.
(** threadx/src/ulog.c:154-182. *)
Definition prio_tab : list (Z * Z) :=
  [(0, 0); (0, 0); (67, CYAN); (69, RED); (87, YELLOW); (78, MAGENTA); (73, -1); (68, GRAY)].
(** AmbaLog, threadx/src/ulog.c:154-182. *)
Definition amba_log (prio : Z) (tag text : list Z) : M (Z * list Z) :=
  if (0 <=? prio) && (prio <? 8) then
    let (marker, color) := nth (Z.to_nat prio) prio_tab (0, 0) in
    Ok (color, [91; marker; 93; 32] ++ tag ++ [58; 32] ++ cstr (ztake (BUF_SIZE - 1) text))
  else Bug Oob.

(** ** The machine: any number of calls in progress *)
(** threadx/src/ulog.c:64-300. *)
Record mach := mkMach { m_st : st; m_calls : list prog }.
(** A new call, a step of a call, or one that finds the mutex taken, threadx/src/ulog.c:64-300. *)
Inductive ev :=
  | EvReady                        (** ulog_amba_early_init, threadx/src/ulog.c:332-342, the mutex being created *)
  | EvCall (x : call)
  | EvStep (i : nat) (lock : bool) (** one step of call [i]; [lock]: AmbaKAL_MutexTake succeeds *).
(** What is seen of a step, threadx/src/ulog.c:64-300. *)
Inductive obs := ONone | OVisit (l : list nat) | OPrint (color : Z) (text : list Z) | ORet (v : Z).

(** No code: change of one call. *)
Fixpoint set_nth (l : list prog) (i : nat) (p : prog) : list prog :=
  match l, i with
  | [], _ => []
  | _ :: r, O => p :: r
  | x :: r, S i => x :: set_nth r i p
  end.
(** The next statement of a call, threadx/src/ulog.c:64-300. *)
Definition step_prog (fuel : nat) (s : st) (p : prog) (lock : bool) : M (st * prog * obs) :=
  match p with
  | Ret v => Ok (s, Ret v, ORet v)
  | GetReady k => Ok (s, k (s_ready s), ONone)
  | GetLevel c k => Ok (s, k (c_level (s_mem s c)), ONone)
  | SetLevel c v k => Ok (mkSt (s_ready s) (upd (s_mem s) c (with_level (s_mem s c) v)) (s_list s), k, ONone)
  | Section x fail k =>
    if lock then
      let* (s', a) := do_section fuel s x in
      Ok (s', k a, match a with Visited l => OVisit l | _ => ONone end)
    else Ok (s, fail, ONone)
  | Print prio c text k =>
    let* (color, t) := amba_log prio (c_name (s_mem s c)) text in Ok (s, k, OPrint color t)
  end.
(** No code: one call of the machine moves, threadx/src/ulog.c:64-300. *)
Definition step (fuel : nat) (m : mach) (e : ev) : M (mach * obs) :=
  match e with
  | EvReady => Ok (mkMach (mkSt true (s_mem (m_st m)) (s_list (m_st m))) (m_calls m), ONone)
  | EvCall x => Ok (mkMach (m_st m) (m_calls m ++ [program x]), ONone)
  | EvStep i lock =>
    match nth_error (m_calls m) i with
    | None => Ok (m, ONone)
    | Some p => let* (s, p', o) := step_prog fuel (m_st m) p lock in Ok (mkMach s (set_nth (m_calls m) i p'), o)
    end
  end.
(** No code: interleaving of calls, threadx/src/ulog.c:64-300. *)
Fixpoint run (fuel : nat) (m : mach) (l : list ev) : M (mach * list obs) :=
  match l with
  | [] => Ok (m, [])
  | e :: l => let* (m, o) := step fuel m e in let* (m, os) := run fuel m l in Ok (m, o :: os)
  end.

(** ** Samples: threadx/src/ulog_ctrl.c *)

(** The level of a sample, threadx/src/ulog_ctrl.c:55-62; [log]: the [logsize] bytes of the message. *)
Definition put_level (prio : Z) (log : list Z) : Z :=
  if negb (prio =? 0) then Z.land prio PRIO_LEVEL_MASK
  else if (zlen log >=? 6) && (znth 0 log =? 27) && (znth 5 log =? 49) then 3 else 6.
(** The thread name, threadx/src/ulog_ctrl.c:64-85: a C string of any length, or none. *)
Definition put_thread_name (stack : list Z) (thread : option (list Z)) : M (list Z * Z * Z) :=
  match thread with
  | Some s =>
    let* b := mem_write stack 0 (ztake (BUF_SIZE - 1) s ++ [0]) in
    Ok (b, if zlen s >=? BUF_SIZE then BUF_SIZE else zlen s + 1, 1)
  | None => Ok (stack, 0, 0)
  end.
(** ulog_shd_put, threadx/src/ulog_ctrl.c:42-117, from line 55 to line 109: the sample. [tag]: the
    [tagsize] bytes of the tag. *)
Definition ulog_shd_put (stack : list Z) (index prio : Z) (thread : option (list Z)) (tag log : list Z) : M blob :=
  let* (b, thn, tid) := put_thread_name stack thread in
  let* (b, tg) := put_field b thn tag in
  let* (b, lg) := put_field b (thn + tg) log in
  let* b := (if thn + tg + lg =? BUF_SIZE then store b (BUF_SIZE - 1) 0 else Ok b) in
  Ok (mkBlob (u16 index) (put_level prio log) tid thn tg lg b).

(** The same function seen from several threads, threadx/src/ulog_ctrl.c:52 and 109-116: the flag
    ctrl.shd_enabled, the static index, and the samples written, here the message and its index. *)
Record sh := mkSh { sh_on : bool; sh_index : Z; sh_out : list (Z * list Z) }.
(** Where a thread is: before line 52; having to read the index; having to store its successor; having to
    disable; having to write; having to enable; done. *)
Inductive pc := P_start | P_read | P_store (i : Z) | P_off (i : Z) | P_write (i : Z) | P_on | P_done.
(** threadx/src/ulog_ctrl.c:42-117. *)
Definition put_step (s : sh) (msg : list Z) (p : pc) : sh * pc :=
  match p with
  | P_start => (s, if sh_on s then P_read else P_done)
  | P_read => (s, P_store (sh_index s))
  | P_store i => (mkSh (sh_on s) (u16 (i + 1)) (sh_out s), P_off i)
  | P_off i => (mkSh false (sh_index s) (sh_out s), P_write i)
  | P_write i => (mkSh (sh_on s) (sh_index s) (sh_out s ++ [(i, msg)]), P_on)
  | P_on => (mkSh true (sh_index s) (sh_out s), P_done)
  | P_done => (s, P_done)
  end.
(** Threads with their messages; a schedule is a list of thread numbers. threadx/src/ulog_ctrl.c:42-117. *)
Fixpoint put_thread_step (s : sh) (ts : list (list Z * pc)) (i : nat) : sh * list (list Z * pc) :=
  match ts, i with
  | [], _ => (s, [])
  | (m, p) :: r, O => let (s', p') := put_step s m p in (s', (m, p') :: r)
  | t :: r, S i => let (s', r') := put_thread_step s r i in (s', t :: r')
  end.
(** No code: interleaving of threads, threadx/src/ulog_ctrl.c:42-117. *)
Fixpoint put_run (s : sh) (ts : list (list Z * pc)) (sched : list nat) : sh * list (list Z * pc) :=
  match sched with [] => (s, ts) | i :: r => let (s', ts') := put_thread_step s ts i in put_run s' ts' r end.
