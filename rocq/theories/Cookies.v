(** Model of the tag registry of libulog, libulog/ulog_write.c:272-307, 341-420, 437-530, and of
    the level checks of the macros ulog_log and ulog_vlog, libulog/include/ulog.h:485-508.

    Any number of threads call the API concurrently.  One transition of a thread is one access to
    memory shared between threads (a level, the list head, a next pointer, the hook, the mutex) or
    a call of a callback.  Memory is sequentially consistent; the environment (getenv) does not
    change.  Callbacks are recorded as events and do not call the API themselves. *)
From Coq Require Import ZArith String List Bool.
From Verif Require Import Bytes Parse.
Import ListNotations.
Open Scope Z_scope.

(** Levels, libulog/include/ulog.h:160-165 (ULOG_INFO is in Parse.v). *)
Definition ULOG_CRIT := 2.
(** libulog/include/ulog.h:160-165. *)
Definition ULOG_ERR := 3.
(** libulog/include/ulog.h:160-165. *)
Definition ULOG_WARN := 4.
(** libulog/include/ulog.h:160-165. *)
Definition ULOG_NOTICE := 5.
(** libulog/include/ulog.h:160-165. *)
Definition ULOG_DEBUG := 7.

(** isdigit and isupper in the C locale; [c] is the value of a (signed or unsigned) char.
    C library; used at libulog/ulog_write.c:342-363. *)
Definition isdigit (c : Z) : bool := (48 <=? c) && (c <=? 57).
(** C library; used at libulog/ulog_write.c:342-363. *)
Definition isupper (c : Z) : bool := (65 <=? c) && (c <=? 90).

(** The table of parse_level, libulog/ulog_write.c:345-352: 26 entries indexed from 'A'. *)
Definition level_tab : list Z :=
  [0; 0; ULOG_CRIT; ULOG_DEBUG; ULOG_ERR; 0; 0; 0; ULOG_INFO; 0; 0; 0; 0; ULOG_NOTICE; 0; 0; 0; 0;
   0; 0; 0; 0; ULOG_WARN; 0; 0; 0].

(** parse_level, libulog/ulog_write.c:342-363. *)
Definition parse_level (c : Z) : Z :=
  let level := if isdigit c then c - 48 else if isupper c then znth (c - 65) level_tab else 0 in
  if level >? ULOG_DEBUG then ULOG_DEBUG else level.

(** What does not change: the names of the tags (cookie 0 is __ulog_default_cookie,
    libulog/ulog_write.c:39-45, of empty name) and the environment, [c_env v] being
    getenv(v). *)
Record cfg := mkCfg { c_name : nat -> list Z; c_env : list Z -> option (list Z) }.

(** First char of a C string. As at libulog/ulog_write.c:375-390. *)
Definition first_char (v : list Z) : Z := match v with [] => 0 | c :: _ => c end.

(** The part of ulog_init_cookie that reads the environment, libulog/ulog_write.c:375-390: the
    level found, or -1.  snprintf keeps 79 characters in buf[80]. *)
Definition env_level (cf : cfg) (c : nat) : Z :=
  let level :=
    if first_char (c_name cf c) =? 0 then -1
    else match c_env cf (ztake 79 (bytes_of_string "ULOG_LEVEL_" ++ c_name cf c)) with
         | Some v => parse_level (first_char v)
         | None => -1
         end in
  if level <? 0 then
    match c_env cf (bytes_of_string "ULOG_LEVEL") with
    | Some v => parse_level (first_char v)
    | None => level
    end
  else level.

(** The calls a thread may make.  Logging through ulog_log, ulog_vlog (libulog/include/ulog.h:485-508),
    ulog_log_str or ulog_log_buf (libulog/ulog_write.c:447-465) is [CLog]: they take the same
    decision. *)
Inductive call :=
  | CInit (c : nat)                        (* ulog_init *)
  | CLog (c : nat) (prio : Z)              (* ulog_log, ulog_vlog, ulog_log_str, ulog_log_buf *)
  | CSet (c : nat) (level : Z)             (* ulog_set_level *)
  | CGet (c : nat)                         (* ulog_get_level *)
  | CSetTag (name : list Z) (level : Z)    (* ulog_set_tag_level *)
  | CNames (maxlen : Z)                    (* ulog_get_tag_names *)
  | CForeach                               (* ulog_foreach, non NULL callback *)
  | CHook (f : nat).                       (* ulog_set_cookie_register_func, non NULL function *)

(** What remains to do once the cookie is initialised.
    After ulog_init_cookie returns to libulog/ulog_write.c:447-492 and libulog/include/ulog.h:485-508. *)
Inductive kont :=
  | KInit | KLog (prio : Z) | KSet (level : Z) | KGet | KSetTag (name : list Z) (level : Z).

(** Program counter of a thread. The places are in libulog/ulog_write.c:272-307, 365-420, 447-530. *)
Inductive pc :=
  | Idle
  | Check (c : nat) (k : kont)                       (* if (cookie->level < 0) *)
  | Env (c : nat) (k : kont)                         (* ulog_write.c:375-391 *)
  | Env2 (c : nat) (k : kont)                        (* 393-397 *)
  | Lock (c : nat) (v : Z) (k : kont)                (* 399 *)
  | Test (c : nat) (v : Z) (k : kont)                (* 401 *)
  | SetNext (c : nat) (v : Z) (k : kont)             (* 403 *)
  | SetHead (c : nat) (v : Z) (k : kont)             (* 404 *)
  | SetLvl (c : nat) (v : Z) (k : kont)              (* 406 *)
  | RdHook (c : nat) (k : kont)                      (* 407 *)
  | Unlock (c : nat) (h : option nat) (k : kont)     (* 413 *)
  | Hook (c : nat) (h : option nat) (k : kont)       (* 415-417 *)
  | After (c : nat) (k : kont)                       (* rest of the calling function *)
  | TLock (n : list Z) (l : Z) | TRead (n : list Z) (l : Z)
  | TWalk (n : list Z) (l : Z) (p : option nat) | TUnlock (n : list Z) (l : Z) (found : option nat)
  | NLock (m : Z) | NRead (m : Z) | NWalk (m : Z) (p : option nat) (acc : list (list Z))
  | NUnlock (m : Z) (acc : list (list Z))
  | FLock | FRead | FUnlock (p : option nat) | FWalk (p : option nat)
  | HLock (f : nat) | HSet (f : nat) | HUnlock.

(** The shared memory and the threads.
    ctrl and struct ulog_cookie: libulog/ulog_write.c:50-61 and libulog/include/ulog.h:451. *)
Record state := mkState {
  s_lock : option nat;         (* ctrl.lock: the owner *)
  s_head : option nat;         (* ctrl.cookie_list *)
  s_hook : option nat;         (* ctrl.cookie_register_hook *)
  s_next : nat -> option nat;  (* cookie->next *)
  s_level : nat -> Z;          (* cookie->level *)
  s_th : nat -> pc
}.

(** Static initialisers, libulog/ulog_write.c:39-45, 50-70, and __ULOG_DECL,
    libulog/include/ulog.h:427-428. *)
Definition init : state := mkState None None None (fun _ => None) (fun _ => -1) (fun _ => Idle).

(** What can be observed. At libulog/ulog_write.c:283-307, 365-420, 447-530. *)
Inductive event :=
  | EvCall (t : nat) (o : call)                        (* thread [t] calls [o] *)
  | EvInit (t c : nat) (v : Z)                         (* first-use initialisation by [t] gives [c] level [v] *)
  | EvRunHook (f c : nat)                              (* registration hook [f] called for [c] *)
  | EvSet (t c : nat) (req : Z)                        (* level of [c] assigned for a request [req] *)
  | EvLog (t c : nat) (prio : Z) (b : bool)            (* message handed to the writer ([b]) or not *)
  | EvGet (t c : nat) (v : Z)                          (* ulog_get_level returns [v] *)
  | EvInited (t c : nat)                               (* ulog_init returns *)
  | EvTag (t : nat) (n : list Z) (ret : Z)             (* ulog_set_tag_level returns *)
  | EvNames (t : nat) (m : Z) (l : list (list Z))      (* ulog_get_tag_names returns zlen l, array filled with l *)
  | EvVisit (t c : nat)                                (* ulog_foreach calls its callback *)
  | EvForeach (t : nat)                                (* ulog_foreach returns *)
  | EvHooked (t : nat)                                 (* ulog_set_cookie_register_func returns *)
  | EvOob (t : nat).                                   (* store outside an array *)

(** No code: an assignment to one element. *)
Definition upd {A : Type} (f : nat -> A) (i : nat) (v : A) : nat -> A := fun j => if Nat.eqb j i then v else f j.

(** No code: the next statement of a thread in libulog/ulog_write.c:272-307, 365-420, 447-530. *)
Definition goto (s : state) (t : nat) (p : pc) : state :=
  mkState (s_lock s) (s_head s) (s_hook s) (s_next s) (s_level s) (upd (s_th s) t p).

(** pthread_mutex_lock: the thread stays where it is while the mutex is taken. As at libulog/ulog_write.c:399. *)
Definition acquire (s : state) (t : nat) (p : pc) : state :=
  match s_lock s with
  | None => mkState (Some t) (s_head s) (s_hook s) (s_next s) (s_level s) (upd (s_th s) t p)
  | Some _ => s
  end.
(** pthread_mutex_unlock. As at libulog/ulog_write.c:411. *)
Definition release (s : state) (t : nat) (p : pc) : state :=
  mkState None (s_head s) (s_hook s) (s_next s) (s_level s) (upd (s_th s) t p).

(** Clamping of ulog_set_level, libulog/ulog_write.c:476-480. *)
Definition clamp (level : Z) : Z :=
  let level := if level <? 0 then 0 else level in
  if level >? ULOG_DEBUG then ULOG_DEBUG else level.

(** Start of a call. The functions of libulog/ulog_write.c:272-307 and 447-530. *)
Definition start (s : state) (t : nat) (o : call) : state :=
  match o with
  | CInit c => goto s t (Check c KInit)                (* ulog_write.c:467-472 *)
  | CLog c prio => goto s t (Check c (KLog prio))      (* ulog.h:485-508, ulog_write.c:447-465 *)
  | CSet c l => goto s t (Check c (KSet l))            (* ulog_write.c:474-486 *)
  | CGet c => goto s t (Check c KGet)                  (* ulog_write.c:488-492 *)
  | CSetTag n l => goto s t (TLock n l)                (* ulog_write.c:494-515 *)
  | CNames m => goto s t (NLock m)                     (* ulog_write.c:517-530 *)
  | CForeach => goto s t FLock                         (* ulog_write.c:283-307 *)
  | CHook f => goto s t (HLock f)                      (* ulog_write.c:272-281 *)
  end.

(** End of the calling function once cookie->level was seen to be set: ulog_log and others,
    libulog/include/ulog.h:504-505, libulog/ulog_write.c:453-454, 463-464; ulog_set_level, 485;
    ulog_get_level, 491; ulog_set_tag_level, 510-514. *)
Definition after (s : state) (t c : nat) (k : kont) : state * list event :=
  match k with
  | KInit => (goto s t Idle, [EvInited t c])
  | KLog prio => (goto s t Idle, [EvLog t c prio (Z.land prio PRIO_LEVEL_MASK <=? s_level s c)])
  | KSet l => (mkState (s_lock s) (s_head s) (s_hook s) (s_next s) (upd (s_level s) c (clamp l)) (upd (s_th s) t Idle),
               [EvSet t c l])
  | KGet => (goto s t Idle, [EvGet t c (s_level s c)])
  | KSetTag n l => (mkState (s_lock s) (s_head s) (s_hook s) (s_next s) (upd (s_level s) c (clamp l)) (upd (s_th s) t Idle),
                    [EvSet t c l; EvTag t n 0])
  end.

(** One transition of thread [t]; an idle thread starts call [o].
    libulog/ulog_write.c:272-307, 365-420 and 447-530, as cited case by case. *)
Definition step (cf : cfg) (s : state) (t : nat) (o : call) : state * list event :=
  match s_th s t with
  | Idle => (start s t o, [EvCall t o])
  | Check c k => (goto s t (if s_level s c <? 0 then Env c k else After c k), [])
  (* ulog_init_cookie, libulog/ulog_write.c:365-420 *)
  | Env c k =>
      let e := env_level cf c in
      (goto s t (if e <? 0 then if s_level s 0%nat >=? 0 then Env2 c k else Lock c ULOG_INFO k
                 else Lock c e k), [])
  | Env2 c k => let e := s_level s 0%nat in (goto s t (Lock c (if e <? 0 then ULOG_INFO else e) k), [])
  | Lock c v k => (acquire s t (Test c v k), [])
  | Test c v k => (goto s t (if s_level s c <? 0 then SetNext c v k else Unlock c None k), [])
  | SetNext c v k =>
      (mkState (s_lock s) (s_head s) (s_hook s) (upd (s_next s) c (s_head s)) (s_level s) (upd (s_th s) t (SetHead c v k)), [])
  | SetHead c v k =>
      (mkState (s_lock s) (Some c) (s_hook s) (s_next s) (s_level s) (upd (s_th s) t (SetLvl c v k)), [])
  | SetLvl c v k =>
      (mkState (s_lock s) (s_head s) (s_hook s) (s_next s) (upd (s_level s) c v) (upd (s_th s) t (RdHook c k)), [EvInit t c v])
  | RdHook c k => (goto s t (Unlock c (s_hook s) k), [])
  | Unlock c h k => (release s t (Hook c h k), [])
  | Hook c h k => (goto s t (After c k), match h with Some f => [EvRunHook f c] | None => [] end)
  | After c k => after s t c k
  (* ulog_set_tag_level, libulog/ulog_write.c:494-515 *)
  | TLock n l => (acquire s t (TRead n l), [])
  | TRead n l => (goto s t (TWalk n l (s_head s)), [])
  | TWalk n l p =>
      (goto s t (match p with
                 | None => TUnlock n l None
                 | Some q => if bytes_eqb (c_name cf q) n then TUnlock n l (Some q) else TWalk n l (s_next s q)
                 end), [])
  | TUnlock n l (Some c) => (release s t (Check c (KSetTag n l)), [])
  | TUnlock n l None => (release s t Idle, [EvTag t n (-1)])
  (* ulog_get_tag_names, libulog/ulog_write.c:517-530; the array of the caller has maxlen elements *)
  | NLock m => (acquire s t (NRead m), [])
  | NRead m => (goto s t (NWalk m (s_head s) []), [])
  | NWalk m p acc =>
      match p with
      | Some q => if zlen acc <? m
                  then (goto s t (NWalk m (s_next s q) (acc ++ [c_name cf q])), if zlen acc <? Z.max 0 m then [] else [EvOob t])
                  else (goto s t (NUnlock m acc), [])
      | None => (goto s t (NUnlock m acc), [])
      end
  | NUnlock m acc => (release s t Idle, [EvNames t m acc])
  (* ulog_foreach, libulog/ulog_write.c:283-307 *)
  | FLock => (acquire s t FRead, [])
  | FRead => (goto s t (FUnlock (s_head s)), [])
  | FUnlock p => (release s t (FWalk p), [])
  | FWalk None => (goto s t Idle, [EvForeach t])
  | FWalk (Some q) => (goto s t (FWalk (s_next s q)), if Nat.eqb q 0 then [] else [EvVisit t q])
  (* ulog_set_cookie_register_func, libulog/ulog_write.c:272-281 *)
  | HLock f => (acquire s t (HSet f), [])
  | HSet f => (mkState (s_lock s) (s_head s) (Some f) (s_next s) (s_level s) (upd (s_th s) t HUnlock), [])
  | HUnlock => (release s t Idle, [EvHooked t])
  end.

(** Executions: the schedule says which thread moves (and what it calls when idle).
    No code: interleaving of the threads in libulog/ulog_write.c:272-307, 365-420 and 447-530. *)
Fixpoint run (cf : cfg) (s : state) (sched : list (nat * call)) : state * list event :=
  match sched with
  | [] => (s, [])
  | (t, o) :: rest => let '(s1, e1) := step cf s t o in let '(s2, e2) := run cf s1 rest in (s2, e1 ++ e2)
  end.
