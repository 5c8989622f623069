(** Model of ulog_shd/src/ulog.c as threads see it: the recursive lock around ulog_shd_write (43-116),
    the flag that stops messages of libshdata itself, and ulog_shd_init (118-159). How a sample is filled
    is Shd.v; here a message is its text. The threads run in any order, one step at a time. *)
From Coq Require Import ZArith List Bool Arith.
From Verif Require Import Bytes.
Import ListNotations.
Open Scope Z_scope.

(** A message: its text, and the messages libshdata logs by itself in shd_write (ulog_shd/src/ulog.c:111)
    before and after the sample is in the section. *)
Inductive msg := Msg (text : list Z) (before after : list msg).
(** The text of a message, ulog_shd/src/ulog.c:43-116. *)
Definition text (m : msg) : list Z := match m with Msg t _ _ => t end.

(** Where a call of ulog_shd_write is: at pthread_mutex_lock (51), at the test of shd_enabled (54-57), at
    index++ (103; filling the blob before it touches nothing shared), at shd_enabled = false (109), in
    shd_write before and after the sample is stored (111), at shd_enabled = true (113), at
    pthread_mutex_unlock (55 or 115). ulog_shd/src/ulog.c:43-116. *)
Inductive pc :=
  | PLock | PCheck | PIndex | POff (k : Z) | PBefore (k : Z) (l : list msg) | PAfter (l : list msg) | POn | PUnlock.
(** A thread: its calls of ulog_shd_write under way, innermost first, and what it still has to log.
    ulog_shd/src/ulog.c:43-116. *)
Record thread := mkThread { h_calls : list (msg * pc); h_todo : list msg }.
(** ctrl, ulog_shd/src/ulog.c:30-39: the owner of lock and how often it has it, shd_enabled, index;
    and the samples of the section, oldest first: thread, index, text. *)
Record ctrl := mkCtrl { g_owner : option (nat * nat); g_enabled : bool; g_index : Z; g_samples : list (nat * Z * list Z) }.

(** One step of thread [i]; [None]: it waits for the lock, or has nothing left. Locking a mutex of type
    PTHREAD_MUTEX_RECURSIVE (ulog_shd/src/ulog.c:142) again by its owner counts. *)
Definition step (i : nat) (g : ctrl) (h : thread) : option (ctrl * thread) :=
  match h_calls h with
  | [] => match h_todo h with [] => None | m :: l => Some (g, mkThread [(m, PLock)] l) end
  | (m, p) :: cs =>
    let go g p := Some (g, mkThread ((m, p) :: cs) (h_todo h)) in
    match p with
    | PLock =>
      match g_owner g with
      | None => go (mkCtrl (Some (i, 1%nat)) (g_enabled g) (g_index g) (g_samples g)) PCheck
      | Some (j, d) => if Nat.eqb j i then go (mkCtrl (Some (i, S d)) (g_enabled g) (g_index g) (g_samples g)) PCheck else None
      end
    | PCheck => go g (if g_enabled g then PIndex else PUnlock)
    | PIndex => go (mkCtrl (g_owner g) (g_enabled g) (u16 (g_index g + 1)) (g_samples g)) (POff (g_index g))
    | POff k => go (mkCtrl (g_owner g) false (g_index g) (g_samples g)) (PBefore k (match m with Msg _ b _ => b end))
    | PBefore k [] => go (mkCtrl (g_owner g) (g_enabled g) (g_index g) (g_samples g ++ [(i, k, text m)])) (PAfter (match m with Msg _ _ a => a end))
    | PBefore k (n :: l) => Some (g, mkThread ((n, PLock) :: (m, PBefore k l) :: cs) (h_todo h))
    | PAfter [] => go g POn
    | PAfter (n :: l) => Some (g, mkThread ((n, PLock) :: (m, PAfter l) :: cs) (h_todo h))
    | POn => go (mkCtrl (g_owner g) true (g_index g) (g_samples g)) PUnlock
    | PUnlock =>
      Some (mkCtrl (match g_owner g with Some (j, S (S d)) => Some (j, S d) | _ => None end) (g_enabled g) (g_index g) (g_samples g),
            mkThread cs (h_todo h))
    end
  end.

(** No code: change of one thread. *)
Fixpoint upd {A} (n : nat) (a : A) (l : list A) : list A :=
  match l, n with [], _ => [] | _ :: l, O => a :: l | x :: l, S n => x :: upd n a l end.
(** Thread [i] makes a step if it can. ulog_shd/src/ulog.c:43-116. *)
Definition turn (w : ctrl * list thread) (i : nat) : ctrl * list thread :=
  match nth_error (snd w) i with
  | None => w
  | Some h => match step i (fst w) h with None => w | Some (g, h) => (g, upd i h (snd w)) end
  end.
(** No code: interleaving of the threads, ulog_shd/src/ulog.c:43-116. *)
Definition runs (w : ctrl * list thread) (sched : list nat) : ctrl * list thread := fold_left turn sched w.

(** After ulog_shd_init: nobody has the lock, shd_enabled is true; [k]: index, 1 at first.
    ulog_shd/src/ulog.c:118-158. *)
Definition begin (k : Z) (progs : list (list msg)) : ctrl * list thread :=
  (mkCtrl None true k [], map (mkThread []) progs).

(** ** ulog_shd_init, ulog_shd/src/ulog.c:118-159 *)
(** What libshdata, pthread answer (shd_create2: negative on error; the others: positive).
    At ulog_shd/src/ulog.c:118-158. *)
Record answers := mkAnswers { w_create : Z; w_attr : Z; w_type : Z; w_mutex : Z }.
(** What it leaves: sections it created and their sizes (samples), attribute, mutex (recursive or not),
    whether ulog_shd_write is the writer, shd_enabled. ulog_shd/src/ulog.c:118-158. *)
Record setup := mkSetup { u_sections : list (list Z * Z); u_attr : bool; u_mutex : option bool; u_writer : bool; u_enabled : bool }.
(** Before the first call, ulog_shd/src/ulog.c:30-39. *)
Definition setup0 : setup := mkSetup [] false None false false.
(** ulog_shd_init, ulog_shd/src/ulog.c:118-158. *)
Definition ulog_shd_init (w : answers) (name : list Z) (n : Z) (u : setup) : Z * setup :=
  if w_create w <? 0 then (w_create w, u) else
  let u := mkSetup (u_sections u ++ [(name, n)]) (u_attr u) (u_mutex u) (u_writer u) (u_enabled u) in
  if negb (w_attr w =? 0) then (- w_attr w, u) else
  let u := mkSetup (u_sections u) true (u_mutex u) (u_writer u) (u_enabled u) in
  if negb (w_type w =? 0) then (- w_type w, u) else
  if negb (w_mutex w =? 0) then (- w_mutex w, u) else
  (0, mkSetup (u_sections u) true (Some true) true true).
