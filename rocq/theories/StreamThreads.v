(** Model of the C++ streams libulog/ulog.cpp used by several threads. Each thread has its own string
    (mBufKey) and tag (mTagKey, libulog/ulog.cpp:45-47); the fake buffers and the states of the
    ostream objects are shared. The steps of Stream.v are atomic here: the locking of the standard
    library objects is not modelled. *)
From Coq Require Import ZArith String List Bool.
From Verif Require Import Bytes Stream.
Import ListNotations.
Open Scope Z_scope.

(** [w_key]: the strings and tags of the threads; [w_fill], [w_bad]: as in Stream.state.
    libulog/ulog.cpp:38-57 and 75-97. *)
Record world := mkWorld { w_key : nat -> option (list Z) * option (list Z); w_fill : Z -> Z; w_bad : Z -> bool }.
(** Before any use, libulog/ulog.cpp:38-57. *)
Definition winit : world := mkWorld (fun _ => (None, None)) (fun _ => 0) (fun _ => false).

(** What happens: thread [t] does something with the streams; or it ends. libulog/ulog.cpp:88-165. *)
Inductive top := Do (t : nat) (o : op) | End (t : nat).

(** Thread-specific data: change for one thread, libulog/ulog.cpp:100-122 and 145-160. *)
Definition set_key (f : nat -> option (list Z) * option (list Z)) (t : nat) x := fun i => if Nat.eqb i t then x else f i.

(** keyBufDestructor, libulog/ulog.cpp:145-149, is called by the thread library with the string of an ending thread. *)
Definition wstep (cap : Z) (w : world) (x : top) : world * list (nat * event) :=
  match x with
  | Do t o =>
    let '(s, ev) := step cap (mkState (fst (w_key w t)) (snd (w_key w t)) (w_fill w) (w_bad w)) o in
    (mkWorld (set_key (w_key w) t (st_str s, st_tag s)) (st_fill s) (st_bad s), map (fun e => (t, e)) ev)
  | End t => (mkWorld (set_key (w_key w) t (None, None)) (w_fill w) (w_bad w), [])
  end.
(** No code: interleaving of threads, libulog/ulog.cpp. *)
Fixpoint wrun (cap : Z) (w : world) (l : list top) : world * list (nat * event) :=
  match l with
  | [] => (w, [])
  | x :: l => let '(w1, e1) := wstep cap w x in let '(w2, e2) := wrun cap w1 l in (w2, e1 ++ e2)
  end.

(** The strings allocated by new in xsputn (libulog/ulog.cpp:103-112) and freed by the destructor, in order. *)
Inductive mem := New (t : nat) | Delete (t : nat).
(** The allocations and releases of one operation, libulog/ulog.cpp:100-122 and 145-149. *)
Definition wmem (cap : Z) (w : world) (x : top) : list mem :=
  match x with
  | Do t (Write l _) => match fst (w_key w t) with None => if w_bad w l then [] else [New t] | Some _ => [] end
  | Do _ _ => []
  | End t => match fst (w_key w t) with Some _ => [Delete t] | None => [] end
  end.
(** No code: those of a sequence of operations, libulog/ulog.cpp. *)
Fixpoint wheap (cap : Z) (w : world) (l : list top) : list mem :=
  match l with [] => [] | x :: r => wmem cap w x ++ wheap cap (fst (wstep cap w x)) r end.

(** The end of the process: the destructors of the static streams run in the main thread ([t]); each frees the
    string of that thread if it is still there, libulog/ulog.cpp:88-97. [n]: the number of streams. *)
Fixpoint destroy (n : nat) (w : world) (t : nat) : world * list mem :=
  match n with
  | O => (w, [])
  | S n =>
    let '(w1, m1) := match fst (w_key w t) with
                     | Some _ => (mkWorld (set_key (w_key w) t (None, snd (w_key w t))) (w_fill w) (w_bad w), [Delete t])
                     | None => (w, [])
                     end in
    let '(w2, m2) := destroy n w1 t in (w2, m1 ++ m2)
  end.
