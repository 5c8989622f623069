(** Specification side of the life of a ULogDeviceHandler. *)
From Coq Require Import ZArith String List Bool.
From Verif Require Import Bytes PyDev.
Import ListNotations.
Open Scope Z_scope.

(** A device is named by its path or by what follows /dev/ulog_ in it. *)
Inductive named : list Z -> list Z -> Prop :=
| by_path : forall n, named (bytes_of_string "/dev/ulog_" ++ n) n
| by_name : forall n, (forall m, n <> bytes_of_string "/dev/ulog_" ++ m) -> named n n.

(** The value set last, or [v]. *)
Definition last_pid (v : Z) (l : list hop) : Z := fold_left (fun v o => match o with SetPid x => x | _ => v end) l v.
Definition last_tid (v : Z) (l : list hop) : Z := fold_left (fun v o => match o with SetTid x => x | _ => v end) l v.
Definition last_pname (v : list Z) (l : list hop) : list Z := fold_left (fun v o => match o with SetPname x => x | _ => v end) l v.
Definition last_tname (v : list Z) (l : list hop) : list Z := fold_left (fun v o => match o with SetTname x => x | _ => v end) l v.
(** Ids of threads are not 0 and their names are not empty. *)
Definition meant (o : hop) : Prop := match o with SetTid x => x <> 0 | SetTname b => b <> [] | _ => True end.

(** A time in nanoseconds. *)
Definition nanos (t : Z * Z) : Z := fst t * 1000000000 + snd t.
(** [m] units of 2^-k s, at most one unit from the time [c]. *)
Definition near (k m : Z) (c : Z * Z) : Prop := Z.abs (m * 1000000000 - nanos c * 2 ^ k) <= 1000000000.
(** m * 2^-k is a double from 0 to 2^31, 2^31 not included. *)
Definition reading (k m : Z) : Prop := 0 <= k /\ 0 <= m < 2 ^ 53 /\ m < 2 ^ (31 + k).
