(** Specification vocabulary for the tag registry (C29-C34): everything is said about the trace
    of observable events. *)
From Coq Require Import ZArith String List Bool.
From Verif Require Import Bytes Cookies.
Import ListNotations.
Open Scope Z_scope.

(** The state and the trace of an execution. *)
Definition reaches (cf : cfg) (s : state) (tr : list event) : Prop := exists sched, run cf init sched = (s, tr).

(** Following next pointers from [p] gives exactly [l]. *)
Fixpoint chain (next : nat -> option nat) (p : option nat) (l : list nat) : Prop :=
  match l with
  | [] => p = None
  | c :: l' => p = Some c /\ chain next (next c) l'
  end.
(** The tag list in memory. *)
Definition tag_list (s : state) (l : list nat) : Prop := chain (s_next s) (s_head s) l.

(** Tags initialised so far, in order. *)
Fixpoint inits (tr : list event) : list nat :=
  match tr with [] => [] | EvInit _ c _ :: tr => c :: inits tr | _ :: tr => inits tr end.

(** Level of a tag according to the trace: the last level set, else the initial one, else -1. *)
Definition level_event (c : nat) (v : Z) (e : event) : Z :=
  match e with
  | EvInit _ c' v' => if Nat.eqb c' c then v' else v
  | EvSet _ c' req => if Nat.eqb c' c then Z.max 0 (Z.min 7 req) else v
  | _ => v
  end.
Definition trace_level (c : nat) (tr : list event) : Z := fold_left (level_event c) tr (-1).

(** Number of times the registration hook ran for a tag. *)
Definition is_hook (c : nat) (e : event) : bool := match e with EvRunHook _ c' => Nat.eqb c' c | _ => false end.
Definition hooks (c : nat) (tr : list event) : nat := length (filter (is_hook c) tr).

(** Level assignments and callback invocations made by a thread. *)
Fixpoint sets (t : nat) (tr : list event) : list (nat * Z) :=
  match tr with
  | [] => []
  | EvSet t' c req :: tr => if Nat.eqb t' t then (c, req) :: sets t tr else sets t tr
  | _ :: tr => sets t tr
  end.
Fixpoint visits (t : nat) (tr : list event) : list nat :=
  match tr with
  | [] => []
  | EvVisit t' c :: tr => if Nat.eqb t' t then c :: visits t tr else visits t tr
  | _ :: tr => visits t tr
  end.
(** No call by thread [t] starts in [tr]. *)
Definition no_call (t : nat) (tr : list event) : Prop := forall o, ~ In (EvCall t o) tr.

(** Tag [c] is mentioned by an event that ends a use of the tag. *)
Definition uses (c : nat) (e : event) : Prop :=
  match e with
  | EvLog _ c' _ _ | EvGet _ c' _ | EvSet _ c' _ | EvInited _ c' => c' = c
  | _ => False
  end.

(** Meaning of a level in the environment: a digit, or one of the letters C E W N I D. *)
Definition level_of_value (v : list Z) : Z :=
  match v with
  | [] => 0
  | c :: _ =>
    if (48 <=? c) && (c <=? 57) then Z.min 7 (c - 48) else
    if c =? 67 then 2 else if c =? 69 then 3 else if c =? 87 then 4 else
    if c =? 78 then 5 else if c =? 73 then 6 else if c =? 68 then 7 else 0
  end.
(** The documented initial level of a tag named [name], [def] being the level of the empty tag
    (negative if unset). *)
Definition initial_level (env : list Z -> option (list Z)) (name : list Z) (def : Z) : Z :=
  match (if first_char name =? 0 then None else env (bytes_of_string "ULOG_LEVEL_" ++ name)) with
  | Some v => level_of_value v
  | None =>
    match env (bytes_of_string "ULOG_LEVEL") with
    | Some v => level_of_value v
    | None => if def >=? 0 then def else 6
    end
  end.
(** [pre] is a prefix of [tr]. *)
Definition prefix (pre tr : list event) : Prop := exists post, tr = pre ++ post.
