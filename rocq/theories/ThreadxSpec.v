(** Specification side of the ThreadX properties. *)
From Coq Require Import ZArith String List Bool.
From Verif Require Import Bytes Threadx.
Import ListNotations.
Open Scope Z_scope.

(** The registry is sound: from the head, the cookies form a list without repetition that ends with the
    default cookie and holds exactly the cookies whose level is set; levels are -1 to 7. *)
Inductive linked (m : nat -> cookie) : option nat -> list nat -> Prop :=
  | linked_nil : linked m None []
  | linked_cons c l : linked m (c_next (m c)) l -> linked m (Some c) (c :: l).
Definition sound (s : st) (l : list nat) : Prop :=
  linked (s_mem s) (s_list s) l /\ NoDup l /\ last l 1%nat = 0%nat /\
  (forall c, In c l <-> 0 <= c_level (s_mem s c)) /\ (forall c, -1 <= c_level (s_mem s c) <= 7).

(** The mutex is always taken. *)
Definition locked (e : ev) : Prop := match e with EvStep _ lock => lock = true | _ => True end.
(** Messages have a bare level: no colour, no binary flag. *)
Definition bare (e : ev) : Prop := match e with EvCall (CLog p _ _) => 0 <= p < 8 | _ => True end.

(** A call that runs without interference, the mutex being taken: the state, the value returned and
    what is printed. *)
Fixpoint alone (fuel : nat) (s : st) (p : prog) : M (st * Z * list (Z * list Z)) :=
  match p with
  | Ret v => Ok (s, v, [])
  | GetReady k => alone fuel s (k (s_ready s))
  | GetLevel c k => alone fuel s (k (c_level (s_mem s c)))
  | SetLevel c v k => alone fuel (mkSt (s_ready s) (upd (s_mem s) c (with_level (s_mem s c) v)) (s_list s)) k
  | Section x _ k => let* (s', a) := do_section fuel s x in alone fuel s' (k a)
  | Print prio c text k =>
    let* (col, t) := amba_log prio (c_name (s_mem s c)) text in
    let* (s', v, o) := alone fuel s k in Ok (s', v, (col, t) :: o)
  end.

(** The level that applies to a cookie: its own, or that of the default cookie before its first use. *)
Definition level_in_force (s : st) (c : nat) : Z :=
  if 0 <=? c_level (s_mem s c) then c_level (s_mem s c) else c_level (s_mem s 0%nat).
(** [s'] is [s], with level [v] for cookie [c]. *)
Definition sets (s s' : st) (c : nat) (v : Z) : Prop :=
  s_ready s' = s_ready s /\ c_level (s_mem s' c) = v /\ (forall x, x <> c -> c_level (s_mem s' x) = c_level (s_mem s x)) /\
  forall x, c_name (s_mem s' x) = c_name (s_mem s x).

(** The letter and the colour of a level on the console. *)
Definition letter (prio : Z) : list Z :=
  bytes_of_string (match prio with 2 => "C" | 3 => "E" | 4 => "W" | 5 => "N" | 6 => "I" | 7 => "D" | _ => "" end)%string.
Definition colour (prio : Z) : Z :=
  match prio with 2 => 36 | 3 => 31 | 4 => 33 | 5 => 35 | 7 => 90 | _ => -1 end.

(** The colour of the digit # in an escape sequence ESC [ 0 ; 3 # m, as red, green and blue: bit 0 is red, bit 1
    green, bit 2 blue; 7 is the gray that shdlogd has for it. *)
Definition rgb (d : Z) : Z :=
  if d =? 7 then 0x808080
  else (if Z.testbit d 0 then 0xff0000 else 0) + (if Z.testbit d 1 then 0xff00 else 0) + (if Z.testbit d 2 then 0xff else 0).
