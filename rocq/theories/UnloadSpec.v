(** What C162 says: the tags that a program with libraries has. *)
From Coq Require Import ZArith String List Bool Arith.
From Verif Require Import Bytes Unload.
Import ListNotations.
Open Scope Z_scope.

(** The libraries' cookies with their names, and those in use with their levels, the latest first. *)
Record world := mkW { w_loaded : list (nat * list Z); w_used : list (nat * Z) }.
Definition world0 : world := mkW [(0%nat, [])] [].
Fixpoint assoc {A} (c : nat) (l : list (nat * A)) : option A :=
  match l with [] => None | (d, x) :: l => if Nat.eqb c d then Some x else assoc c l end.
Definition name_in (w : world) (c : nat) : list Z := match assoc c (w_loaded w) with Some n => n | None => [] end.
(** A tag is in use from the first call with it on: it gets the level of the environment, or that of the
    default tag, or 6. *)
Definition use (env : list Z -> Z) (w : world) (c : nat) : world :=
  match assoc c (w_used w) with
  | Some _ => w
  | None =>
    let v := env (name_in w c) in
    mkW (w_loaded w) ((c, if 0 <=? v then v else match assoc 0%nat (w_used w) with Some d => d | None => 6 end) :: w_used w)
  end.
Definition level_in (w : world) (c : nat) : Z := match assoc c (w_used w) with Some v => v | None => -1 end.
Definition change (w : world) (c : nat) (v : Z) : world :=
  mkW (w_loaded w) (map (fun p => if Nat.eqb (fst p) c then (c, Z.max 0 (Z.min 7 v)) else p) (w_used w)).
(** What a call does and gives. *)
Definition expected (env : list Z -> Z) (w : world) (o : op) : world * out :=
  match o with
  | Dlopen l => (mkW (l ++ w_loaded w) (w_used w), Done)
  | Dlclose l => (mkW (filter (fun p => negb (existsb (Nat.eqb (fst p)) l)) (w_loaded w))
                    (filter (fun p => negb (existsb (Nat.eqb (fst p)) l)) (w_used w)), Done)
  | Init c => (use env w c, Done)
  | SetLevel c v => (change (use env w c) c v, Done)
  | GetLevel c => (use env w c, Value (level_in (use env w c) c))
  | SetTag name v =>
    match find (fun p => bytes_eqb (name_in w (fst p)) name) (w_used w) with
    | Some p => (change w (fst p) v, Value 0)
    | None => (w, Value (-1))
    end
  | Names n => (w, Tags (map (fun p => name_in w (fst p)) (firstn n (w_used w))))
  | Each => (w, Cookies (filter (fun c => negb (Nat.eqb c 0)) (map fst (w_used w))))
  end.
Fixpoint expectations (env : list Z -> Z) (w : world) (l : list op) : world * list out :=
  match l with [] => (w, []) | o :: l => let (w, x) := expected env w o in let (w, r) := expectations env w l in (w, x :: r) end.

(** What programs do: libraries come where nothing is mapped, the calls are made with mapped cookies. *)
Definition legal (w : world) (o : op) : Prop :=
  match o with
  | Dlopen l => NoDup (map fst l) /\ forall c, In c (map fst l) -> assoc c (w_loaded w) = None
  | Dlclose l => ~ In 0%nat l
  | Init c | SetLevel c _ | GetLevel c => assoc c (w_loaded w) <> None
  | SetTag _ _ | Names _ | Each => True
  end.
(** Calls with a tag, which do not go through all of them. *)
Definition direct (o : op) : Prop := match o with SetTag _ _ | Names _ | Each => False | _ => True end.
(** No library is closed whose tags are in use. *)
Definition keeps (w : world) (o : op) : Prop := match o with Dlclose l => forall c, In c l -> assoc c (w_used w) = None | _ => True end.
Fixpoint all_along (P : world -> op -> Prop) (env : list Z -> Z) (w : world) (l : list op) : Prop :=
  match l with [] => True | o :: l => P w o /\ all_along P env (fst (expected env w o)) l end.
