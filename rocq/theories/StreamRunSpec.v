(** What C139 says: the log statements of the threads of a C++ program, and what they say. *)
From Coq Require Import ZArith String List Bool.
From Verif Require Import Bytes Ring ParseSpec SaidSpec ProgramSpec Stream StreamThreads StreamRun.
Import ListNotations.
Open Scope Z_scope.

(** UlogX << piece << piece << ... << std::endl (or std::flush), with the tag of the file. *)
Record statement := mkStat { sx_level : Z; sx_tag : list Z; sx_pieces : list (list Z); sx_endl : bool }.
Definition stat_ops (m : statement) : list op :=
  Tag (sx_tag m) :: map (Write (sx_level m)) (sx_pieces m) ++ (if sx_endl m then [Put (sx_level m) 10] else []) ++ [Flush (sx_level m)].

(** What a thread does in an interleaving; nothing after its end. *)
Definition done_by (t : nat) (l : list top) : list op := flat_map (fun x => match x with Do i o => if Nat.eqb i t then [o] else [] | End _ => [] end) l.
Fixpoint ends_last (t : nat) (l : list top) : Prop :=
  match l with
  | [] => True
  | End i :: r => (i = t -> Forall (fun x => match x with Do j _ | End j => j <> t end) r) /\ ends_last t r
  | _ :: r => ends_last t r
  end.
(** The interleaving [l] is one of threads that run these statements; at most 512 threads. *)
Definition interleaves (threads : nat -> list statement) (l : list top) : Prop :=
  forall t, done_by t l = concat (map stat_ops (threads t)) /\ ends_last t l /\ (512 <= t -> threads t = [])%nat.

(** What a statement says: its level, its tag and its pieces put together, if there is something and the tag lets
    it pass. *)
Definition stat_says (g : cprog) (m : statement) : list (Z * list Z * list Z) :=
  match concat (sx_pieces m) with
  | [] => []
  | text => if sx_level m <=? cp_level g (sx_tag m) then [(sx_level m, sx_tag m, text)] else []
  end.
(** At most 512 bytes, C strings, lines that fit the buffer of the viewer. *)
Record stat_fine (m : statement) : Prop := {
  sf_level : 0 <= sx_level m < 8;
  sf_tag : ~ In 0 (sx_tag m) /\ zlen (sx_tag m) <= 1000;
  sf_text : ~ In 0 (concat (sx_pieces m)) /\ zlen (concat (sx_pieces m)) <= 512;
  sf_room : zlen (block (sx_level m) (sx_tag m) (concat (sx_pieces m))) < 5248 }.
Record prog_fine (g : cprog) : Prop := {
  cf_cap : 512 <= cp_cap g;
  cf_ids : forall t, int32 (t_tgid (cp_task g t)) /\ int32 (t_pid (cp_task g t)) }.
(** What the messages of thread [t] are among messages marked with their threads. *)
Definition of_thread (t : nat) (l : list (nat * (Z * said))) : list (Z * list Z * list Z) :=
  map (fun x => (s_prio (snd (snd x)), s_tag (snd (snd x)), s_msg (snd (snd x)))) (filter (fun x => Nat.eqb (fst x) t) l).
