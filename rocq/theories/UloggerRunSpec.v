(** What C134 says: the messages given to runs of ulogger, and how they show. *)
From Coq Require Import ZArith String List Bool.
From Verif Require Import Bytes KlogSpec Ulogger UloggerSpec ProgramSpec UloggerRun.
Import ListNotations.
Open Scope Z_scope.

(** The messages of a command with their times. Without --time: the arguments, or, if there is none, the
    standard input cut at the ends of lines and after 255 bytes, with the times of the clock. With --time:
    lines or arguments with their times. *)
Inductive given (k : command) : list (Z * Z * list Z) -> Prop :=
  | gv_args : ~ In OTime (k_opts k) -> k_args k <> [] -> given k (dated (k_clock k) (k_args k))
  | gv_input : forall ms, ~ In OTime (k_opts k) -> k_args k = [] -> cut (k_input k) ms -> given k (dated (k_clock k) ms)
  | gv_timed_input : forall ss, In OTime (k_opts k) -> k_args k = [] -> k_input k = concat (map stamp_line ss) ->
      Forall stamp_ok ss -> given k (map stamp_item ss)
  | gv_timed_args : forall ts, In OTime (k_opts k) -> ts <> [] -> k_args k = flat_map (fun '(a, b, m) => [a; b; m]) ts ->
      Forall (fun '(a, b, m) => digits a /\ dec_val a < 2 ^ 31 /\ digits b /\ dec_val b < 2 ^ 31) ts ->
      given k (map (fun '(a, b, m) => (dec_val a, dec_val b, m)) ts).

Definition prio_of (k : command) : Z := last_of prio_opt 6 (k_opts k).
Definition name_of (k : command) : list Z := last_of name_opt (k_name k) (k_opts k).
Definition tag_of (k : command) : list Z := last_of tag_opt (bytes_of_string "ulogger") (k_opts k).

(** A message with its command; what does not fit in an entry of 4076 bytes is cut at the end. *)
Definition message : Type := command * (Z * Z * list Z).
Definition fitted (x : message) : list Z :=
  let '(k, (_, _, m)) := x in
  firstn (Z.to_nat (4076 - (zlen (name_of k) + 1) - 4 - (zlen (tag_of k) + 1) - 1)) m.
Definition screen_of (x : message) : list Z := block (prio_of (fst x)) (tag_of (fst x)) (fitted x).
(** The bytes it takes in the buffer of the device. *)
Definition cost_of (x : message) : Z :=
  24 + (zlen (name_of (fst x)) + 1) + 4 + (zlen (tag_of (fst x)) + 1) + (zlen (fitted x) + 1).
Definition costs_of (l : list message) : Z := fold_right (fun x a => cost_of x + a) 0 l.
Definition messages_of (ks : list command) (mss : list (list (Z * Z * list Z))) : list message :=
  concat (map (fun p => map (pair (fst p)) (snd p)) (combine ks mss)).

(** Numbers that fit their types, C strings, names short enough for the entry and texts for the buffers
    of the viewer; raw mode is allowed. *)
Record fine (k : command) (ms : list (Z * Z * list Z)) : Prop := {
  fn_fid : 0 <= k_fid k;
  fn_raw : k_strict k = true -> k_capable k = true;
  fn_pid : int32 (k_pid k) /\ k_pid k <> -1;
  fn_opts : Forall good_opt (k_opts k);
  fn_clock : forall j, 0 <= fst (k_clock k j) < 2 ^ 31 /\ 0 <= snd (k_clock k j) < 2 ^ 31;
  fn_names : ~ In 0 (name_of k) /\ ~ In 0 (tag_of k) /\ zlen (name_of k) + zlen (tag_of k) <= 4000;
  fn_texts : Forall (fun x => ~ In 0 (snd x) /\ zlen (screen_of (k, x)) < 5248) ms }.
