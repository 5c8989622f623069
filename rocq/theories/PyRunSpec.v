(** What C161 says: the lines that a program with a ULogDeviceHandler logs, and what is printed for them. *)
From Coq Require Import ZArith String List Bool.
From Verif Require Import Bytes Ring RingSpec ParseSpec SaidSpec ProgramSpec SaidRunSpec Py PySpec PyDev PyDevSpec PyRun.
Import ListNotations.
Open Scope Z_scope.

(** A line: who logged it, with which priority and tag. *)
Record pline := mkLine { l_pid : Z; l_tid : Z; l_pname : list Z; l_tname : list Z; l_prio : Z; l_tag : list Z; l_text : list Z }.
(** The priorities: 0 gravest, 3 error, 4 warning, 6 information, 7 debug. *)
Definition device_prio : list (Z * Z) := [(50, 0); (40, 3); (30, 4); (20, 6); (10, 7)].
(** [tells comm before l lines]: after the settings [before], the program named [comm] logs [lines] by [l],
    the clock being read once for each. *)
Inductive tells (comm : list Z) : list hop -> list happening -> list pline -> Prop :=
| t_end before : tells comm before [] []
| t_set before o l lines : tells comm (before ++ [o]) l lines -> tells comm before (Sets o :: l) lines
| t_log before w t sec nsec ticks level name text tag message prio texts l lines :
    encoding name tag -> encoding text message -> lines_of message texts -> In (level, prio) device_prio -> length ticks = length texts ->
    tells comm before l lines ->
    tells comm before (Logs w t sec nsec ticks (mkRec level name text) :: l)
      (map (mkLine (last_pid (i_pid w) before) (last_tid (i_tid w) before) (last_pname comm before) (last_tname (i_name w) before) prio tag) texts ++ lines).

(** What is asked from what the program does: the process is the one that made the handler ([pid]), system
    call 186 is gettid, names of threads are ASCII, the texts can be encoded, the clock is before 2038. *)
Definition orderly (sys186 : who -> Z) (pid : Z) (x : happening) : Prop :=
  match x with
  | Sets o => meant o
  | Logs w _ _ _ ticks r => i_pid w = pid /\ sys186 w = i_tid w /\ Forall (fun c => 0 < c < 128) (i_name w) /\
      Forall scalar (r_name r) /\ Forall scalar (r_text r) /\ Forall (fun q => reading (fst q) (snd q)) ticks
  end.
(** The ids and the names are proper and the line fits an entry and the buffer of the viewer. *)
Record fits (x : pline) : Prop := {
  ft_ids : ParseSpec.int32 (l_pid x) /\ ParseSpec.int32 (l_tid x) /\ ~ (l_pid x = -1 /\ l_tid x = -1);
  ft_names : c_string (l_pname x) /\ c_string (l_tname x);
  ft_size : zlen (l_pname x) + zlen (l_tname x) + zlen (l_tag x) + zlen (l_text x) <= 4068;
  ft_room : zlen (block (l_prio x) (l_tag x) (l_text x)) < 5248 }.
(** The bytes that a line takes in the buffer of the device. *)
Definition cost_of (x : pline) : Z :=
  24 + (zlen (l_pname x) + 1) + (if l_pid x =? l_tid x then 0 else zlen (l_tname x) + 1) + 4 + (zlen (l_tag x) + 1) + (zlen (l_text x) + 1).
Definition costs_of (l : list pline) : Z := fold_right (fun x a => cost_of x + a) 0 l.
(** No white space at the ends. *)
Definition unspaced (b : list Z) : Prop := forall a r, b = a :: r \/ b = r ++ [a] -> a <> 32 /\ ~ (9 <= a <= 13).

(** Without raw mode the driver names the task and the time of the write: what is said through the file [fid]. *)
Inductive tells_plain (fid : Z) : list happening -> list (Z * said) -> Prop :=
| p_end : tells_plain fid [] []
| p_set o l lines : tells_plain fid l lines -> tells_plain fid (Sets o :: l) lines
| p_log w t sec nsec ticks level name text tag message prio texts l lines :
    encoding name tag -> encoding text message -> lines_of message texts -> In (level, prio) device_prio -> length ticks = length texts ->
    Forall scalar name -> Forall scalar text -> tells_plain fid l lines ->
    tells_plain fid (Logs w t sec nsec ticks (mkRec level name text) :: l) (map (fun x => (fid, mkSaid t sec nsec prio tag x)) texts ++ lines).
Record ordinary (x : Z * said) : Prop := {
  or_ids : ParseSpec.int32 (t_tgid (s_task (snd x))) /\ ParseSpec.int32 (t_pid (s_task (snd x)));
  or_time : 0 <= s_sec (snd x) < 2 ^ 31 /\ 0 <= s_nsec (snd x) < 2 ^ 31;
  or_size : zlen (names (s_task (snd x))) + 5 + zlen (s_tag (snd x)) < 4076;
  or_room : roomy x }.
