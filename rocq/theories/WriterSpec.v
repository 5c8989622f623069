(** Specification vocabulary for the output functions (C35-C38, C41, C61-C63): everything is
    said about the trace of observable events. *)
From Coq Require Import ZArith String List Bool.
From Verif Require Import Bytes Writer.
Import ListNotations.
Open Scope Z_scope.

(** The state and the trace of an execution. *)
Definition reaches (e : env) (s : state) (tr : list event) : Prop := exists sched, run e init sched = (s, tr).

(** The application only installs functions of its own or functions ulog_get_write_func returned. *)
Definition legal (tr : list event) : Prop :=
  forall tr1 t w tr2, tr = tr1 ++ EvCall t (WSet w) :: tr2 -> (exists f, w = User f) \/ (exists t', In (EvGot t' (Some w)) tr1).

(** No call by thread [t] starts in [tr]. *)
Definition no_call (t : nat) (tr : list event) : Prop := forall o, ~ In (EvCall t o) tr.

(** Messages delivered and texts printed on stderr by a thread. *)
Fixpoint delivs (t : nat) (tr : list event) : list (dest * msg) :=
  match tr with
  | [] => []
  | EvDeliver t' d m :: tr => if Nat.eqb t' t then (d, m) :: delivs t tr else delivs t tr
  | _ :: tr => delivs t tr
  end.
Fixpoint prints (t : nat) (tr : list event) : list (list Z) :=
  match tr with
  | [] => []
  | EvStderr t' l :: tr => if Nat.eqb t' t then l :: prints t tr else prints t tr
  | _ :: tr => prints t tr
  end.

(** Number of calls to open, number of successful device changes. *)
Definition is_open (x : event) : bool := match x with EvOpen _ _ _ => true | _ => false end.
Definition is_devset (x : event) : bool := match x with EvDevSet _ _ true => true | _ => false end.
Definition opens (tr : list event) : Z := zlen (filter is_open tr).
Definition devsets (tr : list event) : Z := zlen (filter is_devset tr).

(** The device chosen by ulog_set_log_device so far. *)
Definition dev_event (d : option (list Z)) (x : event) : option (list Z) :=
  match x with
  | EvDevSet _ n true => Some n
  | EvDevSet _ _ false => None
  | _ => d
  end.
Definition dev_of (tr : list event) : option (list Z) := fold_left dev_event tr None.

(** Descriptors opened and not closed. *)
Definition fd_event (l : list Z) (x : event) : list Z :=
  match x with
  | EvOpen _ _ fd => if fd >=? 0 then fd :: l else l
  | EvClose _ fd => filter (fun f => negb (f =? fd)) l
  | _ => l
  end.
Definition open_fds (tr : list event) : list Z := fold_left fd_event tr [].

(** No other writer is being installed and no device is changed. *)
Definition changes_writer (x : event) : Prop :=
  match x with EvSetBegin _ _ | EvDevSet _ _ true => True | _ => False end.
Definition undisturbed (tr : list event) : Prop := forall x, In x tr -> ~ changes_writer x.

(** Text of one line on stderr: [text] followed by a line feed unless it ends with one. *)
Definition one_line (text : list Z) : list Z := if last text 0 =? 10 then text else text ++ [10].

(** The prefix of a line on stderr: the letter of the level between optional colour sequences,
    a space, the tag, a colon and a space. *)
Definition level_letter (prio : Z) : Z := nth (Z.to_nat (prio mod 8)) [32; 32; 67; 69; 87; 78; 73; 68] 0.   (* "  CEWNID" *)
Definition colour_start (x : list Z) : Prop := exists attr, x = [27; 91] ++ attr ++ [109] /\ Forall (fun b => 48 <= b <= 59) attr.
Definition colour_end : list Z := [27; 91; 48; 109].
Definition stderr_prefix (color : bool) (m : msg) (p : list Z) : Prop :=
  exists pre post, p = pre ++ [level_letter (m_prio m)] ++ post ++ [32] ++ m_tag m ++ [58; 32] /\
    (if color && (2 <=? m_prio m mod 8) then colour_start pre /\ post = colour_end else pre = [] /\ post = []).

(** The time given to writer_update_replay_timestamp so far, and its text. *)
Definition replay_event (r : option (Z * Z)) (x : event) : option (Z * Z) :=
  match x with EvCall _ (WReplay sec nsec) => Some (sec, nsec) | _ => r end.
Definition replay_of (tr : list event) : option (Z * Z) := fold_left replay_event tr None.
Definition replay_text (r : option (Z * Z)) (x : list Z) : Prop :=
  match r with
  | None => x = []
  | Some (sec, nsec) => exists ms, x = dec_d sec ++ [46] ++ ms ++ [32] /\ zlen ms = 3 /\
      (0 <= nsec < 1000000000 -> fold_left (fun v d => v * 10 + (d - 48)) ms 0 = nsec / 1000000)
  end.
