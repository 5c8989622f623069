(** What the claims about the ulogger tool (C74 to C79) say. *)
From Coq Require Import ZArith String List Bool.
From Verif Require Import Bytes KlogSpec Ulogger.
Import ListNotations.
Open Scope Z_scope.

(** ** Options: the last one of each kind counts *)
Definition last_of {A} (f : opt -> option A) (d : A) (l : list opt) : A :=
  fold_left (fun a o => match f o with Some x => x | None => a end) l d.
Definition tag_opt (o : opt) := match o with OTag a => Some a | _ => None end.
Definition name_opt (o : opt) := match o with OName a => Some a | _ => None end.
(** A process number, with or without a minus sign; anything else is not one and changes nothing. *)
Definition decb (a : list Z) : bool := negb (zlen a =? 0) && forallb (fun c => (48 <=? c) && (c <=? 57)) a.
Definition number (a : list Z) : option Z :=
  if decb a then Some (dec_val a) else if (hd 0 a =? 45) && decb (tl a) then Some (- dec_val (tl a)) else None.
Definition pid_opt (o : opt) := match o with OPid a => number a | _ => None end.
(** One letter of CEWNID, or a digit, 8 and 9 counting as 7; the default is 6 (info). *)
Definition levels : list (string * Z) :=
  [("C", 2); ("E", 3); ("W", 4); ("N", 5); ("I", 6); ("D", 7);
   ("0", 0); ("1", 1); ("2", 2); ("3", 3); ("4", 4); ("5", 5); ("6", 6); ("7", 7); ("8", 7); ("9", 7)]%string.
Definition level_named (a : list Z) : Z :=
  match find (fun p => bytes_eqb (bytes_of_string (fst p)) (firstn 1 a)) levels with Some (_, v) => v | None => 6 end.
Definition prio_opt (o : opt) := match o with OPrio a => Some (level_named a) | _ => None end.
Definition time_opt (o : opt) := match o with OTime => Some true | _ => None end.
Definition err_opt (o : opt) := match o with OStderr => Some true | _ => None end.
(** Process numbers given are decimal int32 (-1, which the device does not take, excepted), or texts that
    are not numbers: empty, or with something else than a digit after some digits. Missing: a plus sign,
    white space before the number. *)
Definition wrong (a : list Z) : Prop :=
  a = [] \/ exists ds c r, a = ds ++ c :: r /\ Forall (fun c => 48 <= c <= 57) ds /\ ~ (48 <= c <= 57) /\ c <> 0 /\
    (ds = [] -> c <> 43 /\ c <> 45 /\ c <> 32 /\ ~ (9 <= c <= 13)).
Definition good_opt (o : opt) : Prop :=
  match o with
  | OPid a => wrong a \/ exists v, number a = Some v /\ - 2 ^ 31 <= v < 2 ^ 31 /\ v <> -1
  | _ => True
  end.

(** ** Entries: the bytes of one write in raw mode, process and thread being the same *)
Definition entry (pid sec nsec prio : Z) (name tag msg : list Z) : list Z :=
  le 4 pid ++ le 4 pid ++ le 4 sec ++ le 4 nsec ++ le 4 0 ++ name ++ [0] ++ le 4 prio ++ tag ++ [0] ++ msg ++ [0].
Definition entries (evs : list event) : list (list Z) :=
  flat_map (fun e => match e with Write v => [concat v] | _ => [] end) evs.
Definition strs (evs : list event) : list (Z * list Z * list Z) :=
  flat_map (fun e => match e with Str p t m => [(p, t, m)] | _ => [] end) evs.
(** The entries of a run with options [opts] for the messages [ms] with their times. *)
Definition entries_for (pid : Z) (name : list Z) (opts : list opt) (ms : list (Z * Z * list Z)) : list (list Z) :=
  map (fun '(sec, nsec, m) =>
    entry (last_of pid_opt pid opts) sec nsec (last_of prio_opt 6 opts) (last_of name_opt name opts)
          (last_of tag_opt (bytes_of_string "ulogger") opts) m) ms.
(** Messages with the times of the clock, in order. *)
Definition dated (clock : nat -> Z * Z) (ms : list (list Z)) : list (Z * Z * list Z) :=
  map (fun p => (clock (fst p), snd p)) (combine (seq 0 (length ms)) ms).

(** ** Cutting the input in messages: at the ends of lines, and after 255 bytes *)
Definition piece (m : list Z) : Prop := m <> [] /\ zlen m <= 255 /\ ~ In 10 (removelast m).
Definition complete (m : list Z) : Prop := zlen m = 255 \/ last m 0 = 10.
Definition cut (s : list Z) (l : list (list Z)) : Prop :=
  concat l = s /\ Forall piece l /\ Forall complete (removelast l).

(** ** The copy on stderr *)
Definition chomp (m : list Z) : list Z := if last m 0 =? 10 then removelast m else m.
Definition letter (prio : Z) : Z := nth (Z.to_nat prio) (bytes_of_string "01CEWNID") 63.
Definition copy (prio : Z) (tag m : list Z) : list Z :=
  [letter prio; 32] ++ tag ++ [58; 32] ++ chomp m ++ [10].
(** An event that logs message [m]. *)
Definition logs (x : event) (m : list Z) : Prop :=
  (exists pid sec nsec prio name tag v, x = Write v /\ concat v = entry pid sec nsec prio name tag m) \/
  (exists prio tag, x = Str prio tag m).
(** Every message logged is copied at once; the run ends with the exit. *)
Inductive copied (prio : Z) (tag : list Z) : list event -> Prop :=
| CopiedEnd k : copied prio tag [Exit k]
| CopiedFail x m k : logs x m -> copied prio tag [x; Exit k]
| CopiedMsg x m r : logs x m -> copied prio tag r -> copied prio tag (x :: Err (copy prio tag m) :: r).

(** ** Messages with their times *)
(** A line SEC NSEC text or SEC text, with one or more spaces before the text. *)
Record stamped := mkStamp { s_sec : list Z; s_nsec : option (list Z); s_sp : nat; s_text : list Z }.
Definition stamp_line (s : stamped) : list Z :=
  s_sec s ++ [32] ++ match s_nsec s with Some n => n ++ [32] | None => [] end ++ repeat 32 (s_sp s) ++ s_text s ++ [10].
Definition stamp_ok (s : stamped) : Prop :=
  digits (s_sec s) /\ dec_val (s_sec s) < 2 ^ 31 /\
  ~ In 10 (s_text s) /\ ~ In 0 (s_text s) /\ zlen (stamp_line s) <= 255 /\
  match s_nsec s with
  | Some n => digits n /\ dec_val n < 2 ^ 31 /\ hd 10 (s_text s) <> 32
  | None => 44 <= hd 0 (s_text s) /\ hd 0 (s_text s) <> 45 /\ ~ 48 <= hd 0 (s_text s) <= 57
  end.
Definition stamp_item (s : stamped) : Z * Z * list Z :=
  (dec_val (s_sec s), match s_nsec s with Some n => dec_val n | None => 0 end, s_text s ++ [10]).
