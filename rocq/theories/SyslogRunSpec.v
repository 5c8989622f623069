(** What C137 says: which messages the syslog functions give. *)
From Coq Require Import ZArith String List Bool.
From Verif Require Import Bytes Ring ParseSpec SaidSpec Syslog SyslogRun.
Import ListNotations.
Open Scope Z_scope.

(** The text of a format with its arguments. *)
Fixpoint text_of (fmt : list item) (ap : list (list Z)) : list Z :=
  match fmt, ap with
  | Lit s :: fmt, _ => s ++ text_of fmt ap
  | Conv :: fmt, a :: ap => a ++ text_of fmt ap
  | _, _ => []
  end.
Definition conversions (fmt : list item) : nat := length (filter (fun i => match i with Conv => true | Lit _ => false end) fmt).

(** The tag of all messages of a process: the name given to openlog, if it was the first call
    (a later openlog does not change it, C71). [h]: the calls of the process. *)
Fixpoint tag_of (h : list op) : list Z :=
  match h with
  | OClose :: h => tag_of h
  | OOpen (Some name) _ :: _ => name
  | _ => []
  end.
(** The gravest is 0. What setlogmask leaves: the highest bit counts, from 2 to 7 (C55). *)
Definition limit_of (mask : Z) : Z := if mask =? 0 then 2 else Z.max 2 (Z.min 7 (Z.log2 (mask mod 2 ^ 32))).
Fixpoint limit (start : Z) (h : list op) : Z :=
  match h with
  | [] => start
  | OMask m :: h => limit (limit_of m) h
  | _ :: h => limit start h
  end.
(** The message of a call after the calls [h] of the same process: priority and text; with the option
    LOG_NDELAY (8) openlog gives one. *)
Definition asked (e : env) (o : op) : option (Z * list Z) :=
  match o with
  | OLog _ prio fmt ap => let t := text_of fmt ap in Some (prio mod 8, if e_long e then t else firstn 255 t)
  | OOpen _ option => if Z.testbit option 3 then Some (6, bytes_of_string "redirecting syslog to ulog") else None
  | _ => None
  end.
Definition message (e : env) (h : list op) (c : wcall) : list (Z * said) :=
  match asked e (w_op c) with
  | Some (prio, text) =>
    if prio <=? limit (e_level e) h then [(w_fid c, mkSaid (w_task c) (w_sec c) (w_nsec c) prio (tag_of (h ++ [w_op c])) text)] else []
  | None => []
  end.
Definition before (fid : Z) (l : list wcall) : list op := map w_op (filter (fun c => w_fid c =? fid) l).
Fixpoint messages (es : Z -> env) (past l : list wcall) : list (Z * said) :=
  match l with
  | [] => []
  | c :: l => message (es (w_fid c)) (before (w_fid c) past) c ++ messages es (past ++ [c]) l
  end.

(** The numbers fit their types, the strings are C strings, a format has the arguments it wants; long
    messages (ULOGWRAPPER_LONG_LOGS) of more than 255 bytes have none (C70), and malloc works. *)
Definition fine (e : env) (o : op) : Prop :=
  match o with
  | OOpen (Some name) _ => ~ In 0 name /\ zlen name <= 1000
  | OLog stack _ fmt ap => length stack = 256%nat /\ conversions fmt = length ap /\ ~ In 0 (text_of fmt ap) /\ zlen (text_of fmt ap) < 2 ^ 31 /\
      (e_long e = true -> 255 < zlen (text_of fmt ap) -> ap = [] /\ e_malloc e <> None)
  | OMask m => - 2 ^ 31 <= m < 2 ^ 31
  | _ => True
  end.
Record proper (procs : list Z) (es : Z -> env) (c : wcall) : Prop := {
  pw_fid : In (w_fid c) procs;
  pw_ids : int32 (t_tgid (w_task c)) /\ int32 (t_pid (w_task c));
  pw_time : 0 <= w_sec c < 2 ^ 31 /\ 0 <= w_nsec c < 2 ^ 31;
  pw_op : fine (es (w_fid c)) (w_op c) }.
