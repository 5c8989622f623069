(** Vocabulary for the properties of the log device: histories, what a reader still has to get,
    reachable states.  Nothing here refers to rings, offsets or to the abstract device. *)
From Coq Require Import ZArith String List Bool.
From Verif Require Import Bytes Ring RingSpec.
Import ListNotations.
Open Scope Z_scope.

(** A history: the system calls in the order of their critical sections, each with its labelled
    result.  [render] (RingSpec) turns the labels into what callers observe. *)
Definition history := list (op * aout).

(** Bookkeeping made by an outside observer of a history. *)
Record ledger := mkLedger {
  m_acc : list entry;          (** entries accepted since creation or the last flush *)
  m_raw : Z -> bool;           (** file in raw mode *)
  m_all : Z -> bool;           (** file opened with the right to read everything *)
  m_seen : Z -> Z;             (** entries received plus drop counts reported, since open or flush *)
  m_got : Z -> list entry      (** entries received, since open or flush *)
}.

Definition set {A} (f : Z -> A) (k : Z) (v : A) : Z -> A := fun i => if i =? k then v else f i.

Definition ledger0 : ledger := mkLedger [] (fun _ => false) (fun _ => false) (fun _ => 0) (fun _ => []).

Definition record (m : ledger) (ev : op * aout) : ledger :=
  match ev with
  | (OpOpen fid _ _ all _, AVal _) =>
    mkLedger (m_acc m) (set (m_raw m) fid false) (set (m_all m) fid all)
             (set (m_seen m) fid 0) (set (m_got m) fid [])
  | (OpWrite fid t sec nsec it, AVal _) =>
    let e := requested (m_raw m fid) t sec nsec it in
    if zlen (e_payload e) =? 0 then m
    else mkLedger (m_acc m ++ [e]) (m_raw m) (m_all m) (m_seen m) (m_got m)
  | (OpIoctl _ FlushLog _, AVal _) =>
    mkLedger [] (m_raw m) (m_all m) (fun _ => 0) (fun _ => [])
  | (OpIoctl fid (SetRawMode (Some v) _ _) _, AVal _) =>
    mkLedger (m_acc m) (set (m_raw m) fid (v =? 1)) (m_all m) (m_seen m) (m_got m)
  | (OpReadBody fid _ _ _, AEntry _ e) =>
    mkLedger (m_acc m) (m_raw m) (m_all m) (set (m_seen m) fid (m_seen m fid + 1))
             (set (m_got m) fid (m_got m fid ++ [e]))
  | (OpReadBody fid _ _ _, AReport _ _ n _) =>
    mkLedger (m_acc m) (m_raw m) (m_all m) (set (m_seen m) fid (m_seen m fid + n)) (m_got m)
  | _ => m
  end.

Definition ledger_of (h : history) : ledger := fold_left record h ledger0.

(** The operations [ops] on a new device have the observable results of the history [h]. *)
Definition explains (h : history) (nm mem : list Z) (pow2 : Z) (ops : list op) (d : dev) : Prop :=
  map fst h = ops /\
  run (init_dev nm mem pow2) ops = Ok (d, map (fun ev => render (snd ev)) h).

(** [P] holds of every event with the ledger of what precedes it. *)
Definition always (P : ledger -> op -> aout -> Prop) (h : history) : Prop :=
  forall pre o x post, h = pre ++ (o, x) :: post -> P (ledger_of pre) o x.

(** [a] is a subsequence of [b]. *)
Inductive subseq {A} : list A -> list A -> Prop :=
  | subseq_nil : forall l, subseq [] l
  | subseq_keep : forall x a b, subseq a b -> subseq (x :: a) (x :: b)
  | subseq_skip : forall x a b, subseq a b -> subseq a (x :: b).

(** Device states that system calls from user space can produce. *)
Definition reachable (d : dev) : Prop :=
  exists nm mem pow2 ops outs, init_ok nm mem pow2 /\ Forall user_op ops /\
    run (init_dev nm mem pow2) ops = Ok (d, outs).

(** Reads with a buffer large enough for anything, until nothing is left: the data obtained. *)
Inductive drains : dev -> Z -> Z -> list (list Z) -> Prop :=
  | drains_end : forall d d' fid euid,
      step d (OpReadBody fid euid 8192 8192) = Ok (d', OutRetry) -> drains d fid euid []
  | drains_more : forall d d' fid euid bs l,
      step d (OpReadBody fid euid 8192 8192) = Ok (d', OutData bs) ->
      drains d' fid euid l -> drains d fid euid (bs :: l).

(** A reader with [n] unreported losses and backlog [q] gets: a report (if [n] is not 0 and
    there is an entry), then the entries. *)
Definition stream (nm : list Z) (ver n : Z) (q : list entry) : list (list Z) :=
  match q with
  | [] => []
  | e :: _ => (if 0 <? n then [enc ver (report nm n e)] else []) ++ map (enc ver) q
  end.

(** Modes of an open file. *)
Definition reader_of (d : dev) (fid : Z) : option reader :=
  match lookup fid (d_files d) with Some f => f_reader f | None => None end.
Definition is_reader (d : dev) (fid : Z) : Prop := exists r, reader_of d fid = Some r.
Definition unrestricted (d : dev) (fid : Z) : Prop :=
  exists r, reader_of d fid = Some r /\ r_all r = true.
Definition version (d : dev) (fid ver : Z) : Prop :=
  exists r, reader_of d fid = Some r /\ r_ver r = ver.

(** What an unrestricted file will get: [n] unreported losses then [q], whoever calls. *)
Definition owes (d : dev) (fid n : Z) (q : list entry) : Prop :=
  exists ver, version d fid ver /\
  forall euid, drains d fid euid (stream (name (d_log d)) ver n q).

(** What an unrestricted reader will get, the file [fid] being open already or, if it is not,
    opened now. *)
Definition would_get (d : dev) (fid n : Z) (q : list entry) : Prop :=
  match lookup fid (d_files d) with
  | Some _ => owes d fid n q
  | None => exists d1, step d (OpOpen fid true false true false) = Ok (d1, OutVal 0) /\ owes d1 fid n q
  end.

(** Number [k] of oldest entries of a backlog [q] that making room for [need] bytes may cost. *)
Definition minimal_loss (cap need : Z) (q : list entry) (k : nat) : Prop :=
  (total q + need < cap -> k = 0%nat) /\
  (cap <= total q + need ->
   (0 < k <= length q)%nat /\ total (firstn (k - 1) q) < need <= total (firstn k q)).

(** All the bytes of a write are accessible. *)
Definition readable (it : iter) : Prop :=
  match it with
  | IterIovec segs => Forall (fun s => zlen (s_data s) <= s_valid s) segs
  | IterUbuf s => zlen (s_data s) <= s_valid s
  | IterOther _ => False
  end.

(** A drop report is due to the file. *)
Definition report_due (d : dev) (fid : Z) : Prop :=
  exists r, reader_of d fid = Some r /\ r_dropped r <> 0.

(** Entries accepted in a history, in order, each with the call that made it: file mode, task,
    time and data. *)
Definition made_by (h : history) (e : entry) : Prop :=
  exists pre fid t sec nsec it v post,
    h = pre ++ (OpWrite fid t sec nsec it, AVal v) :: post /\
    e = requested (m_raw (ledger_of pre) fid) t sec nsec it.

(** Number of successful writes in a history. *)
Definition writes (h : history) : Z :=
  zlen (filter (fun ev => match ev with (OpWrite _ _ _ _ _, AVal _) => true | _ => false end) h).

(** Two devices nobody can tell apart by any sequence of system calls. *)
Definition indistinguishable (d1 d2 : dev) : Prop :=
  forall ops, Forall user_op ops ->
  exists d1' d2' outs, run d1 ops = Ok (d1', outs) /\ run d2 ops = Ok (d2', outs).

(** The file an operation is made on. *)
Definition op_file (o : op) : Z :=
  match o with
  | OpOpen fid _ _ _ _ | OpClose fid | OpReadCheck fid _ _ | OpReadBody fid _ _ _
  | OpWrite fid _ _ _ _ | OpPoll fid _ | OpIoctl fid _ _ => fid
  end.

(** Reads, polls, queries and version changes. *)
Definition passive (o : op) : Prop :=
  match o with
  | OpReadCheck _ _ _ | OpReadBody _ _ _ _ | OpPoll _ _ => True
  | OpIoctl _ c _ =>
    match c with
    | GetLogBufSize | GetLogLen | GetNextEntryLen | GetVersion | SetVersion _ | OtherCmd => True
    | FlushLog | SetRawMode _ _ _ => False
    end
  | _ => False
  end.

(** The results of the operations made on files other than [fid]. *)
Fixpoint outputs_except (fid : Z) (ops : list op) (outs : list out) : list out :=
  match ops, outs with
  | o :: ops', x :: outs' =>
    if op_file o =? fid then outputs_except fid ops' outs' else x :: outputs_except fid ops' outs'
  | _, _ => []
  end.
