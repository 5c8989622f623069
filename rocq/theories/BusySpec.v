(** What C107 says: what other processes log while the reader runs, and what it shows of it. *)
From Coq Require Import ZArith String List Bool.
From Verif Require Import Bytes Ring RingHistory Parse Render Live LiveSpec SaidSpec.
Import ListNotations.
Open Scope Z_scope.

(** A call that another process may make on a device whose reader uses the file [fid]: not on that
    file; if it writes, a message of the library; it does not change the mode of its file. *)
Definition polite (fid : Z) (o : op) : Prop :=
  op_file o <> fid /\
  match o with
  | OpWrite f _ _ _ _ => exists m, sayable m /\ o = say f m
  | OpIoctl _ (SetRawMode _ _ _) _ => False
  | _ => True
  end.

(** What happened to a device: messages accepted, and flushes ([None]). [timeline l0 tr tl]: with
    the calls and results [tr], [l0] became [tl]. *)
Inductive timeline (l0 : list (option said)) : list (op * out) -> list (option said) -> Prop :=
  | tm_nil : timeline l0 [] l0
  | tm_msg : forall tr tl fid m v, timeline l0 tr tl -> sayable m ->
      timeline l0 (tr ++ [(say fid m, OutVal v)]) (tl ++ [Some m])
  | tm_flush : forall tr tl fid euid v, timeline l0 tr tl ->
      timeline l0 (tr ++ [(OpIoctl fid FlushLog euid, OutVal v)]) (tl ++ [None])
  | tm_other : forall tr tl o x, timeline l0 tr tl -> (quiet o \/ forall v, x <> OutVal v) ->
      timeline l0 (tr ++ [(o, x)]) tl.

(** How a part of what happened is told to a reader that may see the messages for which [vis]
    holds. Each message is shown, or is another user's, or is counted in a warning that comes in
    its place, or was flushed. [later]: the messages whose time a warning may have. *)
Inductive tells (vis : said -> bool) (nm : list Z) (later : said -> Prop) : list (option said) -> list uentry -> Prop :=
  | ts_nil : tells vis nm later [] []
  | ts_msg : forall tl us m, tells vis nm later tl us -> vis m = true ->
      tells vis nm later (tl ++ [Some m]) (us ++ [shown m])
  | ts_foreign : forall tl us m, tells vis nm later tl us -> vis m = false ->
      tells vis nm later (tl ++ [Some m]) us
  | ts_lost : forall tl us gap next u, tells vis nm later tl us ->
      (* [gap]: messages, and whether they are counted *)
      (forall m, In (m, false) gap -> vis m = false) -> filter snd gap <> [] ->
      later next -> warning nm (zlen (filter snd gap)) next u ->
      tells vis nm later (tl ++ map Some (map fst gap)) (us ++ [u])
  | ts_flush : forall tl us gone, tells vis nm later tl us ->
      tells vis nm later (tl ++ map Some gone ++ [None]) us.

(** The reader [uid] of the device [g] may see [m]. *)
Definition sees (uid : Z) (g : log) (m : said) : bool :=
  g_all g || (t_euid (s_task m) mod 2 ^ 32 =? uid mod 2 ^ 32).
(** The calls for device [i], in order. *)
Definition calls_on (i : nat) (batches : list (list (nat * op))) : list op :=
  map snd (filter (fun io => Nat.eqb (fst io) i) (concat batches)).
(** The calls that are not made on the file [fid]. *)
Definition of_others (fid : Z) (ops : list op) : list op := filter (fun o => negb (op_file o =? fid)) ops.
(** What is shown of device [i]. *)
Definition entries_of (i : nat) (l : list (nat * uentry)) : list uentry :=
  map snd (filter (fun p => Nat.eqb (fst p) i) l).
