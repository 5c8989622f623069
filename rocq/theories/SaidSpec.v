(** What C105 says: messages given to the library, and how a viewer shows them. *)
From Coq Require Import ZArith String List Bool Sorted.
From Verif Require Import Bytes Ring RingSpec RingHistory Parse ParseSpec Iov Render Live LiveSpec.
Import ListNotations.
Open Scope Z_scope.

(** A message: who logs it and when, priority word, tag and text (or data, if the priority says
    binary). *)
Record said := mkSaid { s_task : task; s_sec : Z; s_nsec : Z; s_prio : Z; s_tag : list Z; s_msg : list Z }.

(** The call that the library makes for it on the file [fid] (Iov.v). *)
Definition say (fid : Z) (m : said) : op :=
  OpWrite fid (s_task m) (s_sec m) (s_nsec m)
    (iovec (kernel_iov (s_prio m) (s_tag m) (if binary_of (s_prio m) then s_msg m else s_msg m ++ [0]))).
Definition sayable (m : said) : Prop :=
  c_string (s_tag m) /\ (binary_of (s_prio m) = false -> c_string (s_msg m)) /\ uint32 (s_prio m) /\
  int32 (t_tgid (s_task m)) /\ int32 (t_pid (s_task m)) /\ int32 (s_sec m) /\ int32 (s_nsec m) /\
  zlen (names (s_task m)) + 5 + zlen (s_tag m) < 4076.

(** System calls that neither write, flush, nor change the mode of a file. *)
Definition quiet (o : op) : Prop :=
  match o with
  | OpWrite _ _ _ _ _ | OpIoctl _ FlushLog _ | OpIoctl _ (SetRawMode _ _ _) _ => False
  | _ => True
  end.

(** The messages accepted since creation or the last flush, when the calls [ops] had the results
    [outs] and everything written was a message of the library. *)
Inductive told : list op -> list out -> list said -> Prop :=
  | td_nil : told [] [] []
  | td_msg : forall ops outs l fid m v, told ops outs l -> sayable m ->
      told (ops ++ [say fid m]) (outs ++ [OutVal v]) (l ++ [m])
  | td_flush : forall ops outs l fid euid v, told ops outs l ->
      told (ops ++ [OpIoctl fid FlushLog euid]) (outs ++ [OutVal v]) []
  | td_refused : forall ops outs l o x, told ops outs l -> (forall v, x <> OutVal v) ->
      told (ops ++ [o]) (outs ++ [x]) l
  | td_quiet : forall ops outs l o x, told ops outs l -> quiet o -> told (ops ++ [o]) (outs ++ [x]) l.
Definition was_told (g : log) (l : list said) : Prop :=
  exists d outs, run (init_dev (g_nm g) (g_mem g) (g_pow2 g)) (g_ops g) = Ok (d, outs) /\ told (g_ops g) outs l.

(** A message as shown; what does not fit in an entry of 4076 bytes is cut at the end. *)
Definition fitting (m : said) : list Z :=
  ztake (4076 - zlen (names (s_task m)) - 5 - zlen (s_tag m) - (if binary_of (s_prio m) then 0 else 1)) (s_msg m).
Definition shown (m : said) : uentry :=
  let t := s_task m in
  mkU (s_sec m) (s_nsec m) (level_of (s_prio m)) (t_tgid t) (comm_str (t_pcomm t)) (t_pid t)
      (if t_tgid t =? t_pid t then comm_str (t_pcomm t) else comm_str (t_tcomm t))
      (s_tag m) (fitting m) (binary_of (s_prio m)) (color_of (s_prio m)).
(** The bytes it takes in the buffer of the device. *)
Definition weight (m : said) : Z :=
  24 + zlen (names (s_task m)) + 5 + zlen (s_tag m) + zlen (fitting m) + (if binary_of (s_prio m) then 0 else 1).
Definition weights (l : list said) : Z := fold_right (fun m a => weight m + a) 0 l.
(** The warning about [n] lost messages, with the time of the next one. *)
Definition warning (nm : list Z) (n : Z) (next : said) (u : uentry) : Prop :=
  exists text, u = mkU (s_sec next) (s_nsec next) 4 (-1) [] (-1) [] nm text false 0 /\
    (n < 2 ^ 31 -> exists digits, text = digits ++ bytes_of_string " log entries dropped" ++ [10] /\
       Forall (fun c => 48 <= c <= 57) digits /\ fold_left (fun a c => 10 * a + (c - 48)) digits 0 = n /\
       (forall r, digits = 48 :: r -> r = [])).

(** What a viewer must show of a device that was told [l]: the latest messages (those of the caller
    [uid], without the right to read all), after a warning if older ones are gone; they are not unless
    the rest takes nearly the whole buffer. *)
Definition remembers (uid : Z) (g : log) (l : list said) (us : list uentry) : Prop :=
  exists lost kept, l = lost ++ kept /\ (lost = [] \/ 2 ^ g_pow2 g - 12300 < weights kept) /\
    let mine := if g_all g then kept else filter (fun m => t_euid (s_task m) mod 2 ^ 32 =? uid mod 2 ^ 32) kept in
    match mine with
    | [] => us = []
    | next :: _ =>
      (lost = [] /\ us = map shown mine) \/
      (lost <> [] /\ exists r, warning (g_nm g) (zlen lost) next r /\ us = r :: map shown mine)
    end.

(** Times are not negative and do not decrease. *)
Definition said_time (m : said) : Z := s_sec m * 1000000 + s_nsec m / 1000.
Definition in_time (l : list said) : Prop :=
  StronglySorted (fun a b => said_time a <= said_time b) l /\ Forall (fun m => 0 <= s_sec m /\ 0 <= s_nsec m) l.
