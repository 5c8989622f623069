(** Specification vocabulary for large data sent in chunks and put together again by a reader
    (C147). *)
From Coq Require Import ZArith String List Bool.
From Verif Require Import Bytes Ring RingSpec RingHistory Parse ParseSpec Iov BinChunk Render Live LiveSpec SaidSpec.
Import ListNotations.
Open Scope Z_scope.

(** A binary message of level info (ULOG_INFO and the binary flag). *)
Definition bin_said (t : task) (sec nsec : Z) (tag data : list Z) : said := mkSaid t sec nsec 134 tag data.

(** As [told] (SaidSpec.v), where programs may also write binary vectors with ulog_bin_writev:
    [tag] and its NUL, then the elements of [v]. *)
Inductive given : list op -> list out -> list said -> Prop :=
  | gv_nil : given [] [] []
  | gv_msg : forall ops outs l fid m v, given ops outs l -> sayable m ->
      given (ops ++ [say fid m]) (outs ++ [OutVal v]) (l ++ [m])
  | gv_vec : forall ops outs l fid t sec nsec tag v x, given ops outs l -> sayable (bin_said t sec nsec tag (concat v)) ->
      given (ops ++ [OpWrite fid t sec nsec (iovec (bin_iov (tag ++ [0]) v))]) (outs ++ [OutVal x]) (l ++ [bin_said t sec nsec tag (concat v)])
  | gv_flush : forall ops outs l fid euid v, given ops outs l ->
      given (ops ++ [OpIoctl fid FlushLog euid]) (outs ++ [OutVal v]) []
  | gv_refused : forall ops outs l o x, given ops outs l -> (forall v, x <> OutVal v) -> given (ops ++ [o]) (outs ++ [x]) l
  | gv_quiet : forall ops outs l o x, given ops outs l -> quiet o -> given (ops ++ [o]) (outs ++ [x]) l.
Definition was_given (g : log) (l : list said) : Prop :=
  exists d outs, run (init_dev (g_nm g) (g_mem g) (g_pow2 g)) (g_ops g) = Ok (d, outs) /\ given (g_ops g) outs l.

(** The binary messages of one thread under one tag, as given and as read. *)
Definition gave (pid tid : Z) (tag : list Z) (m : said) : bool :=
  (t_tgid (s_task m) =? pid) && (t_pid (s_task m) =? tid) && (if list_eq_dec Z.eq_dec (s_tag m) tag then true else false) && binary_of (s_prio m).
Definition came (pid tid : Z) (tag : list Z) (u : uentry) : bool :=
  (u_pid u =? pid) && (u_tid u =? tid) && (if list_eq_dec Z.eq_dec (u_tag u) tag then true else false) && u_bin u.

(** A call of ulog_bin_writev_chunk that reported success: the data [data] of all the vector
    given, under [tag], with a header of [n] bytes; [cs]: what its binary messages contained. *)
Definition sent (tag : list Z) (n : Z) (data : list Z) (cs : list (list Z)) : Prop :=
  exists res hdr iov vs, zlen hdr = n /\ concat iov = data /\ zlen data < 2 ^ 64 /\ 38 + zlen tag + n < 2 ^ 64 /\
    ulog_bin_writev_chunk res (zlen tag + 1) hdr iov = Ok (vs, 0) /\ cs = map (@concat Z) vs.

(** Size of a piece: what an entry of 4076 bytes has left besides two names of 16 bytes, the
    priority, the tag, the header and the number of the piece. *)
Definition piece (tag : list Z) (n : Z) : Z := 4076 - 32 - 4 - (zlen tag + 1) - n - 1.

(** A reader that knows the size [n] of the header: number 0 starts new data, other numbers
    continue it; pieces before the first number 0 are thrown away. *)
Fixpoint glue (n : Z) (cur : option (list Z)) (cs : list (list Z)) : list (list Z) :=
  let finished := match cur with Some b => [b] | None => [] end in
  match cs with
  | [] => finished
  | c :: cs =>
    let p := zdrop (n + 1) c in
    if znth n c =? 0 then finished ++ glue n (Some p) cs
    else glue n (match cur with Some b => Some (b ++ p) | None => None end) cs
  end.
