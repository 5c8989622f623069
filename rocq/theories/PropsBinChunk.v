(** Chunked binary writes: properties C26 to C28.

    [ulog_bin_writev_chunk res tagsize hdr iov] is [Ok (vs, r)]: the vectors it gave to
    ulog_bin_writev, in order, and its result, when the [k]-th ulog_bin_writev returns [res k].
    The sizes are assumed to be those of objects in memory: sums below 2^64. *)
From Coq Require Import ZArith String List Bool Lia ZifyBool ZifyNat Arith.
From Verif Require Import Bytes BytesProofs Ring RingSpec RingHistory Parse Iov ParseSpec ParseProofs ParseE2E
  BinChunk BinChunkSpec BinChunkProofs PropsRing PropsParse.
Import ListNotations.
Open Scope Z_scope.

(** C26.  A successful chunked write gives entries made of the header, the chunk number and a
    non empty piece; the pieces put together are the data, and a reader who drops the header and
    the number of each entry recovers exactly the data. *)
Theorem C26_reassembly : forall res tagsize hdr iov vs, 0 <= tagsize -> 37 + tagsize + zlen hdr < 2 ^ 64 ->
  zlen (concat iov) < 2 ^ 64 ->
  ulog_bin_writev_chunk res tagsize hdr iov = Ok (vs, 0) ->
  (exists ps, map (@concat Z) vs = numbered hdr 0 ps /\ concat ps = concat iov /\ Forall (fun p => p <> []) ps) /\
  concat (map (fun v => zdrop (zlen hdr + 1) (concat v)) vs) = concat iov.
Proof.
  intros res tagsize hdr iov vs H1 H2 H3 E. destruct (Z.leb_spec 4076 (37 + tagsize + zlen hdr)) as [L|L].
  { rewrite refused in E by lia. discriminate E. }
  destruct (writev_chunk_spec tagsize hdr iov H1 H3 L) as (all & ps & O & Ca & Co & Fo & _).
  destruct (O res) as [(E' & _)|(j & _ & _ & Neg & E')]; rewrite E' in E.
  - assert (vs = all) as -> by congruence. apply carries_numbered with (k := 0%nat) in Ca. split.
    + exists ps. split; [exact Ca|]. split; [exact Co|]. eapply Forall_impl; [|exact Fo].
      intros p Hp ->. change (zlen (@nil Z)) with 0 in Hp. lia.
    + rewrite <- Co. rewrite <- (map_map (@concat Z) (zdrop (zlen hdr + 1))). rewrite Ca, numbered_strip. reflexivity.
  - assert (res j = 0) by congruence. lia.
Qed.

(** The same for data in one buffer, given to ulog_bin_write_chunk; it makes the same entries as
    the data cut up in any way and given to ulog_bin_writev_chunk. *)
Theorem C26_one_buffer : forall res tagsize hdr buf, 0 <= tagsize -> 37 + tagsize + zlen hdr < 2 ^ 64 -> zlen buf < 2 ^ 64 ->
  (forall vs, ulog_bin_write_chunk res tagsize hdr buf = Ok (vs, 0) ->
    concat (map (fun v => zdrop (zlen hdr + 1) (concat v)) vs) = buf) /\
  forall iov, concat iov = buf -> exists vs vs' r, ulog_bin_write_chunk res tagsize hdr buf = Ok (vs, r) /\
    ulog_bin_writev_chunk res tagsize hdr iov = Ok (vs', r) /\ map (@concat Z) vs = map (@concat Z) vs'.
Proof.
  intros res tagsize hdr buf H1 H2 H3. assert (E1 : concat [buf] = buf) by apply app_nil_r. split.
  { intros vs E. rewrite <- E1. apply (C26_reassembly res tagsize hdr [buf] vs); try assumption. rewrite E1. exact H3. }
  intros iov E. unfold ulog_bin_write_chunk. destruct (Z.leb_spec 4076 (37 + tagsize + zlen hdr)) as [L|L].
  { exists [], [], (- EINVAL). split; [apply refused; lia|]. split; [apply refused; lia|reflexivity]. }
  destruct (writev_chunk_spec tagsize hdr [buf] H1 ltac:(rewrite E1; exact H3) L) as (a1 & p1 & O1 & C1 & D1 & F1 & G1).
  destruct (writev_chunk_spec tagsize hdr iov H1 ltac:(rewrite E; exact H3) L) as (a2 & p2 & O2 & C2 & D2 & F2 & G2).
  assert (p1 = p2) as -> by (apply (cut_unique _ _ _ F1 G1 F2 G2); congruence).
  apply carries_numbered with (k := 0%nat) in C1. apply carries_numbered with (k := 0%nat) in C2.
  assert (Q : map (@concat Z) a1 = map (@concat Z) a2) by congruence. assert (N : length a1 = length a2) by (rewrite <- (map_length (@concat Z) a1), Q; apply map_length).
  destruct (O1 res) as [(X1 & Y1)|(j1 & J1 & K1 & N1 & X1)]; destruct (O2 res) as [(X2 & Y2)|(j2 & J2 & K2 & N2 & X2)]; rewrite X1, X2.
  - exists a1, a2, 0. auto.
  - specialize (Y1 j2 ltac:(lia)). lia.
  - specialize (Y2 j1 ltac:(lia)). lia.
  - assert (j1 = j2) as <-.
    { destruct (lt_eq_lt_dec j1 j2) as [[X|X]|X]; [specialize (K2 j1 X); lia|exact X|specialize (K1 j2 X); lia]. }
    eexists. eexists. eexists. split; [reflexivity|]. split; [reflexivity|]. rewrite <- !firstn_map, Q. reflexivity.
Qed.
Example C26_buffer_ex : ulog_bin_write_chunk (fun _ => 0) 4030 [1; 2; 3] [10; 11; 12; 13; 14; 15; 16]
  = Ok ([[[1; 2; 3]; [0]; [10; 11; 12; 13; 14; 15]]; [[1; 2; 3]; [1]; [16]]], 0).
Proof. reflexivity. Qed.

(** A tag that leaves room for 6 bytes per chunk; empty vectors and a vector across the boundary. *)
Example C26_ex : ulog_bin_writev_chunk (fun _ => 0) 4030 [1; 2; 3] [[]; [10; 11; 12; 13]; []; [14; 15; 16; 17; 18]; [19]]
  = Ok ([[[1; 2; 3]; [0]; []; [10; 11; 12; 13]; []; [14; 15]]; [[1; 2; 3]; [1]; [16; 17; 18]; [19]]], 0).
Proof. reflexivity. Qed.

(** C27.  Every vector given to ulog_bin_writev fits in one entry of the driver, for every task
    with names of at most 15 characters; and a header that leaves no room is refused, nothing
    being written. *)
Theorem C27_fits : forall res tagsize hdr iov vs r v t, 0 <= tagsize -> 37 + tagsize + zlen hdr < 2 ^ 64 ->
  zlen (concat iov) < 2 ^ 64 -> ulog_bin_writev_chunk res tagsize hdr iov = Ok (vs, r) -> In v vs ->
  zlen (comm_str (t_pcomm t)) <= 15 -> zlen (comm_str (t_tcomm t)) <= 15 ->
  zlen (names t) + 4 + tagsize + zlen (concat v) <= 4076.
Proof.
  intros res tagsize hdr iov vs r v t H1 H2 H3 E Hin N1 N2. pose proof (names_short t N1 N2).
  pose proof (chunk_len _ _ _ _ _ _ H1 H2 H3 E) as F. rewrite Forall_forall in F. specialize (F v Hin). lia.
Qed.

Theorem C27_no_room_refused : forall res tagsize hdr iov, 0 <= tagsize -> 37 + tagsize + zlen hdr < 2 ^ 64 ->
  4076 <= 37 + tagsize + zlen hdr -> ulog_bin_writev_chunk res tagsize hdr iov = Ok ([], - EINVAL).
Proof. exact refused. Qed.

(** A chunk written on a log device is stored uncut: it comes back as one binary entry whose
    data is all of the chunk. *)
Theorem C27_chunk_read_back : forall res tag hdr iov vs r v d fid t sec nsec d' x f,
  38 + zlen tag + zlen hdr < 2 ^ 64 -> zlen (concat iov) < 2 ^ 64 ->
  ulog_bin_writev_chunk res (zlen tag + 1) hdr iov = Ok (vs, r) -> In v vs ->
  reachable d -> lookup fid (d_files d) = Some f -> f_write f = true -> f_raw f = false -> c_string tag ->
  int32 (t_tgid t) -> int32 (t_pid t) -> int32 sec -> int32 nsec ->
  zlen (comm_str (t_pcomm t)) <= 15 -> zlen (comm_str (t_tcomm t)) <= 15 ->
  step d (OpWrite fid t sec nsec (iovec (bin_iov (tag ++ [0]) v))) = Ok (d', x) ->
  exists e, x = OutVal (5 + zlen tag + zlen (concat v)) /\ delivers d d' e /\
    parsed_as (enc 2 e) (mkView sec nsec (t_tgid t) (t_pid t) 6 0 true
       (comm_str (t_pcomm t)) (if t_tgid t =? t_pid t then comm_str (t_pcomm t) else comm_str (t_tcomm t)) tag (concat v)).
Proof.
  intros res tag hdr iov vs r v d fid t sec nsec d' x f H1 H2 E Hin Hr El Hw Hraw Ht Hp Hti Hs Hn N1 N2 St.
  pose proof (zlen_nonneg tag). assert (F : zlen (names t) + 4 + (zlen tag + 1) + zlen (concat v) <= 4076).
  { apply (C27_fits res (zlen tag + 1) hdr iov vs r v t); try assumption; lia. }
  apply (C22_bin_writev_read_back d fid t sec nsec tag v d' x f); try assumption. lia.
Qed.

Example C27_ex : exists vs v d', ulog_bin_writev_chunk (fun _ => 0) (zlen ex_tag + 1) [1; 2; 3] [[]; zrepeat 65 200; []; [66; 67]] = Ok (vs, 0) /\
  In v vs /\ zlen (comm_str (t_pcomm ex_thread)) <= 15 /\ zlen (comm_str (t_tcomm ex_thread)) <= 15 /\ zlen (concat v) = 206 /\
  step (ex_state ex_ops) (OpWrite 1 ex_thread 12 34 (iovec (bin_iov (ex_tag ++ [0]) v))) = Ok (d', OutVal 214).
Proof.
  eexists. eexists. eexists. split; [vm_compute; reflexivity|]. split; [left; reflexivity|].
  split; [vm_compute; discriminate|]. split; [vm_compute; discriminate|]. split; [reflexivity|].
  apply ex_step. vm_compute. reflexivity.
Qed.
(** The bound is tight: with names of 15 characters a full chunk fills the entry exactly. *)
Example C27_ex_tight : ulog_bin_writev_chunk (fun _ => 0) 4030 [1; 2; 3] [[10; 11; 12; 13; 14; 15]]
  = Ok ([[[1; 2; 3]; [0]; [10; 11; 12; 13; 14; 15]]], 0) /\ 32 + 4 + 4030 + zlen (concat [[1; 2; 3]; [0]; [10; 11; 12; 13; 14; 15]]) = 4076.
Proof. split; reflexivity. Qed.
Example C27_ex_refused : 4076 <= 37 + 4036 + zlen [1; 2; 3] /\
  ulog_bin_writev_chunk (fun _ => 0) 4036 [1; 2; 3] [[1]] = Ok ([], - EINVAL) /\
  ulog_bin_writev_chunk (fun _ => 0) 4035 [1; 2; 3] [[1]] = Ok ([[[1; 2; 3]; [0]; [1]]], 0).
Proof. split; [vm_compute; discriminate|]. split; reflexivity. Qed.

(** C28.  No access outside the vectors, no endless loop. *)
Theorem C28_in_bounds : forall res tagsize hdr iov, 0 <= tagsize -> 37 + tagsize + zlen hdr < 2 ^ 64 ->
  zlen (concat iov) < 2 ^ 64 -> exists vs r, ulog_bin_writev_chunk res tagsize hdr iov = Ok (vs, r).
Proof.
  intros res tagsize hdr iov H1 H2 H3. destruct (Z.leb_spec 4076 (37 + tagsize + zlen hdr)) as [L|L].
  { exists [], (- EINVAL). apply refused; lia. }
  destruct (writev_chunk_spec tagsize hdr iov H1 H3 L) as (all & ps & O & _).
  destruct (O res) as [(E & _)|(j & _ & _ & _ & E)]; eexists; eexists; exact E.
Qed.

(** The chunks attempted do not depend on the results of the writes, except that the first
    failing write is the last one, and its result is returned. *)
Theorem C28_stops_at_first_failure : forall tagsize hdr iov, 0 <= tagsize -> 37 + tagsize + zlen hdr < 4076 ->
  zlen (concat iov) < 2 ^ 64 ->
  exists all, forall res,
    (ulog_bin_writev_chunk res tagsize hdr iov = Ok (all, 0) /\ forall j, (j < length all)%nat -> 0 <= res j) \/
    (exists j, (j < length all)%nat /\ (forall i, (i < j)%nat -> 0 <= res i) /\ res j < 0 /\
               ulog_bin_writev_chunk res tagsize hdr iov = Ok (firstn (S j) all, res j)).
Proof.
  intros tagsize hdr iov H1 H2 H3. destruct (writev_chunk_spec tagsize hdr iov H1 H3 H2) as (all & ps & O & _).
  exists all. exact O.
Qed.

Example C28_ex : ulog_bin_writev_chunk (fun k => if (k =? 1)%nat then - EAGAIN else 0) 4033 [1; 2; 3] [[10; 11]; [12; 13; 14; 15]; [16; 17]]
  = Ok ([[[1; 2; 3]; [0]; [10; 11]; [12]]; [[1; 2; 3]; [1]; [13; 14; 15]]], - EAGAIN).
Proof. reflexivity. Qed.

Print Assumptions C26_reassembly.
Print Assumptions C26_one_buffer.
Print Assumptions C27_fits.
Print Assumptions C27_no_room_refused.
Print Assumptions C27_chunk_read_back.
Print Assumptions C28_in_bounds.
Print Assumptions C28_stops_at_first_failure.
