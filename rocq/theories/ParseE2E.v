(** From a library call through the driver to the parser. *)
From Coq Require Import ZArith String List Bool Lia ZifyBool ZifyNat.
From Verif Require Import Bytes BytesProofs Ring RingSpec RingHistory RingRefine RingLemmas Parse Iov ParseSpec ParseProofs.
Import ListNotations.
Open Scope Z_scope.

Lemma iovec_bytes : forall v, iter_bytes (iovec v) = concat v.
Proof.
  intros v. unfold iovec. cbn [iter_bytes]. rewrite map_map. cbn [s_data]. rewrite map_id. reflexivity.
Qed.

Lemma iovec_user : forall v, user_iter (iovec v).
Proof. intros v. exact I. Qed.

Lemma segs_fault_no : forall v n, segs_fault (map (fun b => mkSeg b (zlen b)) v) n = false.
Proof.
  induction v as [|b v IH]; intros n; [reflexivity|]. cbn [map segs_fault s_data s_valid].
  rewrite IH, orb_false_r. lia.
Qed.

Lemma iovec_nofault : forall v n, iter_fault (iovec v) n = false.
Proof. intros. apply segs_fault_no. Qed.

Lemma write_delivers : forall d fid t sec nsec v d' x f, reachable d ->
  lookup fid (d_files d) = Some f -> f_write f = true ->
  step d (OpWrite fid t sec nsec (iovec v)) = Ok (d', x) ->
  let e := requested (f_raw f) t sec nsec (iovec v) in
  e_payload e <> [] -> (f_raw f = true -> 20 <= zlen (concat v)) ->
  x = OutVal (accepted (f_raw f) t (iovec v)) /\ delivers d d' e.
Proof.
  intros d fid t sec nsec v d' x f Hr El Hw E e Hne H20.
  destruct (write_effect d fid t sec nsec (iovec v) d' x f Hr (iovec_user v) El Hw E)
    as [(A & B & _)|[(A & _)|[(_ & _ & Hx & H)|(_ & B & _)]]].
  - rewrite iovec_bytes in B. specialize (H20 A). lia.
  - contradiction.
  - split; [exact Hx|]. intros fid2 H2. destruct (H fid2 H2) as (n & q & k & W1 & _ & W2). exists n, q, k. auto.
  - rewrite iovec_nofault in B. discriminate B.
Qed.

Lemma comm_no_nul : forall c, ~ In 0 (comm_str c).
Proof. intros c. apply cstr_no_nul. Qed.

(** What the truncation to [k] bytes leaves of a text body. *)
Lemma text_body : forall msg k, ~ In 0 msg -> 1 <= k ->
  body_message false (ztake k (msg ++ [0])) (ztake (k - 1) msg).
Proof.
  intros msg k H Hk. split.
  { intros Hin. apply H. rewrite <- (ztake_zdrop (k - 1) msg), in_app_iff. left. exact Hin. }
  destruct (Z.leb_spec (zlen msg + 1) k) as [L|L].
  - left. exists []. rewrite ztake_all by (rewrite zlen_app; change (zlen [0]) with 1; lia).
    rewrite ztake_all by lia. reflexivity.
  - right. rewrite ztake_app_le by lia.
    destruct (exists_last_dec (ztake k msg)) as [E|(s & x & E)].
    { apply (f_equal zlen) in E. rewrite zlen_ztake in E. change (zlen (@nil Z)) with 0 in E. lia. }
    assert (Hs : s = ztake (k - 1) msg).
    { replace (k - 1) with (Z.min (k - 1) k) by lia. rewrite <- ztake_ztake, E.
      symmetry. apply ztake_app_exact. apply (f_equal zlen) in E. rewrite zlen_app, zlen_ztake in E.
      change (zlen [x]) with 1 in E. lia. }
    exists x. split; [|rewrite <- Hs; exact E].
    intros ->. apply H. rewrite <- (ztake_zdrop k msg), in_app_iff. left. rewrite E, in_app_iff. right. left. reflexivity.
Qed.

Lemma names_payload : forall t prio tg body,
  names t ++ le 4 prio ++ (tg ++ [0]) ++ body
  = payload (t_tgid t) (t_pid t) (comm_str (t_pcomm t)) (comm_str (t_tcomm t)) prio tg body.
Proof. intros t prio tg body. unfold names, payload. destruct (t_tgid t =? t_pid t); lists. Qed.

Lemma payload_cut : forall pid tid pn tn prio tg body n,
  zlen (payload pid tid pn tn prio tg []) <= n ->
  ztake n (payload pid tid pn tn prio tg body)
  = payload pid tid pn tn prio tg (ztake (n - zlen (payload pid tid pn tn prio tg [])) body).
Proof.
  intros pid tid pn tn prio tg body n H.
  assert (E : forall b, payload pid tid pn tn prio tg b = payload pid tid pn tn prio tg [] ++ b).
  { intros b. unfold payload. lists. }
  rewrite (E body), (E (ztake _ body)). rewrite ztake_app, ztake_all by exact H. reflexivity.
Qed.

Lemma payload_nonempty : forall pid tid pn tn prio tg body, payload pid tid pn tn prio tg body <> [].
Proof. intros. unfold payload. destruct pn; discriminate. Qed.

Definition the_view (t : task) (sec nsec prio : Z) (tag msg : list Z) : view :=
  mkView sec nsec (t_tgid t) (t_pid t) (level_of prio) (color_of prio) (binary_of prio)
    (comm_str (t_pcomm t)) (if t_tgid t =? t_pid t then comm_str (t_pcomm t) else comm_str (t_tcomm t)) tag msg.

(** Normal write of priority, tag and body. *)
Lemma normal_e2e : forall d fid t sec nsec prio tag body v msg d' x f, reachable d ->
  lookup fid (d_files d) = Some f -> f_write f = true -> f_raw f = false ->
  ~ In 0 tag -> uint32 prio -> int32 (t_tgid t) -> int32 (t_pid t) -> int32 sec -> int32 nsec ->
  concat v = le 4 prio ++ (tag ++ [0]) ++ body ->
  zlen (names t) + 5 + zlen tag <= 4076 ->
  body_message (binary_of prio) (ztake (4071 - zlen (names t) - zlen tag) body) msg ->
  step d (OpWrite fid t sec nsec (iovec v)) = Ok (d', x) ->
  exists e, x = OutVal (Z.min (4076 - zlen (names t)) (5 + zlen tag + zlen body)) /\ delivers d d' e /\
    parsed_as (enc 2 e) (the_view t sec nsec prio tag msg).
Proof.
  intros d fid t sec nsec prio tag body v msg d' x f Hr El Hw Hraw Htag Hprio Hpid Htid Hsec Hnsec Hv Hfit Hmsg E.
  set (P := payload (t_tgid t) (t_pid t) (comm_str (t_pcomm t)) (comm_str (t_tcomm t)) prio tag).
  assert (HL : zlen (P []) = zlen (names t) + 5 + zlen tag).
  { unfold P. rewrite <- names_payload. rewrite app_nil_r, !zlen_app, zlen_le. change (zlen [0]) with 1. lia. }
  assert (HE : requested (f_raw f) t sec nsec (iovec v)
    = mkEntry (meta (t_tgid t) (t_pid t) sec nsec (t_euid t)) (P (ztake (4071 - zlen (names t) - zlen tag) body))).
  { unfold requested. rewrite Hraw, iovec_bytes, Hv, names_payload. f_equal. fold P.
    pose proof (payload_cut (t_tgid t) (t_pid t) (comm_str (t_pcomm t)) (comm_str (t_tcomm t)) prio tag body 4076) as C.
    fold P in C. change (payload (t_tgid t) (t_pid t) (comm_str (t_pcomm t)) (comm_str (t_tcomm t)) prio tag) with P in C.
    rewrite C by lia. rewrite HL. f_equal. f_equal. lia. }
  pose proof (write_delivers d fid t sec nsec v d' x f Hr El Hw E) as W. cbv zeta in W. rewrite HE in W.
  destruct W as (Hx & Hd).
  { cbn [e_payload]. apply payload_nonempty. }
  { congruence. }
  eexists. split; [|split; [exact Hd|]].
  - rewrite Hx, Hraw. unfold accepted, room. rewrite iovec_bytes, Hv, !zlen_app, zlen_le. change (zlen [0]) with 1.
    f_equal. lia.
  - apply enc_parsed; try assumption.
    + assert (A : forall b, zlen (P b) = zlen (P []) + zlen b).
      { intros b. unfold P, payload. rewrite !zlen_app. change (zlen (@nil Z)) with 0. lia. }
      rewrite A, HL, zlen_ztake. pose proof (zlen_nonneg body). lia.
    + unfold the_view. unfold P. apply payload_shows; try assumption; apply comm_no_nul.
Qed.

(** ** Raw entries *)

Lemma raw_logv_writev : forall fd r iov v, ulog_raw_logv fd (Some r) iov = Writev v ->
  0 <= fd /\ rw_message r = None /\ ~ (rw_pid r = -1 /\ rw_tid r = -1) /\
  concat v = meta (rw_pid r) (rw_tid r) (rw_sec r) (rw_nsec r) (rw_euid r)
             ++ rw_pname r ++ (if rw_pid r =? rw_tid r then [] else rw_tname r) ++ le 4 (rw_prio r) ++ rw_tag r ++ concat iov.
Proof.
  intros fd r iov v H. unfold ulog_raw_logv in H.
  destruct (Z.ltb_spec fd 0); [discriminate H|]. destruct (rw_message r); [discriminate H|]. cbn [orb] in H.
  destruct ((rw_pid r =? -1) && (rw_tid r =? -1)) eqn:E; [discriminate H|]. injection H as <-.
  split; [assumption|]. split; [reflexivity|]. split; [lia|].
  unfold meta. destruct (rw_pid r =? rw_tid r); cbn [concat app]; lists.
Qed.

Lemma zlen_meta : forall pid tid sec nsec euid, zlen (meta pid tid sec nsec euid) = 20.
Proof. intros. unfold meta. rewrite !zlen_app, !zlen_le. lia. Qed.

Definition raw_view (r : raw_entry) (pn tn tag msg : list Z) : view :=
  mkView (rw_sec r) (rw_nsec r) (rw_pid r) (rw_tid r) (level_of (rw_prio r)) (color_of (rw_prio r)) (binary_of (rw_prio r))
         pn (if rw_pid r =? rw_tid r then pn else tn) tag msg.

Lemma e_euid_meta : forall pid tid sec nsec euid pay, e_euid (mkEntry (meta pid tid sec nsec euid) pay) = u32 euid.
Proof.
  intros. unfold e_euid. cbn [e_meta].
  assert (E : zsub 16 4 (meta pid tid sec nsec euid) = le 4 euid).
  { unfold meta, zsub. replace (le 4 pid ++ le 4 tid ++ le 4 sec ++ le 4 nsec ++ le 4 euid)
      with ((le 4 pid ++ le 4 tid ++ le 4 sec ++ le 4 nsec) ++ le 4 euid) by lists.
    rewrite zdrop_app_exact by reflexivity. apply ztake_all. rewrite zlen_le. lia. }
  rewrite E, of_le_le. reflexivity.
Qed.

Lemma e_pid_meta : forall pid tid sec nsec euid pay, int32 pid -> int32 tid ->
  e_pid (mkEntry (meta pid tid sec nsec euid) pay) = pid /\ e_tid (mkEntry (meta pid tid sec nsec euid) pay) = tid.
Proof.
  intros pid tid sec nsec euid pay Hp Ht. unfold e_pid, e_tid. cbn [e_meta].
  assert (E : zsub 0 4 (meta pid tid sec nsec euid) = le 4 pid) by (unfold meta, zsub; rewrite zdrop_0; apply ztake_app_exact; reflexivity).
  assert (E2 : zsub 4 4 (meta pid tid sec nsec euid) = le 4 tid).
  { unfold meta, zsub. rewrite zdrop_app_exact by reflexivity. apply ztake_app_exact. reflexivity. }
  rewrite E, E2, !s32_le4 by assumption. auto.
Qed.

Lemma raw_e2e : forall d fid t sec nsec fd r iov v pn tn tag msg d' x f, reachable d ->
  lookup fid (d_files d) = Some f -> f_write f = true -> f_raw f = true ->
  ulog_raw_logv fd (Some r) iov = Writev v ->
  ~ In 0 pn -> ~ In 0 tn -> ~ In 0 tag ->
  rw_pname r = pn ++ [0] -> (rw_pid r <> rw_tid r -> rw_tname r = tn ++ [0]) -> rw_tag r = tag ++ [0] ->
  uint32 (rw_prio r) -> int32 (rw_pid r) -> int32 (rw_tid r) -> int32 (rw_sec r) -> int32 (rw_nsec r) ->
  let room := 4076 - zlen (payload (rw_pid r) (rw_tid r) pn tn (rw_prio r) tag []) in
  0 <= room -> body_message (binary_of (rw_prio r)) (ztake room (concat iov)) msg ->
  step d (OpWrite fid t sec nsec (iovec v)) = Ok (d', x) ->
  exists e n, x = OutVal n /\ 0 <= n /\ delivers d d' e /\
    parsed_as (enc 2 e) (raw_view r pn tn tag msg) /\ e_euid e = u32 (rw_euid r).
Proof.
  intros d fid t sec nsec fd r iov v pn tn tag msg d' x f Hr El Hw Hraw HV Hpn Htn Htag Epn Etn Etag
    Hprio Hpid Htid Hsec Hnsec room Hroom Hmsg E.
  destruct (raw_logv_writev fd r iov v HV) as (_ & _ & _ & Hv).
  set (P := payload (rw_pid r) (rw_tid r) pn tn (rw_prio r) tag) in *.
  assert (Hv' : concat v = meta (rw_pid r) (rw_tid r) (rw_sec r) (rw_nsec r) (rw_euid r) ++ P (concat iov)).
  { rewrite Hv. f_equal. unfold P, payload. rewrite Epn, Etag.
    destruct (Z.eqb_spec (rw_pid r) (rw_tid r)) as [Eq|Ne]; [|rewrite Etn by exact Ne]; lists. }
  assert (HE : requested (f_raw f) t sec nsec (iovec v)
    = mkEntry (meta (rw_pid r) (rw_tid r) (rw_sec r) (rw_nsec r) (rw_euid r)) (P (ztake room (concat iov)))).
  { unfold requested. rewrite Hraw, iovec_bytes, Hv'.
    rewrite ztake_app_exact by (rewrite zlen_meta; reflexivity).
    rewrite zdrop_app_exact by (rewrite zlen_meta; reflexivity). f_equal.
    pose proof (payload_cut (rw_pid r) (rw_tid r) pn tn (rw_prio r) tag (concat iov) 4076) as C.
    change (payload (rw_pid r) (rw_tid r) pn tn (rw_prio r) tag) with P in C. apply C. lia. }
  pose proof (write_delivers d fid t sec nsec v d' x f Hr El Hw E) as W. cbv zeta in W. rewrite HE in W.
  destruct W as (Hx & Hd).
  { cbn [e_payload]. apply payload_nonempty. }
  { intros _. rewrite Hv', zlen_app, zlen_meta. pose proof (zlen_nonneg (P (concat iov))). lia. }
  eexists. eexists. split; [exact Hx|]. split; [|split; [exact Hd|split]].
  - rewrite Hraw. unfold accepted, RingSpec.room. rewrite iovec_bytes. pose proof (zlen_nonneg (concat v)). lia.
  - apply enc_parsed; try assumption.
    + assert (A : forall b, zlen (P b) = zlen (P []) + zlen b).
      { intros b. unfold P, payload. rewrite !zlen_app. change (zlen (@nil Z)) with 0. lia. }
      rewrite A, zlen_ztake. pose proof (zlen_nonneg (concat iov)). lia.
    + unfold raw_view, P. apply payload_shows; assumption.
  - apply e_euid_meta.
Qed.

(** Nothing sent by ulog_raw_logv can be taken for a drop report. *)
Lemma raw_no_forgery : forall fd r iov v t sec nsec, int32 (rw_pid r) -> int32 (rw_tid r) ->
  ulog_raw_logv fd (Some r) iov = Writev v ->
  let e := requested true t sec nsec (iovec v) in ~ (e_pid e = -1 /\ e_tid e = -1).
Proof.
  intros fd r iov v t sec nsec Hp Ht HV e.
  destruct (raw_logv_writev fd r iov v HV) as (_ & _ & Hf & Hv). unfold e, requested. rewrite iovec_bytes, Hv.
  rewrite ztake_app_exact by (rewrite zlen_meta; reflexivity).
  rewrite zdrop_app_exact by (rewrite zlen_meta; reflexivity).
  destruct (e_pid_meta (rw_pid r) (rw_tid r) (rw_sec r) (rw_nsec r) (rw_euid r)
    (ztake 4076 (rw_pname r ++ (if rw_pid r =? rw_tid r then [] else rw_tname r) ++ le 4 (rw_prio r) ++ rw_tag r ++ concat iov)) Hp Ht)
    as (-> & ->). exact Hf.
Qed.

(** ** Drop reports *)

Lemma dec_digits_no_nul : forall f v, 0 <= v -> ~ In 0 (dec_digits f v).
Proof.
  induction f as [|f IH]; intros v Hv; [intros []|]. cbn [dec_digits]. destruct (Z.ltb_spec v 10).
  - intros [E|[]]. lia.
  - rewrite in_app_iff. intros [E|[E|[]]].
    + revert E. apply IH. apply Z.div_pos; lia.
    + pose proof (Z.mod_pos_bound v 10). lia.
Qed.

Lemma dec_d_no_nul : forall v, ~ In 0 (dec_d v).
Proof.
  intros v. unfold dec_d, dec_u. destruct (Z.ltb_spec v 0).
  - intros [E|E]; [lia|]. revert E. apply dec_digits_no_nul. lia.
  - apply dec_digits_no_nul. lia.
Qed.

Lemma report_parsed : forall nm n sec nsec pid tid euid pay, ~ In 0 nm -> zlen nm <= 15 -> int32 sec -> int32 nsec ->
  parsed_as (enc 2 (report nm n (mkEntry (meta pid tid sec nsec euid) pay)))
    (mkView sec nsec (-1) (-1) 4 0 false [] [] nm (dec_d (s32 n) ++ bytes_of_string " log entries dropped" ++ [10])).
Proof.
  intros nm n sec nsec pid tid euid pay Hnm HL Hs Hn. unfold report. cbn [e_meta].
  assert (E : zdrop 8 (meta pid tid sec nsec euid) = le 4 sec ++ le 4 nsec ++ le 4 euid).
  { unfold meta. rewrite app_assoc. apply zdrop_app_exact. reflexivity. }
  rewrite E. change (le 4 (-1) ++ le 4 (-1) ++ le 4 sec ++ le 4 nsec ++ le 4 euid) with (meta (-1) (-1) sec nsec euid).
  set (txt := dec_d (s32 n) ++ bytes_of_string " log entries dropped" ++ [10]).
  assert (Ht : ~ In 0 txt).
  { unfold txt. rewrite !in_app_iff. intros [X|X]; [revert X; apply dec_d_no_nul|].
    revert X. vm_compute. intuition congruence. }
  replace ([0] ++ [4; 0; 0; 0] ++ nm ++ [0] ++ dec_d (s32 n) ++ bytes_of_string " log entries dropped" ++ [10; 0])
    with (payload (-1) (-1) [] [] 4 nm (txt ++ [0])) by (unfold payload, txt; change (le 4 4) with [4; 0; 0; 0]; lists).
  assert (i1 : int32 (-1)) by (unfold int32; lia).
  apply enc_parsed; try assumption.
  - unfold payload, txt. rewrite !zlen_app, zlen_le. pose proof (zlen_dec_d (s32 n)).
    change (zlen (bytes_of_string " log entries dropped")) with 20. change (zlen [0]) with 1. change (zlen [10]) with 1.
    change (zlen (if -1 =? -1 then [] else [] ++ [0])) with 0. change (zlen (@nil Z)) with 0. lia.
  - pose proof (payload_shows sec nsec (-1) (-1) [] [] 4 nm (txt ++ [0]) txt) as S. cbv zeta in S.
    apply S; [intros []|intros []|exact Hnm|unfold uint32; lia|].
    split; [exact Ht|]. left. exists []. reflexivity.
Qed.
