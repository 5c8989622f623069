(** C80 and C81: the versions of the driver, and the sources of writes. *)
From Coq Require Import ZArith String List Bool Lia ZifyBool ZifyNat Arith.
From Verif Require Import Bytes BytesProofs Ring RingSpec RingHistory RingRefine PropsRing Versions.
Import ListNotations.
Open Scope Z_scope.

(** The write offset is inside the buffer. *)
Definition inside (l : log) : Prop := 0 < size l /\ ulogger_offset l (w_off l) = w_off l.
Lemma land_mod (n m : Z) : 0 < m -> 0 <= Z.land n (m - 1) < m.
Proof.
  intros H. assert (0 <= Z.land n (m - 1)) by (apply Z.land_nonneg; lia). split; [lia|].
  assert (Z.land n (m - 1) <= m - 1); [|lia].
  apply Z.ldiff_le; [lia|]. apply Z.bits_inj'. intros k Hk. rewrite Z.ldiff_spec, Z.land_spec, Z.bits_0.
  destruct (Z.testbit n k), (Z.testbit (m - 1) k); reflexivity.
Qed.
Lemma offset_inside l n : 0 < size l -> inside (set_w_off l (ulogger_offset l n)).
Proof.
  intros H. split; [exact H|]. unfold ulogger_offset. cbn [set_w_off w_off size].
  rewrite <- Z.land_assoc, Z.land_diag. reflexivity.
Qed.
Lemma inside_range l : inside l -> 0 <= w_off l < size l.
Proof. intros [H1 H2]. rewrite <- H2. unfold ulogger_offset. now apply land_mod. Qed.
Lemma write_user_inside l s n l' : inside l -> do_write_log_from_user l s n = Ok (l', false) -> inside l'.
Proof.
  intros [H1 H2] E. unfold do_write_log_from_user in E.
  match type of E with bind ?m _ = _ => destruct m as [[l1 bad1]|] eqn:E1; cbn [bind] in E; [|discriminate] end.
  assert (S1 : size l1 = size l).
  { destruct (Z.min n (size l - w_off l) =? 0); [congruence|]. match type of E1 with context [user_read ?x ?y ?z] => destruct (user_read x y z) as [bs b] end.
    match type of E1 with context [mem_write ?x ?y ?z] => destruct (mem_write x y z) as [m|] end; cbn [bind] in E1; [|discriminate]. assert (l1 = set_buffer l m) by congruence. subst. reflexivity. }
  destruct bad1; [discriminate|].
  match type of E with bind ?m _ = _ => destruct m as [[l2 bad2]|] eqn:E2; cbn [bind] in E; [|discriminate] end.
  assert (S2 : size l2 = size l).
  { destruct (n =? _); [congruence|]. match type of E2 with context [user_read ?x ?y ?z] => destruct (user_read x y z) as [bs b] end.
    match type of E2 with context [mem_write ?x ?y ?z] => destruct (mem_write x y z) as [m|] end; cbn [bind] in E2; [|discriminate]. assert (l2 = set_buffer l1 m) by congruence. subst. exact S1. }
  destruct bad2; [discriminate|].
  assert (l' = set_w_off l2 (ulogger_offset l2 (w_off l2 + n))) as -> by congruence.
  apply offset_inside. lia.
Qed.
Lemma write_log_inside l b l' : 0 < size l -> do_write_log l b = Ok l' -> inside l'.
Proof.
  intros H E. unfold do_write_log in E. destruct (mem_write _ _ _) as [b1|]; cbn [bind] in E; [|discriminate].
  match type of E with bind ?m _ = _ => destruct m as [b2|]; cbn [bind] in E; [|discriminate] end.
  assert (l' = set_w_off (set_buffer l b2) (ulogger_offset (set_buffer l b2) (w_off l + zlen b))) as -> by (unfold ulogger_offset; cbn; unfold ulogger_offset in E; congruence).
  apply offset_inside. exact H.
Qed.
Lemma write_nothing l s : inside l -> do_write_log_from_user l s 0 = Ok (l, false).
Proof.
  intros Hi. pose proof (inside_range l Hi). destruct Hi as [H1 H2]. unfold do_write_log_from_user.
  rewrite Z.min_l by lia. cbn [Z.eqb bind]. rewrite Z.add_0_r, H2. destruct l; reflexivity.
Qed.

Definition total_len (segs : list seg) : Z := iter_count (IterIovec segs).
Lemma total_cons s r : total_len (s :: r) = seg_len s + total_len r.
Proof. reflexivity. Qed.
Lemma seg_len_nonneg s : 0 <= seg_len s.
Proof. apply zlen_nonneg. Qed.
Lemma total_nonneg segs : 0 <= total_len segs.
Proof. induction segs as [|s r IH]; [cbn; lia|]. rewrite total_cons. pose proof (seg_len_nonneg s). lia. Qed.

Lemma write_empty segs l size ret : inside l -> total_len segs = 0 -> ret <= size -> write_iovecs l segs size ret = Ok (l, Some ret).
Proof.
  intros Hi. revert ret. induction segs as [|s r IH]; intros ret Ht Hr; [reflexivity|].
  rewrite total_cons in Ht. pose proof (seg_len_nonneg s). pose proof (total_nonneg r).
  cbn [write_iovecs]. replace (Z.min (seg_len s) (size - ret)) with 0 by lia. rewrite write_nothing by exact Hi. cbn [bind].
  rewrite Z.add_0_r. apply IH; lia.
Qed.
(** Empty segments in front do not matter. *)
Lemma pass_new_0 l size ret : inside l -> ret <= size -> forall segs, exists rest,
  pass_new segs 0 = (rest, 0) /\ write_iovecs l segs size ret = write_iovecs l rest size ret /\
  total_len rest = total_len segs /\ (length rest <= length segs)%nat.
Proof.
  intros Hi Hr. induction segs as [|s r (rest & E1 & E2 & E3 & E4)]; [exists []; auto|].
  cbn [pass_new]. pose proof (seg_len_nonneg s). destruct (Z.ltb_spec 0 (seg_len s)).
  - exists (s :: r). auto.
  - replace (0 - seg_len s) with 0 by lia. exists rest. split; [exact E1|]. rewrite total_cons. cbn [length].
    split; [|split; lia]. cbn [write_iovecs]. replace (Z.min (seg_len s) (size - ret)) with 0 by lia.
    rewrite write_nothing by exact Hi. cbn [bind]. rewrite Z.add_0_r. exact E2.
Qed.

Lemma loop_3_eq : forall segs l size ret, loop_3 (length segs) l segs size ret = write_iovecs l segs size ret.
Proof.
  induction segs as [|s r IH]; intros l size ret; [reflexivity|]. cbn [length loop_3 write_iovecs].
  destruct (do_write_log_from_user _ _ _) as [[l' bad]|]; cbn [bind]; [|reflexivity]. destruct bad; [reflexivity|]. apply IH.
Qed.

Definition good_get (get : iov_iter -> M seg) : Prop :=
  forall s r, get (mkIter (s :: r) 0 (total_len (s :: r))) = Ok s.
Lemma good_iovec : good_get iov_iter_iovec.
Proof.
  intros s r. unfold iov_iter_iovec. cbn [v_segs v_count v_off]. rewrite total_cons. pose proof (total_nonneg r). rewrite Z.sub_0_r.
  rewrite Z.min_r by lia. rewrite zdrop_0. rewrite ztake_all by (unfold seg_len; lia). rewrite Z.sub_0_r. destruct s; reflexivity.
Qed.
Lemma good_iov : good_get iter_iov.
Proof. intros s r. reflexivity. Qed.

Lemma loop_4_eq get pass : good_get get -> (pass = pass_new \/ pass = pass_old) ->
  forall fuel segs l size ret, (length segs <= fuel)%nat -> inside l -> ret <= size ->
  loop_4 get pass fuel l (mkIter segs 0 (total_len segs)) size ret = write_iovecs l segs size ret.
Proof.
  intros Hg Hp. induction fuel as [|fuel IH]; intros segs l size ret Hl Hi Hr.
  - destruct segs; [|cbn in Hl; lia]. reflexivity.
  - cbn [loop_4 v_count]. destruct (Z.eqb_spec (total_len segs) 0) as [E0|E0].
    { symmetry. now apply write_empty. }
    destruct segs as [|s r]; [cbn in E0; lia|]. rewrite Hg. cbn [bind write_iovecs].
    destruct (do_write_log_from_user l s (Z.min (seg_len s) (size - ret))) as [[l' bad]|] eqn:E; cbn [bind]; [|reflexivity].
    destruct bad; [reflexivity|]. pose proof (write_user_inside _ _ _ _ Hi E) as Hi'.
    pose proof (seg_len_nonneg s). pose proof (total_nonneg r). rewrite total_cons in E0.
    set (ret' := ret + Z.min (seg_len s) (size - ret)) in *. assert (ret' <= size) by lia.
    unfold iov_iter_advance. cbn [v_count v_segs v_off]. rewrite total_cons. rewrite Z.min_l by lia.
    destruct (Z.eqb_spec (seg_len s + total_len r) 0); [lia|]. rewrite Z.add_0_r.
    replace (seg_len s + total_len r - seg_len s) with (total_len r) by lia. cbn [length] in Hl.
    destruct Hp as [->| ->].
    + cbn [pass_new]. destruct (Z.ltb_spec (seg_len s) (seg_len s)); [lia|]. rewrite Z.sub_diag.
      destruct (pass_new_0 l' size ret' Hi' ltac:(lia) r) as (rest & -> & E2 & E3 & E4).
      rewrite <- E3. rewrite IH; [congruence|lia|exact Hi'|lia].
    + cbn [pass_old]. destruct (Z.ltb_spec (seg_len s) (seg_len s)); [lia|]. rewrite Z.eqb_refl.
      apply IH; [lia|exact Hi'|lia].
Qed.
Lemma walk_eq v l segs size : inside l -> 0 <= size -> walk v l segs size = write_iovecs l segs size 0.
Proof.
  intros Hi Hs. destruct v; cbn [walk].
  - apply loop_3_eq.
  - apply loop_4_eq; auto using good_iovec.
  - apply loop_4_eq; auto using good_iovec.
  - apply loop_4_eq; auto using good_iovec.
  - apply loop_4_eq; auto using good_iov.
Qed.

Lemma fix_up_size d n d1 : fix_up_readers d n = Ok d1 -> size (d_log d1) = size (d_log d).
Proof.
  unfold fix_up_readers. intros E.
  match type of E with bind ?m _ = _ => destruct m as [l'|] eqn:E1; cbn [bind] in E; [|discriminate] end.
  destruct (fix_up_files _ _ _ _ _) as [fs|]; cbn [bind] in E; [|discriminate]. assert (d1 = mkDev l' fs) as -> by congruence. cbn [d_log].
  destruct (is_between _ _ _); [|congruence]. destruct (get_next_entry _ _ _ _ _ _) as [[o k]|]; cbn [bind] in E1; [|discriminate].
  assert (l' = set_head (d_log d) o (dropped (d_log d) + k)) as -> by congruence. reflexivity.
Qed.

Lemma write_version_eq v d raw t sec nsec segs : 0 < size (d_log d) ->
  write_version v d raw t sec nsec segs = ulogger_write_iter d raw t sec nsec (IterIovec segs).
Proof.
  intros Hs. unfold write_version, ulogger_write_iter. fold (total_len segs). cbv zeta.
  pose proof (total_nonneg segs). pose proof (zlen_comm (t_pcomm t)). pose proof (zlen_comm (t_tcomm t)).
  pose proof (zlen_nonneg (comm_str (t_pcomm t))). pose proof (zlen_nonneg (comm_str (t_tcomm t))).
  set (pname := comm_str (t_pcomm t) ++ [0]). set (tname := if t_tgid t =? t_pid t then [] else comm_str (t_tcomm t) ++ [0]).
  assert (HP : 1 <= zlen pname <= 17) by (unfold pname; rewrite zlen_app; change (zlen [0]) with 1; lia).
  assert (HT : 0 <= zlen tname <= 17).
  { unfold tname. destruct (t_tgid t =? t_pid t); [change (zlen (@nil Z)) with 0; lia|]. rewrite zlen_app; change (zlen [0]) with 1; lia. }
  clearbody pname tname. unfold HDR, MAX_PAYLOAD. destruct (raw && (total_len segs <? 24 - 4)) eqn:Er; [reflexivity|].
  match goal with |- context [?x =? 0] => set (hlen := x) end. destruct (hlen =? 0) eqn:E0; [reflexivity|].
  destruct (fix_up_readers d (24 + hlen)) as [d1|] eqn:E1; cbn [bind]; [|reflexivity]. apply fix_up_size in E1.
  match goal with |- context [bind ?m _] => destruct m as [[l2 size1]|] eqn:E2; cbn [bind]; [|reflexivity] end.
  rewrite walk_eq; [reflexivity| |].
  - destruct raw.
    + match type of E2 with bind ?m _ = _ => destruct m as [la|] eqn:Ea; cbn [bind] in E2; [|discriminate] end.
      assert (l2 = la) as -> by congruence. eapply write_log_inside; [|exact Ea]. lia.
    + match type of E2 with bind ?m _ = _ => destruct m as [la|] eqn:Ea; cbn [bind] in E2; [|discriminate] end.
      pose proof (write_log_inside _ _ _ ltac:(rewrite E1; exact Hs) Ea) as [Ia _].
      match type of E2 with bind ?m _ = _ => destruct m as [lb|] eqn:Eb; cbn [bind] in E2; [|discriminate] end.
      pose proof (write_log_inside _ _ _ Ia Eb) as Ib.
      destruct (zlen tname =? 0); cbn [bind] in E2; [assert (l2 = lb) as -> by congruence; exact Ib|].
      match type of E2 with bind ?m _ = _ => destruct m as [lc|] eqn:Ec; cbn [bind] in E2; [|discriminate] end.
      assert (l2 = lc) as -> by congruence. exact (write_log_inside _ _ _ (proj1 Ib) Ec).
  - assert (size1 = if raw then 24 + hlen - 4 else 24 + hlen - 24 - zlen pname - zlen tname) as ->.
    { destruct raw; repeat match type of E2 with bind ?m _ = _ => destruct m as [?|]; cbn [bind] in E2; [|discriminate] end; congruence. }
    unfold hlen. destruct raw; cbn [andb] in Er; lia.
Qed.
Lemma ubuf_eq d raw t sec nsec s : ulogger_write_iter d raw t sec nsec (IterUbuf s) = ulogger_write_iter d raw t sec nsec (IterIovec [s]).
Proof.
  unfold ulogger_write_iter. cbn [iter_count fold_right]. rewrite !Z.add_0_r. cbv zeta.
  destruct (raw && (seg_len s <? HDR - 4)); [reflexivity|].
  match goal with |- context [?x =? 0] => destruct (x =? 0); [reflexivity|] end.
  destruct (fix_up_readers _ _) as [d1|]; cbn [bind]; [|reflexivity].
  match goal with |- context [bind ?m _] => destruct m as [[l2 size1]|]; cbn [bind]; [|reflexivity] end.
  cbn [write_iovecs]. rewrite Z.sub_0_r, (Z.min_comm size1).
  destruct (do_write_log_from_user _ _ _) as [[l' bad]|]; cbn [bind]; [|reflexivity]. now destruct bad.
Qed.

(** ** C80 *)
(** The drivers for all versions of Linux leave the device in the same state and give the same answer for
    the same vectors, empty ones included, and a single buffer is a vector of one. *)
Theorem C80_versions : forall v d raw t sec nsec segs, 0 < size (d_log d) ->
  write_version v d raw t sec nsec segs = ulogger_write_iter d raw t sec nsec (IterIovec segs) /\
  forall s, segs = [s] -> write_version v d raw t sec nsec segs = ulogger_write_iter d raw t sec nsec (IterUbuf s).
Proof.
  intros v d raw t sec nsec segs Hs. split; [now apply write_version_eq|].
  intros s ->. rewrite ubuf_eq. now apply write_version_eq.
Qed.
Example C80_versions_ex : exists d', write_version V6_4 (init_dev ex_nm ex_mem 14) false (ex_task 3) 1 2
    [mkSeg [] 0; mkSeg [1; 2] 2; mkSeg [] 0; mkSeg [3] 1; mkSeg [] 0] = Ok (d', 3) /\ zsub 0 32 (buffer (d_log d')) =
    mk_header 8 100 100 1 2 3 ++ bytes_of_string "prog" ++ [0; 1; 2; 3].
Proof. eexists. split; [vm_compute; reflexivity|vm_compute; reflexivity]. Qed.

(** ** C81 *)
(** A write from another source, with no data, is a write of no segments. *)
Lemma other_0 d raw t sec nsec : ulogger_write_iter d raw t sec nsec (IterOther 0) = ulogger_write_iter d raw t sec nsec (IterIovec []).
Proof. reflexivity. Qed.

(** Writes from user memory, and writes without data: what an accepted write adds to the log is what was
    given to it. Missing: other sources with data, refuted below. *)
Theorem C81_source_partial : forall d fid t sec nsec it d' v f, reachable d -> user_iter it \/ it = IterOther 0 ->
  lookup fid (d_files d) = Some f -> f_write f = true -> f_raw f = false ->
  step d (OpWrite fid t sec nsec it) = Ok (d', OutVal v) ->
  let e := mkEntry (meta_of t sec nsec) (ztake 4076 (names t ++ iter_bytes it)) in
  forall fid2, lookup fid2 (d_files d) = None \/ unrestricted d fid2 ->
  exists n q k, would_get d fid2 n q /\ would_get d' fid2 (n + Z.of_nat k) (skipn k q ++ [e]).
Proof.
  intros d fid t sec nsec it d' v f Hr [Hu| ->] El Hw Hraw E e fid2 H2.
  - exact (proj2 (C12_write_stored d fid t sec nsec it d' v f Hr Hu El Hw Hraw E) fid2 H2).
  - apply (C12_write_stored d fid t sec nsec (IterIovec []) d' v f Hr I El Hw Hraw) with (fid2 := fid2); [|exact H2].
    cbn [step] in *. rewrite El, Hw in *. rewrite other_0 in E. exact E.
Qed.
Example C81_source_partial_ex : exists d', step (ex_state ex_ops) (OpWrite 1 (ex_task 3) 1 2 (IterOther 0)) = Ok (d', OutVal 0) /\ reachable (ex_state ex_ops).
Proof. eexists. split; [apply ex_step; vm_compute; reflexivity|exact ex_reachable]. Qed.

(** User 1000 writes a text whose last byte faults: nothing is logged. User 5 then writes from another
    source, for instance an io_uring registered buffer (ITER_BVEC), and reads it back as a reader that may
    only see its own entries: it gets the text of user 1000. *)
Definition secret : list Z := bytes_of_string "password".
Definition leak_ops : list op :=
  [OpOpen 1 false true false false; OpOpen 2 true false false false;
   OpWrite 1 (ex_task 1000) 1 2 (IterIovec [mkSeg secret 8; mkSeg [1] 0]);
   OpWrite 1 (ex_task 5) 3 4 (IterOther 8); OpReadBody 2 5 100 100].
Theorem C81_leak_refuted : exists d data,
  run (init_dev ex_nm ex_mem 14) leak_ops = Ok (d, [OutVal 0; OutVal 0; OutErr EFAULT; OutVal 0; OutData data]) /\
  zsub 29 8 data = secret.
Proof. eexists _, _. split; vm_compute; reflexivity. Qed.
(** On a new device full of zeros: the same steps with other bytes, and a second read, make the driver
    read outside the buffer of the log. *)
Definition oob_ops : list op :=
  [OpOpen 1 false true false false; OpOpen 2 true false false false;
   OpWrite 1 (ex_task 5) 1 2 (IterIovec [mkSeg (zrepeat 255 40) 40; mkSeg [1] 0]);
   OpWrite 1 (ex_task 4294967295) 3 4 (IterOther 8);
   OpReadBody 2 4294967295 100000 100000; OpReadBody 2 4294967295 100000 100000].
Theorem C81_oob_refuted : exists mem, init_ok ex_nm mem 14 /\ run (init_dev ex_nm mem 14) oob_ops = Bug Oob.
Proof.
  exists (zrepeat 0 16384). split; [split; [lia|]; split; [vm_compute; reflexivity|vm_compute; discriminate]|].
  vm_compute. reflexivity.
Qed.

Print Assumptions C80_versions.
Print Assumptions C81_source_partial.
Print Assumptions C81_leak_refuted.
Print Assumptions C81_oob_refuted.
