(** Properties C42 to C45, C65 and C66: the log reader.

    Vocabulary: CatSpec.v ([pool_ok], [rounds], [poll_sane], [static_env], [merges], [timed],
    [marks_cover], [printed], [shown_of], [lastn]). *)
From Coq Require Import ZArith String List Bool Permutation Sorted Lia ZifyBool ZifyNat Arith.
From Verif Require Import Bytes BytesProofs Parse PropsParse Cat CatSpec CatProofs CatMerge.
Import ListNotations.
Open Scope Z_scope.

(** ** C42 *)

(** Whatever poll and the devices answer, after any number of rounds, and at the end of
    ulogcat3_process_logs: nothing goes wrong (no wild pointer, no endless inner loop), and the
    pool is in order. *)
Theorem C42_pool : forall W (en : env W) tail marks, 0 <= tail -> poll_sane en ->
  let n := Z.to_nat (tail + zlen marks + 1) in
  (forall k w, exists w' c', rounds k en w (open_ctx tail marks) = Ok (w', c') /\ pool_ok n c') /\
  (forall fuel dump max w, exists r, process_logs fuel en dump max w (open_ctx tail marks) 0 = Ok r /\
     forall w' c' x, r = Some (w', c', x) -> pool_ok n c').
Proof.
  intros W en tail marks Ht PS n. pose proof (open_inv tail marks Ht) as I. split.
  - intros k w. destruct (rounds_inv en _ k w _ PS I) as (w' & c' & E & I').
    exists w', c'. split; [exact E|]. now apply inv_pool.
  - intros fuel dump max w. destruct (process_logs_inv en _ dump max fuel w _ 0 PS I) as (r & E & H).
    exists r. split; [exact E|]. intros w' c' x Er. now apply inv_pool, (H w' c' x).
Qed.

(** Two devices and a tail of one: after a round the pool of four frames holds one frame waiting to
    be merged and one in the tail. *)
Definition ex_da (t : Z) : fdata := mkData [t] None.
Definition ex_it (t : Z) : item := mkItem true t (ex_da t) true 0.
Definition ex_w : world := [[ex_it 1; ex_it 4]; [ex_it 2; mkItem false 3 (ex_da 3) true 0; ex_it 5]].
Lemma static_sane : poll_sane static_env.
Proof.
  intros w fds w' rev E i. cbn in E. injection E as <- <-. revert w i.
  induction fds as [|b fds IH]; intros w i; [destruct i; discriminate|].
  destruct w as [|l w]; [destruct i; discriminate|]. destruct i as [|i]; cbn; [|apply IH].
  intros H. now apply andb_true_iff in H.
Qed.
Example C42_ex : 0 <= 1 /\ poll_sane static_env /\
  match rounds 1 static_env ex_w (open_ctx 1 [9; 9]) with
  | Ok (_, c) => map f_id (c_free c) = [2; 3]%nat /\ map f_id (c_pq c) = [1%nat] /\ map f_id (c_rq c) = [0%nat]
  | Bug _ => False
  end.
Proof. split; [lia|]. split; [apply static_sane|]. vm_compute. auto. Qed.
Print Assumptions C42_pool.

(** ** C43 *)

(** A dump without tail ends after at most [2 * total + 1] rounds and prints a merge by time of
    what the devices hold. *)
Theorem C43_merge : forall w marks, timed w -> marks_cover w marks ->
  exists q, merges w q /\ forall fuel, (2 * total w < fuel)%nat ->
    exists w' c', process_logs fuel static_env true 0 w (open_ctx 0 marks) 0 = Ok (Some (w', c', 0)) /\
      printed (c_out c') = shown_of q.
Proof.
  intros w marks HT HM. destruct (dump_static w marks HT HM) as (q & M & H). exists q. split; [exact M|].
  intros fuel Hf. destruct (H 0 (Z.le_refl 0) fuel Hf) as (w' & c' & E & O). exists w', c'. split; [exact E|exact O].
Qed.

(** Whatever the times: each entry is shown once, after those that precede it on its device, and the
    foremost entry with the least time comes next; with a tail of N the last N of these. *)
Theorem C43_any_times : forall w marks, marks_cover w marks ->
  exists q, picks i_stamp (fun d => filter i_show (nth d w [])) q /\
    forall N, 0 <= N -> forall fuel, (2 * total w < fuel)%nat ->
      exists w' c', process_logs fuel static_env true 0 w (open_ctx N marks) 0 = Ok (Some (w', c', 0)) /\
        printed (c_out c') = shown_of (if N =? 0 then q else lastn (Z.to_nat N) q).
Proof.
  intros w marks HM. destruct (dump_any w marks HM) as (q & M & H). exists q. split; [exact M|].
  intros N HN fuel Hf. destruct (H N HN fuel Hf) as (w' & c' & E & O). exists w', c'. split; [exact E|].
  rewrite O. unfold final_out. destruct (N =? 0); reflexivity.
Qed.

(** A ulog device never uses up its mark: receive takes nothing off it, so that the condition
    [marks_cover] holds as soon as a device with content announced a positive length. *)
Theorem C43_ulog_mark : forall csv r1 ok r2 x, ulog_receive_entry csv r1 ok r2 = Ok x ->
  match x with RxFail => True | RxSkip d => d = 0 | RxFrame _ _ d _ => d = 0 end.
Proof.
  intros csv r1 ok r2 x. unfold ulog_receive_entry.
  destruct (_ && negb ok); [intros [= <-]; exact Logic.I|].
  match goal with |- match ?r with RdErr _ => _ | RdBytes _ => _ end = _ -> _ => destruct r as [e|bs] end.
  { destruct (_ || _); intros [= <-]; auto. }
  destruct (zlen bs =? 0); [intros [= <-]; exact Logic.I|].
  destruct (zlen bs <? 24); [intros [= <-]; exact Logic.I|].
  destruct (negb _); [intros [= <-]; exact Logic.I|].
  destruct (ulog_parse_buf bs) as [[bs' e]|]; [|discriminate]. cbn [bind].
  assert (E : forall b : bool, (if b then 0 else 0) = 0) by (intros []; reflexivity). rewrite E.
  destruct (_ && _); intros [= <-]; auto.
Qed.
Theorem C43_ulog_covers : forall w marks, length w = length marks ->
  (forall d x, In x (nth d w []) -> i_dec x = 0) ->
  (forall d, nth d w [] <> [] -> 0 < nth d marks 0) -> marks_cover w marks.
Proof.
  intros w marks L Z P. split; [exact L|]. intros d Hd. specialize (Z d). specialize (P d Hd).
  split.
  - replace (sum_dec (nth d w [])) with 0; [exact P|]. clear Hd P.
    induction (nth d w []) as [|x l IH]; cbn; auto. rewrite (Z x (or_introl eq_refl)), <- IH; [lia|].
    intros y Hy. apply Z. now right.
  - apply Forall_forall. intros x Hx. rewrite (Z x Hx). lia.
Qed.
(** What the driver delivers in one read (a header announcing the rest) is never an error: it is
    one frame, or a binary entry that is passed over. *)
Theorem C43_ulog_accepts : forall csv bs ok r2, Forall (fun b => 0 <= b < 256) bs -> 24 <= zlen bs ->
  hdr_size bs = 24 -> hdr_len bs = zlen bs - 24 ->
  exists x, ulog_receive_entry csv (RdBytes bs) ok r2 = Ok x /\ x <> RxFail /\
    (csv = true -> exists st da, x = RxFrame st da 0 true).
Proof.
  intros csv bs ok r2 HB HL HS HN. unfold ulog_receive_entry. cbn [andb].
  destruct (Z.eqb_spec (zlen bs) 0); [lia|]. destruct (Z.ltb_spec (zlen bs) 24); [lia|].
  rewrite HN, Z.eqb_refl. cbn [negb].
  destruct (proj2 (C19_in_bounds bs HB) HL ltac:(lia)) as (pre & pay & post & pay' & e & _ & _ & _ & P & _).
  rewrite P. cbn [bind].
  assert (E : forall b : bool, (if b then 0 else 0) = 0) by (intros []; reflexivity). rewrite E.
  eexists. split; [reflexivity|]. destruct csv; cbn [negb]; rewrite ?andb_false_r, ?andb_true_r.
  - split; [discriminate|]. eauto.
  - split; [|discriminate]. destruct (pe_bin e); discriminate.
Qed.

Example C43_ex : timed ex_w /\ marks_cover ex_w [9; 9] /\
  match process_logs 11 static_env true 0 ex_w (open_ctx 0 [9; 9]) 0 with
  | Ok (Some (_, c, _)) => printed (c_out c) = [(0%nat, 1, ex_da 1); (1%nat, 2, ex_da 2); (0%nat, 4, ex_da 4); (1%nat, 5, ex_da 5)]
  | _ => False
  end.
Proof.
  split.
  { repeat constructor; cbn; lia. }
  split; [|vm_compute; reflexivity].
  apply C43_ulog_covers; auto.
  - intros [|[|[|d]]] x; cbn; intuition; subst; auto.
  - intros [|[|[|d]]]; cbn; intuition; lia.
Qed.
Example C43_ulog_ex : Forall (fun b => 0 <= b < 256) ex_raw /\ 24 <= zlen ex_raw /\ hdr_size ex_raw = 24 /\
  hdr_len ex_raw = zlen ex_raw - 24.
Proof.
  split; [vm_compute; repeat constructor; discriminate|]. split; [vm_compute; discriminate|].
  split; vm_compute; reflexivity.
Qed.
Print Assumptions C43_merge.
Print Assumptions C43_any_times.
Print Assumptions C43_ulog_mark.
Print Assumptions C43_ulog_covers.
Print Assumptions C43_ulog_accepts.

(** ** C66 *)

(** The kernel log has no such guarantee: the mark is twice the size of the kernel buffer, each
    record takes the length of its formatted text off it (libulogcat_klog.c:171), and formatting
    can make a record four times as long. Four records of 985 raw bytes fit in a buffer of 4096
    bytes; formatted they take 3940 bytes each. The dump stops after three. *)
Definition klog_it (t : Z) : item := mkItem true t (ex_da t) true 3940.
Theorem C66_klog_dump_refuted : exists w : world,
  timed w /\ w = [map klog_it [1; 2; 3; 4]] /\
  exists w' c', process_logs 9 static_env true 0 w (open_ctx 0 [2 * 4096]) 0 = Ok (Some (w', c', 0)) /\
    printed (c_out c') = [(0%nat, 1, ex_da 1); (0%nat, 2, ex_da 2); (0%nat, 3, ex_da 3)] /\ total w' = 1%nat.
Proof.
  exists [map klog_it [1; 2; 3; 4]]. split; [repeat constructor; cbn; lia|]. split; [reflexivity|].
  do 2 eexists. split; [vm_compute; reflexivity|]. split; vm_compute; reflexivity.
Qed.
(** It holds when the mark covers the formatted length of the content. *)
Theorem C66_klog_dump_partial : forall l size, timed [l] -> Forall (fun x => 0 <= i_dec x) l ->
  sum_dec l < 2 * size ->
  exists q, merges [l] q /\ forall fuel, (2 * length l < fuel)%nat ->
    exists w' c', process_logs fuel static_env true 0 [l] (open_ctx 0 [2 * size]) 0 = Ok (Some (w', c', 0)) /\
      printed (c_out c') = shown_of q.
Proof.
  intros l size HT HF HS.
  destruct (C43_merge [l] [2 * size] HT) as (q & M & H).
  { split; [reflexivity|]. intros [|[|d]] Hd; cbn in *; auto; congruence. }
  exists q. split; [exact M|]. intros fuel Hf. apply H. cbn. lia.
Qed.
Example C66_ex : timed [map klog_it [1; 2]] /\ Forall (fun x => 0 <= i_dec x) (map klog_it [1; 2]) /\
  sum_dec (map klog_it [1; 2]) < 2 * 4096.
Proof. split; [repeat constructor; cbn; lia|]. split; [repeat constructor; cbn; lia|cbn; lia]. Qed.
Print Assumptions C66_klog_dump_refuted.
Print Assumptions C66_klog_dump_partial.

(** ** C44 *)

(** One merged order [q] is what the dump prints without tail, and the dump with a tail of [N]
    prints its last [N] entries. *)
Theorem C44_tail : forall w marks, timed w -> marks_cover w marks ->
  exists q, merges w q /\ forall fuel, (2 * total w < fuel)%nat ->
    (exists w' c', process_logs fuel static_env true 0 w (open_ctx 0 marks) 0 = Ok (Some (w', c', 0)) /\
       printed (c_out c') = shown_of q) /\
    forall N, 1 <= N -> exists w' c',
      process_logs fuel static_env true 0 w (open_ctx N marks) 0 = Ok (Some (w', c', 0)) /\
      printed (c_out c') = shown_of (lastn (Z.to_nat N) q).
Proof.
  intros w marks HT HM. destruct (dump_static w marks HT HM) as (q & M & H). exists q. split; [exact M|].
  intros fuel Hf. split.
  - destruct (H 0 (Z.le_refl 0) fuel Hf) as (w' & c' & E & O). exists w', c'. split; [exact E|exact O].
  - intros N HN. destruct (H N ltac:(lia) fuel Hf) as (w' & c' & E & O). exists w', c'. split; [exact E|].
    rewrite O. unfold final_out. destruct (Z.eqb_spec N 0); [lia|reflexivity].
Qed.
Example C44_ex :
  match process_logs 11 static_env true 0 ex_w (open_ctx 2 [9; 9]) 0 with
  | Ok (Some (_, c, _)) => printed (c_out c) = [(0%nat, 4, ex_da 4); (1%nat, 5, ex_da 5)]
  | _ => False
  end.
Proof. vm_compute. reflexivity. Qed.
Print Assumptions C44_tail.

(** ** C45 *)

(** Another process that logs one entry each time the reader has taken one: the dump never ends. *)
Definition busy_env : env nat :=
  mkEnv nat (fun w fds => (w, inr fds)) (fun w _ => (S w, RxFrame (Z.of_nat w) (ex_da 0) 0 true)).
Definition busy_ctx (f g : frame) (out : list ev) : ctx :=
  mkCtx 0 0 0 [f; g] [] [] [mkDev 1 false false] false out.
Lemma busy_round : forall w f g out, exists f' out',
  process_devices busy_env w (busy_ctx f g out) = Ok (S w, busy_ctx g f' out', 1).
Proof.
  intros w f g out. exists (mkFrame (f_id f) 0 (Z.of_nat w) (ex_da 0) true). eexists.
  cbv - [Z.of_nat Nat.eqb]. rewrite Nat.eqb_refl. reflexivity.
Qed.
Lemma busy_forever : forall fuel w f g out fr,
  process_logs fuel busy_env true 0 w (busy_ctx f g out) fr = Ok None.
Proof.
  induction fuel as [|k IH]; intros w f g out fr; [reflexivity|].
  cbn [process_logs]. destruct (busy_round w f g out) as (f' & out' & ->). cbn [bind].
  change (1 <? 0) with false. cbn [c_mark busy_ctx andb Z.eqb orb]. apply IH.
Qed.
Theorem C45_dump_ends_refuted : exists (en : env nat) (marks : list Z),
  poll_sane en /\ forall fuel w, process_logs fuel en true 0 w (open_ctx 0 marks) 0 = Ok None.
Proof.
  exists busy_env, [1]. split.
  - intros w fds w' rev [= <- <-] i H. exact H.
  - intros fuel w. apply busy_forever.
Qed.

(** A round in which no device has anything to read. *)
Lemma quiet_read {W} (en : env W) fds rev k : (forall i, nth i rev false = false) -> forall i w c fr,
  (i + k <= length (c_devs c))%nat ->
  exists c', read_devices en k i fds rev w c fr = (w, c', inr fr) /\
    c_pq c' = c_pq c /\ c_pending c' = c_pending c /\ length (c_devs c') = length (c_devs c) /\
    (forall j, d_pending (get_dev c' j) = d_pending (get_dev c j)) /\
    (forall j, (j < i)%nat -> get_dev c' j = get_dev c j) /\
    (forall j, (i <= j < i + k)%nat -> nth j fds false = true -> d_mark (get_dev c' j) <= 0).
Proof.
  intros Hr. induction k as [|k IH]; intros i w c fr Hl; cbn [read_devices].
  { exists c. repeat split; auto. intros j Hj. lia. }
  rewrite Hr. cbn [negb]. set (c1 := if _ && _ then _ else c).
  assert (S1 : c_pq c1 = c_pq c /\ c_pending c1 = c_pending c /\ length (c_devs c1) = length (c_devs c) /\
    (forall j, d_pending (get_dev c1 j) = d_pending (get_dev c j)) /\
    (forall j, j <> i -> get_dev c1 j = get_dev c j) /\
    (nth i fds false = true -> d_mark (get_dev c1 i) <= 0)).
  { subst c1. destruct (nth i fds false); cbn [andb]; [|repeat split; auto; discriminate].
    destruct (Z.ltb_spec 0 (d_mark (get_dev c i))); [|repeat split; auto].
    repeat split; auto.
    - cbn. apply set_nth_length.
    - intros j. rewrite nth_set_dev. destruct (Nat.eqb_spec j i) as [->|]; cbn [andb]; auto.
      destruct (_ <? _)%nat; auto.
    - intros j Hj. rewrite nth_set_dev. destruct (Nat.eqb_spec j i); [contradiction|reflexivity].
    - intros _. rewrite nth_set_dev, Nat.eqb_refl. destruct (Nat.ltb_spec i (length (c_devs c))); cbn; lia. }
  destruct S1 as (A1 & A2 & A3 & A4 & A5 & A6).
  destruct (IH (S i) w c1 fr ltac:(lia)) as (c' & E & B1 & B2 & B3 & B4 & B5 & B6).
  exists c'. split; [exact E|]. split; [congruence|]. split; [congruence|]. split; [congruence|].
  split; [intros j; rewrite B4; apply A4|]. split; [intros j Hj; rewrite B5 by lia; apply A5; lia|].
  intros j Hj Hf. destruct (Nat.eq_dec j i) as [->|].
  - rewrite B5 by lia. auto.
  - apply B6; auto. lia.
Qed.

Lemma tail_flush_mark n c c' : inv n c -> process_tail_flush c = Ok c' ->
  c_mark c' = c_mark c /\ (c_mark c = false -> c' = c).
Proof.
  intros I E. unfold process_tail_flush in E.
  destruct (c_mark c) eqn:M; cbn [negb] in E.
  2:{ rewrite orb_true_r in E. injection E as <-. auto. }
  split; [|discriminate]. destruct (c_tail c =? 0); cbn [orb] in E; [injection E as <-; auto|].
  assert (Hp : 0 <= c_pending c) by (rewrite (iv_pend _ _ I); apply zlen_nonneg).
  pose proof (iv_tail _ _ I).
  destruct (tail_drop_inv n (Z.to_nat (c_render c + c_pending c)) c I) as (c1 & E1 & I1 & M1); [lia|].
  rewrite E1 in E. cbn [bind] in E. pose proof (iv_tail _ _ I1).
  destruct (flush_render_queue_inv n (Z.to_nat (c_render c1)) c1 I1) as (c2 & E2 & I2 & _ & M2); [lia|].
  rewrite E2 in E. cbn [bind] in E. injection E as <-. cbn. congruence.
Qed.

Definition quiet {W} (en : env W) (w : W) : Prop := forall fds, e_poll en w fds = (w, inr []).

Lemma quiet_round {W} (en : env W) n w c : quiet en w -> inv n c ->
  exists c', process_devices en w c = Ok (w, c', 0) /\ inv n c' /\
    (c_mark c' = true \/ c_pending c' < c_pending c).
Proof.
  intros Q I. unfold process_devices. rewrite Q.
  set (fds := map _ (c_devs c)).
  assert (PN : forall i, nth i (@nil bool) false = false) by (intros []; reflexivity).
  destruct (quiet_read en fds [] (length (c_devs c)) PN 0 w c 0 (le_n _)) as (c1 & E & A1 & A2 & A3 & A4 & _ & A6).
  pose proof (read_devices_inv en n fds [] (length (c_devs c)) 0 w c 0 I (le_n _)) as I1.
  rewrite E in I1 |- *. cbn [fst snd] in I1.
  specialize (I1 ltac:(intros j _ H; rewrite PN in H; discriminate)).
  destruct (pull_inv n c1 I1) as (c2 & E2 & I2). rewrite E2. cbn [bind].
  exists c2. split; [reflexivity|]. split; [exact I2|].
  unfold pull in E2.
  assert (I3 : inv n (update_mark_reached (pull_oldest c1))) by (apply update_mark_inv, pull_oldest_inv, I1).
  destruct (tail_flush_mark n _ _ I3 E2) as [M2 M3].
  destruct (c_mark (update_mark_reached (pull_oldest c1))) eqn:Mk; [left; congruence|right].
  rewrite (M3 eq_refl).
  unfold update_mark_reached in *.
  destruct (c_mark (pull_oldest c1) || existsb (fun d => 0 <? d_mark d) (c_devs (pull_oldest c1))) eqn:Ex; [|cbn in Mk; discriminate].
  rewrite Mk in Ex. cbn [orb] in Ex. clear M2 M3 E2 I3.
  unfold pull_oldest in *. destruct (find_oldest c1) as [f|] eqn:F.
  - assert (X : forall x, c_pending (if 0 <? c_tail x then enqueue_render x f else free_frame (flush_frame x f) f) = c_pending x).
    { intros x. destruct (0 <? c_tail x).
      - unfold enqueue_render. cbv zeta. destruct (c_render x <? c_tail x); [reflexivity|]. destruct (c_rq x ++ [f]); reflexivity.
      - cbn. apply (flush_frame_same x f). }
    cbn zeta. rewrite X. cbn. lia.
  - exfalso. apply find_oldest_none in F. apply existsb_exists in Ex. destruct Ex as (d & Hd & Hm).
    apply (In_nth _ _ dflt) in Hd. destruct Hd as (j & Hj & <-).
    assert (d_mark (get_dev c1 j) <= 0); [|unfold get_dev in *; lia].
    apply A6; [lia|]. subst fds.
    rewrite (nth_indep _ _ (negb (d_pending dflt))) by (rewrite map_length; lia).
    rewrite (map_nth (fun d => negb (d_pending d))). apply negb_true_iff.
    change (nth j (c_devs c) dflt) with (get_dev c j).
    destruct (d_pending (get_dev c j)) eqn:P; auto. exfalso.
    assert (X : In j (map f_dev (c_pq c))) by (apply (iv_devs _ _ I); split; [lia|exact P]).
    rewrite <- A1, F in X. destruct X.
Qed.

(** The dump ends when the devices stay quiet for one round more than there are devices, whatever
    happened before (any environment, any number of rounds). *)
Theorem C45_quiet_ends_partial : forall W (en : env W) tail marks k w0 w c, 0 <= tail -> poll_sane en ->
  rounds k en w0 (open_ctx tail marks) = Ok (w, c) -> quiet en w ->
  forall fuel fr, (length marks < fuel)%nat ->
  exists c', process_logs fuel en true 0 w c fr = Ok (Some (w, c', 0)).
Proof.
  intros W en tail marks k w0 w c Ht PS Hr Q.
  destruct (rounds_inv en _ k w0 _ PS (open_inv tail marks Ht)) as (w1 & c1 & E & I).
  rewrite Hr in E. injection E as <- <-.
  assert (Hd : length (c_devs c) = length marks).
  { assert (Hl : forall W (en : env W) k i fds rev w c fr, length (c_devs (snd (fst (read_devices en k i fds rev w c fr)))) = length (c_devs c)).
    { clear. intros W en k. induction k as [|k IH]; intros i fds rev w c fr; cbn; auto.
      destruct (negb _).
      - rewrite IH. destruct (_ && _); cbn; auto. apply set_nth_length.
      - destruct (alloc_frame c) as [[f c1]|] eqn:A.
        + assert (L : c_devs c1 = c_devs c).
          { unfold alloc_frame in A. destruct (c_free c); [discriminate|]. injection A as <- <-. reflexivity. }
          destruct (e_recv en w i) as [w' []]; cbn; rewrite ?IH; cbn; rewrite ?set_nth_length, ?L; auto.
        + rewrite IH. reflexivity. }
    assert (Hff : forall c f, length (c_devs (flush_frame c f)) = length (c_devs c)).
    { intros x f. destruct (flush_frame_same x f) as (_&_&_&_&_&_&_&D&_).
      rewrite <- (map_length d_mark), D. apply map_length. }
    assert (Hpf : forall c b c', flush_pending_frame c b = Ok c' -> length (c_devs c') = length (c_devs c)).
    { intros x b c'. unfold flush_pending_frame. destruct (_ <? _); [|intros [= <-]; auto].
      destruct (find_oldest x) as [f|]; [|discriminate]. intros [= <-]. cbn. rewrite set_nth_length.
      destruct b; auto. }
    assert (Hrf : forall c b c', flush_render_frame c b = Ok c' -> length (c_devs c') = length (c_devs c)).
    { intros x b c'. unfold flush_render_frame. destruct (_ <? _); [|intros [= <-]; auto].
      destruct (c_rq x) as [|f r]; [discriminate|]. intros [= <-]. cbn. destruct b; auto. }
    assert (Htd : forall m c c', tail_drop m c = Ok c' -> length (c_devs c') = length (c_devs c)).
    { induction m as [|m IH]; intros x c'; cbn [tail_drop]; destruct (_ <? _); try discriminate; try (intros [= <-]; auto).
      destruct (0 <? c_render x).
      - destruct (flush_render_frame x true) as [y|] eqn:Ey; [|discriminate]. cbn [bind]. intros H.
        rewrite (IH _ _ H). eapply Hrf, Ey.
      - destruct (0 <? c_pending x); cbn [bind]; [|apply IH].
        destruct (flush_pending_frame x true) as [y|] eqn:Ey; [|discriminate]. cbn [bind]. intros H.
        rewrite (IH _ _ H). eapply Hpf, Ey. }
    assert (Hrq : forall m c c', flush_render_queue m c = Ok c' -> length (c_devs c') = length (c_devs c)).
    { induction m as [|m IH]; intros x c'; cbn [flush_render_queue]; destruct (_ <? _); try discriminate; try (intros [= <-]; auto).
      destruct (flush_render_frame x false) as [y|] eqn:Ey; [|discriminate]. cbn [bind]. intros H.
      rewrite (IH _ _ H). eapply Hrf, Ey. }
    assert (Hpu : forall c c', pull c = Ok c' -> length (c_devs c') = length (c_devs c)).
    { intros x c'. unfold pull.
      assert (L : length (c_devs (update_mark_reached (pull_oldest x))) = length (c_devs x)).
      { unfold update_mark_reached. assert (L : length (c_devs (pull_oldest x)) = length (c_devs x)).
        { unfold pull_oldest. destruct (find_oldest x) as [f|]; auto. cbn zeta. destruct (_ <? _).
          - unfold enqueue_render. destruct (_ <? _); cbn; [apply set_nth_length|]. destruct (c_rq x ++ [f]); cbn; apply set_nth_length.
          - cbn. rewrite Hff. cbn. apply set_nth_length. }
        destruct (_ || _); cbn; auto. }
      unfold process_tail_flush. destruct (_ || _); [intros [= <-]; exact L|].
      destruct (tail_drop _ _) as [y|] eqn:Ey; [|discriminate]. cbn [bind].
      destruct (flush_render_queue _ _) as [z|] eqn:Ez; [|discriminate]. cbn [bind]. intros [= <-]. cbn.
      rewrite (Hrq _ _ _ Ez), (Htd _ _ _ Ey). exact L. }
    clear - Hr Hl Hpu.
    replace (length marks) with (length (c_devs (open_ctx tail marks))) by (cbn; apply map_length).
    revert w0 Hr. generalize (open_ctx tail marks). induction k as [|k IH]; intros c0 w0; cbn; [intros [= <- <-]; auto|].
    unfold process_devices. destruct (e_poll en w0 _) as [w1 [b|rev]]; [cbn; intros H; apply (IH _ _ H)|].
    match goal with |- context [read_devices ?a ?b ?c0 ?d ?e ?f ?g ?h] =>
      pose proof (Hl W a b c0 d e f g h) as R; destruct (read_devices a b c0 d e f g h) as [[w2 c2] []] end;
      cbn in *; [intros H; rewrite (IH _ _ H); exact R|].
    destruct (pull c2) as [c3|] eqn:Ep; [|discriminate]. cbn. intros H. rewrite (IH _ _ H), (Hpu _ _ Ep). exact R. }
  assert (G : forall fuel c fr, inv (Z.to_nat (tail + zlen marks + 1)) c -> c_pending c < Z.of_nat fuel ->
                exists c', process_logs fuel en true 0 w c fr = Ok (Some (w, c', 0))).
  { clear Hr Hd I. clear c. induction fuel as [|m IH]; intros c fr I Hp.
    { rewrite (iv_pend _ _ I) in Hp. pose proof (zlen_nonneg (c_pq c)). lia. }
    cbn [process_logs]. destruct (quiet_round en _ w c Q I) as (c1 & E1 & I1 & H1). rewrite E1. cbn [bind].
    destruct (Z.ltb_spec 0 0); [lia|].
    destruct (c_mark c1) eqn:M; cbn [andb].
    - destruct (flush_pending_queue_inv _ (Z.to_nat (c_pending c1)) c1 I1) as (c2 & -> & _).
      { rewrite (iv_pend _ _ I1). pose proof (zlen_nonneg (c_pq c1)). lia. }
      cbn [bind]. eauto.
    - cbn [Z.eqb orb]. apply IH; auto. destruct H1; [discriminate|lia]. }
  intros fuel fr Hf. apply G; auto.
  rewrite (iv_pend _ _ I). pose proof (inv_pq_len _ _ I) as Hq. unfold zlen in Hq at 2. rewrite Hd in Hq. lia.
Qed.
Example C45_ex : poll_sane static_env /\ quiet static_env [] /\
  rounds 1 static_env [] (open_ctx 0 [5; 7]) = Ok ([], mkCtx 0 0 0 (pool 3) [] [] [mkDev 0 false false; mkDev 0 false false] true []).
Proof.
  split; [apply static_sane|]. split; [|vm_compute; reflexivity].
  intros [|b fds]; reflexivity.
Qed.
Print Assumptions C45_dump_ends_refuted.
Print Assumptions C45_quiet_ends_partial.

(** ** C65 *)

(** ulogcat -t with a negative number: once the marks are reached the reader spins in
    process_tail_flush, printing nothing more; no number of turns is enough. *)
Theorem C65_negative_tail_refuted : exists c : ctx,
  c_tail c = -1 /\ c_mark c = true /\ (forall fuel, tail_drop fuel c = Bug Hang) /\
  process_logs 1 static_env true 0 [[]] (open_ctx (-1) [0]) 0 = Bug Hang /\
  update_mark_reached (pull_oldest (open_ctx (-1) [0])) = c.
Proof.
  exists (update_mark_reached (open_ctx (-1) [0])). split; [reflexivity|]. split; [reflexivity|].
  split; [|split; reflexivity].
  induction fuel as [|k IH]; [reflexivity|exact IH].
Qed.
(** With a tail of zero or more the reader never gets stuck inside a round. *)
Theorem C65_tail_partial : forall W (en : env W) tail marks fuel dump max w, 0 <= tail -> poll_sane en ->
  exists r, process_logs fuel en dump max w (open_ctx tail marks) 0 = Ok r.
Proof.
  intros W en tail marks fuel dump max w Ht PS.
  destruct (proj2 (C42_pool W en tail marks Ht PS) fuel dump max w) as (r & E & _). eauto.
Qed.
Print Assumptions C65_negative_tail_refuted.
Print Assumptions C65_tail_partial.
