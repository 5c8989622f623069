(** Properties C118 and C119: reading /dev/kmsg.

    Vocabulary: KlogReadSpec.v ([kmsg], [happening], [shown_for], [at_rest]), KlogSpec.v ([krecord]). *)
From Coq Require Import ZArith String List Bool Lia ZifyBool ZifyNat Arith.
From Verif Require Import Bytes BytesProofs Parse Klog KlogSpec KlogProofs PropsKlog KlogRead KlogReadSpec.
Import ListNotations.
Open Scope Z_scope.

(** ** Lemmas: one call *)
Lemma read_in_place mem r : zlen r < zlen mem ->
  exists junk, mem_write mem 0 r = Ok (r ++ zdrop (zlen r) mem) /\
    store (r ++ zdrop (zlen r) mem) (zlen r) 0 = Ok (r ++ 0 :: junk) /\ zlen (r ++ 0 :: junk) = zlen mem.
Proof.
  intros L. pose proof (zlen_nonneg r) as P. exists (zdrop (zlen r + 1) mem). split; [|split].
  - rewrite mem_write_ok by lia. f_equal.
  - assert (G : zlen (zdrop (zlen r) mem) = zlen mem - zlen r) by (rewrite zlen_zdrop; lia).
    assert (D : zdrop (zlen r + 1) mem = zdrop 1 (zdrop (zlen r) mem)). { rewrite zdrop_zdrop by lia. f_equal; lia. }
    rewrite D. destruct (zdrop (zlen r) mem) as [|x l]; [change (zlen (@nil Z)) with 0 in G; lia|].
    rewrite store_at by reflexivity. reflexivity.
  - rewrite zlen_app, zlen_cons, zlen_zdrop. lia.
Qed.

Section Call.
  Context (W : Z) (HW : W = 32 \/ W = 64).

  (** The frame [f] holds record [r]. *)
  Definition holds (f0 f : frame) (r : list Z) : Prop := exists junk, buf_of f = r ++ 0 :: junk /\ f_buf f <> Null /\
    zlen (f_data f) = zlen (f_data f0) /\ (f_buf f = InFrame -> f_size f = f_size f0) /\ zlen (buf_of f) = f_size f.

  Lemma read_small f r d d' : at_rest f -> zlen r < 200 -> kmsg d 199 = (d', RData r) ->
    exists f', (forall blk, klog_read_entry kmsg blk d f = Ok (d', f', zlen r)) /\ holds f f' r.
  Proof.
    intros (R1 & R2 & R3) L E. destruct (read_in_place (f_data f) r ltac:(lia)) as (junk & E1 & E2 & E3).
    exists (mkF (r ++ 0 :: junk) InFrame 200). split.
    - intros blk. unfold klog_read_entry, read_buf. rewrite R3. change (200 - 1) with 199. rewrite E, R2, E1.
      cbn [bind buf_of with_buf f_buf f_data f_size]. rewrite E2. reflexivity.
    - exists junk. cbn [buf_of f_buf f_data f_size]. rewrite E3. repeat split; auto; try discriminate; congruence.
  Qed.
  Lemma read_big f r d d1 d' blk : at_rest f -> zlen r <= 8191 -> zlen blk = 8192 -> kmsg d 199 = (d1, RErr EINVAL) -> kmsg d1 8191 = (d', RData r) ->
    exists f', klog_read_entry kmsg (Some blk) d f = Ok (d', f', zlen r) /\ holds f f' r.
  Proof.
    intros (R1 & R2 & R3) L B E F. destruct (read_in_place blk r ltac:(lia)) as (junk & E1 & E2 & E3).
    exists (mkF (f_data f) (Heap (r ++ 0 :: junk)) BUFSIZ). split.
    - unfold klog_read_entry, read_buf. rewrite R3. change (200 - 1) with 199. rewrite E. cbn [bind]. rewrite R2.
      change (EINVAL =? EINVAL) with true. cbn [f_size f_buf f_data]. change (BUFSIZ - 1) with 8191. rewrite F, E1.
      cbn [bind buf_of with_buf f_buf f_data f_size]. rewrite E2. reflexivity.
    - exists junk. cbn [buf_of f_buf f_data f_size]. rewrite E3. repeat split; auto; try discriminate; congruence.
  Qed.

  Lemma rest_holds f0 f r m : at_rest f0 -> holds f0 f r -> zlen m = zlen (buf_of f) -> at_rest (free_frame (with_buf f m)).
  Proof.
    intros (R1 & R2 & R3) (junk & B & N & D & S & _) Lm. destruct f as (da, [| |h], sz); cbn in *; [|congruence|].
    - unfold at_rest. cbn. rewrite Lm, D, S; auto.
    - unfold at_rest. cbn. rewrite D. auto.
  Qed.

  (** One turn of [follow] for a record in the frame. *)
  Lemma turn f0 f m : at_rest f0 -> holds f0 f (record_of m) -> sound m ->
    exists mem1 k mem2 off, klog_receive W (buf_of f) = Ok (mem1, Some k) /\ klog_parse mem1 (r_off k) = Ok (mem2, Some (off, zlen (m_text m) + 1)) /\
      mkS (r_prio k) (r_sec k) (r_nsec k) (zsub off (zlen (m_text m) + 1) mem2) = entry_of m /\
      at_rest (free_frame (with_buf (with_buf f mem1) mem2)) /\ buf_of (with_buf f mem1) = mem1.
  Proof.
    intros R Hh (S1 & S2 & S3 & S4 & S5 & S6 & S7 & S8). destruct Hh as (junk & B & N & D & Sz & Sb).
    destruct (C49_bytes W (m_prio m) (m_seq m) (m_us m) (m_flags m) (m_text m) (m_dict m) junk HW S1 S2 S3 S4 S5 S6 S7 S8) as
      (mem1 & k & mem2 & off & E1 & P1 & P2 & P3 & _ & E2 & P4 & P5 & _).
    exists mem1, k, mem2, off. rewrite B. split; [exact E1|]. split; [exact E2|]. split.
    { unfold entry_of. rewrite P1, P2, P3, P4. reflexivity. }
    assert (BB : buf_of (with_buf f mem1) = mem1) by (destruct f as (da, [| |h], sz); cbn in *; congruence).
    split; [|exact BB].
    replace (with_buf (with_buf f mem1) mem2) with (with_buf f mem2) by (destruct f as (da, [| |h], sz); reflexivity).
    apply (rest_holds f0 f (record_of m)); [exact R| |].
    - exists junk. auto.
    - rewrite B. exact P5.
  Qed.

  Lemma free_rest f : at_rest f -> free_frame f = f.
  Proof. intros (_ & R & _). unfold free_frame. now rewrite R. Qed.

  (** Reading one item. *)
  Lemma one_call h l f blk : at_rest f -> fits h -> zlen blk = 8192 ->
    exists f' k dec, klog_receive_entry kmsg W (Some blk) (item_of h :: l) f = Ok (l, f', match shown_for h with [] => 0 | _ => 1 end, k, dec) /\
      match k with
      | None => shown_for h = [] /\ at_rest (free_frame f')
      | Some k => exists mem2 off len, klog_parse (buf_of f') (r_off k) = Ok (mem2, Some (off, len)) /\
          [mkS (r_prio k) (r_sec k) (r_nsec k) (zsub off len mem2)] = shown_for h /\ at_rest (free_frame (with_buf f' mem2))
      end.
  Proof.
    intros R F B.
    assert (REC : forall f' m, holds f f' (record_of m) -> sound m -> klog_read_entry kmsg (Some blk) (item_of h :: l) f = Ok (l, f', zlen (record_of m)) -> shown_for h = [entry_of m] ->
      exists f' k dec, klog_receive_entry kmsg W (Some blk) (item_of h :: l) f = Ok (l, f', match shown_for h with [] => 0 | _ => 1 end, k, dec) /\
      match k with
      | None => shown_for h = [] /\ at_rest (free_frame f')
      | Some k => exists mem2 off len, klog_parse (buf_of f') (r_off k) = Ok (mem2, Some (off, len)) /\
          [mkS (r_prio k) (r_sec k) (r_nsec k) (zsub off len mem2)] = shown_for h /\ at_rest (free_frame (with_buf f' mem2))
      end).
    { intros f' m Hh S E Sh. destruct (turn f f' m R Hh S) as (mem1 & k & mem2 & off & E1 & E2 & E3 & E4 & E5).
      exists (with_buf f' mem1), (Some k). eexists. unfold klog_receive_entry. rewrite E. cbn [bind].
      assert (P : zlen (record_of m) <=? 0 = false).
      { unfold record_of, krecord. rewrite !zlen_app. change (zlen [44]) with 1. pose proof (zlen_nonneg (m_prio m)). pose proof (zlen_nonneg (m_seq m)).
        pose proof (zlen_nonneg (m_us m)). pose proof (zlen_nonneg (m_flags m)). pose proof (zlen_nonneg (kescape (m_text m))).
        pose proof (zlen_nonneg [59]). pose proof (zlen_nonneg [10]). pose proof (zlen_nonneg (m_dict m)). lia. }
      rewrite P, E1. cbn [bind]. rewrite Sh. split; [reflexivity|].
      exists mem2, off, (zlen (m_text m) + 1). rewrite E5. split; [exact E2|]. split; [now rewrite E3|]. exact E4. }
    assert (NONE : forall e d1, kmsg (item_of h :: l) 199 = (l, RErr e) -> e = EPIPE \/ e = EINTR -> shown_for h = [] -> d1 = l ->
      exists f' k dec, klog_receive_entry kmsg W (Some blk) (item_of h :: l) f = Ok (l, f', match shown_for h with [] => 0 | _ => 1 end, k, dec) /\
      match k with
      | None => shown_for h = [] /\ at_rest (free_frame f')
      | Some k => exists mem2 off len, klog_parse (buf_of f') (r_off k) = Ok (mem2, Some (off, len)) /\
          [mkS (r_prio k) (r_sec k) (r_nsec k) (zsub off len mem2)] = shown_for h /\ at_rest (free_frame (with_buf f' mem2))
      end).
    { intros e d1 E He Sh _. exists f, None. eexists. split.
      - unfold klog_receive_entry, klog_read_entry, read_buf. rewrite (proj2 (proj2 R)). change (200 - 1) with 199. rewrite E. cbn [bind].
        rewrite (proj1 (proj2 R)), Sh. destruct He as [-> | ->]; reflexivity.
      - split; [exact Sh|]. now rewrite free_rest. }
    destruct h as [m| | |m]; cbn [item_of shown_for fits] in *.
    - destruct F as (S & L). destruct (Z_lt_le_dec 199 (zlen (record_of m))) as [G|G].
      + destruct (read_big f (record_of m) (KRec (record_of m) :: l) (KRec (record_of m) :: l) l blk R L B) as (f' & E & Hh).
        * cbn. replace (199 <? zlen (record_of m)) with true by lia. reflexivity.
        * cbn. replace (8191 <? zlen (record_of m)) with false by lia. reflexivity.
        * apply (REC f' m); auto.
      + destruct (read_small f (record_of m) (KRec (record_of m) :: l) l R ltac:(lia)) as (f' & E & Hh).
        * cbn. replace (199 <? zlen (record_of m)) with false by lia. reflexivity.
        * apply (REC f' m); auto.
    - apply (NONE EPIPE l); auto.
    - apply (NONE EINTR l); auto.
    - destruct F as (S & L). destruct (Z_lt_le_dec 199 (zlen (record_of m))) as [G|G].
      + clear REC NONE. replace (zlen (record_of m) <? 200) with false by lia.
        exists (mkF (f_data f) (Heap blk) BUFSIZ), None, 0. split.
        * unfold klog_receive_entry, klog_read_entry, read_buf. rewrite (proj2 (proj2 R)). change (200 - 1) with 199.
          cbn [kmsg]. replace (199 <? zlen (record_of m)) with true by lia. cbn [bind]. rewrite (proj1 (proj2 R)). reflexivity.
        * split; [reflexivity|]. unfold free_frame, at_rest. cbn. destruct R as (R1 & _). rewrite R1. auto.
      + destruct (read_small f (record_of m) (KGone (record_of m) :: l) l R ltac:(lia)) as (f' & E & Hh).
        * cbn. replace (199 <? zlen (record_of m)) with false by lia. reflexivity.
        * apply (REC f' m); auto. replace (zlen (record_of m) <? 200) with true by lia. reflexivity.
  Qed.

  Lemma follow_all blk : zlen blk = 8192 -> forall hs more free, free <> [] -> Forall at_rest free -> Forall fits hs ->
    exists free', follow kmsg W (length hs) (Some blk) (map item_of hs ++ more) free = Ok (more, free', flat_map shown_for hs, true) /\
      Forall at_rest free' /\ length free' = length free.
  Proof.
    intros B. induction hs as [|h hs IH]; intros more free Ne R F; cbn [length map flat_map app].
    { exists free. repeat split; auto. }
    destruct free as [|f free]; [congruence|]. inversion R; subst. inversion F; subst.
    destruct (one_call h (map item_of hs ++ more) f blk H1 H3 B) as (f' & k & dec & E & K). cbn [follow].
    rewrite E. cbn [bind]. destruct k as [k|].
    - destruct K as (mem2 & off & len & E2 & E3 & E4).
      assert (NN : (match shown_for h with [] => 0 | _ => 1 end) <? 0 = false) by (destruct (shown_for h); reflexivity). rewrite NN.
      rewrite E2. cbn [bind].
      destruct (IH more (free ++ [free_frame (with_buf f' mem2)])) as (free' & E5 & E6 & E7).
      { destruct free; discriminate. } { apply Forall_app. auto. } { auto. }
      rewrite E5. cbn [bind]. rewrite E3. exists free'. split; [reflexivity|]. split; [exact E6|].
      rewrite E7, app_length. cbn. lia.
    - destruct K as (E2 & E4). rewrite E2. cbn [bind]. change (0 <? 0) with false. cbn iota.
      destruct (IH more (free ++ [free_frame f'])) as (free' & E5 & E6 & E7).
      { destruct free; discriminate. } { apply Forall_app. auto. } { auto. }
      rewrite E5. cbn [bind app]. exists free'. split; [reflexivity|]. split; [exact E6|].
      rewrite E7, app_length. cbn. lia.
  Qed.
End Call.

(** ** C118 *)

(** Whatever the kernel says, in records of at most 8191 bytes, with messages overwritten before or
    while they are read and signals in between: every message that can still be read is shown once,
    in order, with its priority, time and exact text; nothing else is; no access is outside the
    buffers; the frames end as they began, whatever bytes they hold. *)
Theorem C118_follow : forall W blk hs more free, W = 32 \/ W = 64 -> zlen blk = 8192 -> free <> [] -> Forall at_rest free -> Forall fits hs ->
  exists free', follow kmsg W (length hs) (Some blk) (map item_of hs ++ more) free = Ok (more, free', flat_map shown_for hs, true) /\
    Forall at_rest free' /\ length free' = length free.
Proof. intros W blk hs more free HW B Ne R F. now apply follow_all. Qed.

(** Any record, well formed or not, and any device: the bytes received are at the start of the frame
    buffer, ended by a NUL inside it. *)
Theorem C118_terminated : forall D (rd : D -> Z -> D * rres) blk d f d' f' ret,
  (forall d n d' r, rd d n = (d', RData r) -> zlen r <= n) -> at_rest f -> (forall m, blk = Some m -> zlen m = 8192) ->
  klog_read_entry rd blk d f = Ok (d', f', ret) -> 0 < ret ->
  exists r junk, zlen r = ret /\ buf_of f' = r ++ 0 :: junk /\ zlen (buf_of f') = f_size f' /\ (f_size f' = 200 \/ f_size f' = 8192).
Proof.
  intros D rd blk d f d' f' ret Rd (R1 & R2 & R3) B E P. unfold klog_read_entry, read_buf in E. rewrite R3 in E. change (200 - 1) with 199 in E.
  destruct (rd d 199) as [d1 [r|e]] eqn:E1.
  - apply Rd in E1. destruct (read_in_place (f_data f) r ltac:(lia)) as (junk & G1 & G2 & G3). rewrite R2, G1 in E.
    cbn [bind buf_of with_buf f_buf f_data f_size] in E. rewrite G2 in E. cbn [bind] in E. injection E as <- <- <-.
    exists r, junk. cbn. rewrite G3. auto.
  - cbn [bind] in E. rewrite R2 in E. destruct (e =? EINVAL).
    + destruct blk as [m|]; [|injection E as <- <- <-; lia]. specialize (B m eq_refl).
      cbn [f_size f_buf f_data] in E. change (BUFSIZ - 1) with 8191 in E. destruct (rd d1 8191) as [d2 [r|e2]] eqn:E2.
      * apply Rd in E2. destruct (read_in_place m r ltac:(lia)) as (junk & G1 & G2 & G3). rewrite G1 in E.
        cbn [bind buf_of with_buf f_buf f_data f_size] in E. rewrite G2 in E. cbn [bind] in E. injection E as <- <- <-.
        exists r, junk. cbn. rewrite G3. auto.
      * cbn [bind] in E. injection E as <- <- <-. destruct ((e2 =? EINTR) || (e2 =? EAGAIN) || (e2 =? EPIPE)); lia.
    + injection E as <- <- <-. destruct ((e =? EINTR) || (e =? EAGAIN) || (e =? EPIPE)); lia.
Qed.

(** Without memory for a long record reading fails, but the record is still there and the frame is
    usable again once put back. *)
Theorem C118_nomem : forall W r d f, at_rest f -> 199 < zlen r ->
  exists f', klog_receive_entry kmsg W None (KRec r :: d) f = Ok (KRec r :: d, f', -1, None, 0) /\ free_frame f' = f.
Proof.
  intros W r d (da, b, sz) (R1 & R2 & R3) L. cbn in R1, R2, R3. subst b sz. exists (mkF da Null 200). split.
  - unfold klog_receive_entry, klog_read_entry, read_buf. cbn [f_size f_buf f_data]. change (200 - 1) with 199. cbn [kmsg].
    replace (199 <? zlen r) with true by lia. reflexivity.
  - unfold free_frame. cbn. now rewrite R1.
Qed.

(** Every record that the opening of the device accepts (a read of BUFSIZ bytes) can be received: no,
    one of 8192 bytes ends the reading, each time. *)
Theorem C118_long_refuted : exists r, zlen r = 8192 /\ (forall d, snd (kmsg (KRec r :: d) BUFSIZ) = RData r) /\
  forall W d blk free f, zlen blk = 8192 -> at_rest f -> follow kmsg W 1 (Some blk) (KRec r :: d) (f :: free) = Ok (KRec r :: d, free ++ [f], [], false).
Proof.
  exists (krecord [54] [49] [53] [45] (zrepeat 65 8183) []).
  assert (L : zlen (krecord [54] [49] [53] [45] (zrepeat 65 8183) []) = 8192).
  { unfold krecord. rewrite !zlen_app.
    assert (K : forall n, kescape (repeat 65 n) = repeat 65 n) by (induction n as [|n IH]; [reflexivity|]; cbn [repeat]; unfold kescape in *; cbn [map concat]; rewrite IH; reflexivity).
    unfold zrepeat. rewrite K. fold (zrepeat 65 8183). rewrite zlen_zrepeat. reflexivity. }
  remember (krecord [54] [49] [53] [45] (zrepeat 65 8183) []) as r eqn:X. clear X.
  split; [exact L|]. split.
  - intros d. cbn [kmsg]. rewrite L. reflexivity.
  - intros W d blk free (da, b, sz) B (R1 & R2 & R3). cbn in R1, R2, R3. subst b sz. cbn [follow]. unfold klog_receive_entry, klog_read_entry, read_buf.
    cbn [f_size f_buf f_data kmsg]. rewrite L. change (200 - 1 <? 8192) with true. cbn [bind f_buf f_size f_data]. change (EINVAL =? EINVAL) with true. cbn iota.
    cbn [f_size f_buf f_data kmsg]. rewrite L. change (BUFSIZ - 1 <? 8192) with true. cbn [bind]. unfold free_frame. cbn -[zlen app]. now rewrite R1.
Qed.

(** The hypotheses are met: two messages, the second too long for the frame, a lost one and a signal. *)
Definition ex_long : kmessage := mkKM [54] [50] (bytes_of_string "2500000") [45] (zrepeat 66 300) [].
Definition ex_hs : list happening := [Said (mkKM [54] [49] [53] [45] [65; 10; 66] []); Overwritten; Signal; Said ex_long; Overtaken ex_long].
Example ex_fits : Forall fits ex_hs.
Proof.
  assert (D : forall s, forallb isdigit s = true -> s <> [] -> digits s).
  { intros s H N. split; [exact N|]. apply Forall_forall. intros x Hx. rewrite forallb_forall in H. apply H in Hx. unfold isdigit in Hx. lia. }
  assert (L : fits (Said ex_long)).
  { split; [|vm_compute; discriminate]. unfold sound. repeat split; try (apply D; [reflexivity|discriminate]); try (vm_compute; reflexivity);
      try (cbn; intuition discriminate). apply Forall_forall. intros x Hx. apply repeat_spec in Hx. lia. }
  repeat constructor; try exact (proj1 L); try exact (proj2 L); cbn; try discriminate; try lia; intuition discriminate.
Qed.
Example ex_shown : map (fun s => (s_prio s, s_sec s, s_nsec s, zlen (s_msg s))) (flat_map shown_for ex_hs) = [(6, 0, 5000, 4); (6, 2, 500000000, 301)].
Proof. vm_compute. reflexivity. Qed.
Example ex_rest : at_rest (mkF (zrepeat 7 200) InFrame 200) /\ zlen (zrepeat 7 8192) = 8192.
Proof. split; [split; [|split]|]; try rewrite zlen_zrepeat; reflexivity. Qed.

(** ** C119 *)

Lemma commas_split : forall s, exists k t, s = k ++ t /\ Forall (fun c => c = 44) k /\ (t = [] \/ exists x r, t = x :: r /\ x <> 44).
Proof.
  induction s as [|c s (k & t & -> & K & T)]; [exists [], []; auto|]. destruct (Z.eq_dec c 44) as [->|N].
  - exists (44 :: k), t. auto.
  - exists [], (c :: k ++ t). split; [reflexivity|]. split; [constructor|]. right. eauto.
Qed.

(** strtok_r in a block whose string from [A] on is [s]. *)
Lemma strtok_gen A s R p : p = zlen A -> ~ In 0 s ->
  strtok (A ++ s ++ 0 :: R) p = Ok (A ++ s ++ 0 :: R, None, zlen (A ++ s)) \/
  (exists k tok, s = k ++ tok /\ ~ In 44 tok /\ tok <> [] /\ strtok (A ++ s ++ 0 :: R) p = Ok (A ++ s ++ 0 :: R, Some (zlen (A ++ k)), zlen (A ++ s))) \/
  (exists k tok s', s = k ++ tok ++ 44 :: s' /\ ~ In 44 tok /\ tok <> [] /\
     strtok (A ++ s ++ 0 :: R) p = Ok ((A ++ k ++ tok ++ [0]) ++ s' ++ 0 :: R, Some (zlen (A ++ k)), zlen (A ++ k ++ tok ++ [0]))).
Proof.
  intros -> N. unfold strtok. rewrite zdrop_app_exact by reflexivity. destruct (commas_split s) as (k & t & -> & K & T).
  rewrite <- app_assoc.
  assert (K' : Forall (fun c => (c =? 44) = true) k) by (eapply Forall_impl; [|exact K]; cbn; lia).
  destruct T as [->|(x & r & -> & X)].
  - cbn [app]. rewrite span_c_app by (auto; reflexivity). cbn [bind ch]. change (0 =? 0) with true. cbn iota. left.
    rewrite app_nil_r. do 2 f_equal. now rewrite zlen_app.
  - cbn [app]. rewrite span_c_app by (auto; lia). cbn [bind ch].
    assert (X0 : x <> 0). { intros ->. apply N. apply in_app_iff. right. left. reflexivity. }
    replace (x =? 0) with false by lia.
    destruct (split_at 44 (x :: r)) as [Q|(tok & s' & Q & NT)].
    + change (x :: r ++ 0 :: R) with ((x :: r) ++ 0 :: R).
      rewrite span_c_app; [|apply Forall_forall; intros y Hy|reflexivity].
      2: { assert (y <> 44) by congruence. assert (y <> 0) by (intros ->; apply N, in_app_iff; auto). lia. }
      cbn [bind ch]. change (0 =? 0) with true. cbn iota. right. left. exists k, (x :: r).
      split; [reflexivity|]. split; [exact Q|]. split; [discriminate|].
      replace (zlen A + zlen k) with (zlen (A ++ k)) by apply zlen_app. do 2 f_equal. rewrite !zlen_app. lia.
    + change (x :: r ++ 0 :: R) with ((x :: r) ++ 0 :: R). rewrite Q in *. rewrite <- app_assoc. cbn [app].
      rewrite span_c_app; [|apply Forall_forall; intros y Hy|reflexivity].
      2: { assert (y <> 44) by congruence. assert (y <> 0) by (intros ->; apply N, in_app_iff; right; apply in_app_iff; auto). lia. }
      cbn [bind ch]. change (44 =? 0) with false. cbn iota. right. right. exists k, tok, s'.
      replace (A ++ k ++ tok ++ 44 :: s' ++ 0 :: R) with ((A ++ k ++ tok) ++ 44 :: s' ++ 0 :: R) by (now rewrite <- !app_assoc).
      rewrite store_at by (rewrite !zlen_app; lia). cbn [bind]. split; [reflexivity|]. split; [exact NT|].
      split. { intros ->. cbn in Q. congruence. }
      replace (zlen A + zlen k) with (zlen (A ++ k)) by apply zlen_app. rewrite <- !app_assoc. cbn [app]. do 2 f_equal. rewrite !zlen_app. change (zlen [0]) with 1. lia.
Qed.

Lemma strtol_nul W s r : exists v, strtol W (s ++ 0 :: r) = Ok v.
Proof.
  unfold strtol. destruct (strto_nul s r) as (neg & ds & b & u & E & _). rewrite E. cbn [bind]. eexists. reflexivity.
Qed.
Lemma str_at_nul s r : ~ In 0 s -> str_at (s ++ 0 :: r) = Ok s.
Proof.
  intros N. unfold str_at. rewrite span_c_app; [reflexivity| |reflexivity]. apply Forall_forall. intros x Hx.
  destruct (Z.eqb_spec x 0) as [->|]; [contradiction|reflexivity].
Qed.
Lemma strchr_in mem p c : 0 <= p -> In 0 (zdrop p mem) -> exists o, strchr mem p c = Ok o.
Proof.
  intros P I. unfold strchr. destruct (split_at 0 (zdrop p mem)) as [N|(a & b & E & N)]; [contradiction|]. rewrite E.
  destruct (split_at c a) as [Q|(u & v & -> & Q)].
  - rewrite span_c_app.
    + cbn. eexists. reflexivity.
    + apply Forall_forall. intros y Hy. assert (y <> 0) by congruence. assert (y <> c) by congruence. lia.
    + reflexivity.
  - rewrite <- app_assoc. cbn [app]. rewrite span_c_app.
    + cbn. eexists. reflexivity.
    + apply Forall_forall. intros y Hy. assert (y <> 0) by (intros ->; apply N, in_app_iff; auto). assert (y <> c) by congruence. lia.
    + lia.
Qed.

(** A record in another format, without commas, ends the reading: nothing of it is shown, and nothing that
    follows is. *)
Theorem C118_malformed : forall W blk r d f free n, at_rest f -> r <> [] -> zlen r < 200 -> ~ In 44 r -> ~ In 0 r ->
  exists f', follow kmsg W (S n) blk (KRec r :: d) (f :: free) = Ok (d, free ++ [f'], [], false) /\ at_rest f'.
Proof.
  intros W blk r d f free n R Ne L C N.
  assert (K : kmsg (KRec r :: d) 199 = (d, RData r)) by (cbn [kmsg]; replace (199 <? zlen r) with false by lia; reflexivity).
  destruct (read_small f r _ _ R L K) as (f' & E & H). pose proof H as (junk & B & _).
  cbn [follow]. unfold klog_receive_entry. rewrite (E blk). cbn [bind].
  assert (P : 0 < zlen r) by (destruct r; [congruence|rewrite zlen_cons; pose proof (zlen_nonneg r); lia]).
  replace (zlen r <=? 0) with false by lia.
  assert (Q : klog_receive W (buf_of f') = Ok (buf_of f', None)).
  { rewrite B. unfold klog_receive.
    assert (T2 : forall Y, strtok (r ++ 0 :: Y) (zlen r) = Ok (r ++ 0 :: Y, None, zlen r)).
    { intros Y. destruct (strtok_gen r [] Y (zlen r) eq_refl (fun x => x)) as [G|[(k & tok & Es & _ & Tn & _)|(k & tok & s' & Es & _ & Tn & _)]].
      - cbn [app] in G. rewrite app_nil_r in G. exact G.
      - symmetry in Es. apply app_eq_nil in Es. destruct Es. congruence.
      - symmetry in Es. apply app_eq_nil in Es. destruct Es as (_ & Es). apply app_eq_nil in Es. destruct Es. congruence. }
    destruct (strtok_gen [] r junk 0 eq_refl N) as [G|[(k & tok & Es & _ & Tn & G)|(k & tok & s' & Es & _ & Tn & _)]]; cbn [app] in *.
    - rewrite G. cbn [bind]. rewrite T2. cbn [bind]. rewrite T2. reflexivity.
    - rewrite G. cbn [bind]. rewrite T2. cbn [bind]. rewrite T2. reflexivity.
    - exfalso. apply C. rewrite Es. rewrite !in_app_iff. cbn [In]. auto. }
  rewrite Q. cbn [bind]. change (-1 <? 0) with true. cbv iota. eexists. split; [reflexivity|].
  exact (rest_holds f f' r (buf_of f') R H eq_refl).
Qed.
Print Assumptions C118_malformed.
Example C118_malformed_used : bytes_of_string "6;x" <> [] /\ ~ In 44 (bytes_of_string "6;x") /\ ~ In 0 (bytes_of_string "6;x").
Proof. cbn. intuition discriminate. Qed.


Lemma nul_ahead X R p : 0 <= p <= zlen X -> exists a b, zdrop p (X ++ 0 :: R) = a ++ 0 :: b /\ ~ In 0 a /\ p + zlen a <= zlen X.
Proof.
  intros P. pose proof (zlen_nonneg X). rewrite zdrop_app by lia.
  rewrite (zdrop_nonpos _ (0 :: R)) by lia. pose proof (zlen_zdrop p X) as L. destruct (split_at 0 (zdrop p X)) as [N|(a & b & E & N)].
  - exists (zdrop p X), R. split; [reflexivity|]. split; [exact N|]. lia.
  - exists a, (b ++ 0 :: R). rewrite E, <- app_assoc. split; [reflexivity|]. split; [exact N|]. rewrite E, zlen_app, zlen_cons in L.
    pose proof (zlen_nonneg b). lia.
Qed.
Lemma strtok_in X R p : 0 <= p <= zlen X -> exists X' t q, strtok (X ++ 0 :: R) p = Ok (X' ++ 0 :: R, t, q) /\ zlen X' = zlen X /\ 0 <= q <= zlen X /\
  match t with Some x => 0 <= x <= zlen X | None => True end.
Proof.
  intros P.
  assert (S : exists s Y, X ++ 0 :: R = ztake p X ++ s ++ 0 :: Y /\ ~ In 0 s /\ exists Z, 0 :: Y = Z ++ 0 :: R /\ X = ztake p X ++ s ++ Z).
  { assert (EQ : X ++ 0 :: R = ztake p X ++ zdrop p X ++ 0 :: R) by (rewrite app_assoc, ztake_zdrop; reflexivity). rewrite EQ. destruct (split_at 0 (zdrop p X)) as [N|(a & b & E & N)].
    - exists (zdrop p X), R. split; [reflexivity|]. split; [exact N|]. exists []. rewrite app_nil_r, ztake_zdrop. auto.
    - exists a, (b ++ 0 :: R). rewrite E, <- app_assoc. split; [reflexivity|]. split; [exact N|]. exists (0 :: b). split; [reflexivity|].
      rewrite <- E. symmetry. apply ztake_zdrop. }
  destruct S as (s & Y & E & N & Zt & EZ & EX). revert E EX. set (A := ztake p X) in *.
  assert (LA : p = zlen A) by (subst A; rewrite zlen_ztake; lia). clearbody A. intros E EX. rewrite E.
  assert (LX : zlen X = zlen A + zlen s + zlen Zt) by (rewrite EX, !zlen_app; lia).
  pose proof (zlen_nonneg Zt). pose proof (zlen_nonneg s). pose proof (zlen_nonneg A).
  destruct (strtok_gen A s Y p LA N) as [G|[(k & tok & Es & _ & _ & G)|(k & tok & s' & Es & _ & _ & G)]].
  - exists X, None, (zlen (A ++ s)). rewrite G, E, zlen_app. repeat split; auto; lia.
  - exists X, (Some (zlen (A ++ k))), (zlen (A ++ s)). rewrite G, E. split; [reflexivity|].
    assert (zlen s = zlen k + zlen tok) by (rewrite Es; apply zlen_app).
    pose proof (zlen_nonneg k). pose proof (zlen_nonneg tok). rewrite !zlen_app. repeat split; lia.
  - exists ((A ++ k ++ tok ++ [0]) ++ s' ++ Zt), (Some (zlen (A ++ k))), (zlen (A ++ k ++ tok ++ [0])).
    rewrite G, EZ. split. { rewrite <- !app_assoc. reflexivity. }
    assert (zlen s = zlen k + (zlen tok + (1 + zlen s'))) by (rewrite Es, !zlen_app, zlen_cons; lia).
    pose proof (zlen_nonneg k). pose proof (zlen_nonneg tok). pose proof (zlen_nonneg s'). rewrite !zlen_app. change (zlen [0]) with 1. repeat split; lia.
Qed.

(** Whatever was received, well formed or not, as long as the frame buffer holds one more NUL after that
    of the record: decoding stays inside the buffer. *)
Theorem C119_inside_partial : forall W X R, In 0 R ->
  exists X' k, klog_receive W (X ++ 0 :: R) = Ok (X' ++ 0 :: R, k) /\ zlen X' = zlen X.
Proof.
  intros W X R I. pose proof (zlen_nonneg X). unfold klog_receive.
  destruct (strtok_in X R 0 ltac:(lia)) as (X1 & t1 & q1 & E1 & L1 & Q1 & T1). rewrite E1. cbn [bind].
  destruct (strtok_in X1 R q1 ltac:(lia)) as (X2 & t2 & q2 & E2 & L2 & Q2 & T2). rewrite E2. cbn [bind].
  destruct (strtok_in X2 R q2 ltac:(lia)) as (X3 & t3 & q3 & E3 & L3 & Q3 & T3). rewrite E3. cbn [bind].
  destruct t1 as [p1|]; [|eexists _, _; split; [reflexivity|lia]].
  destruct t3 as [p3|]; [|eexists _, _; split; [reflexivity|lia]].
  destruct (nul_ahead X3 R p3 ltac:(lia)) as (a & b & D3 & N3 & B3).
  destruct (nul_ahead X3 R p1 ltac:(lia)) as (a1 & b1 & D1 & N1 & B1).
  rewrite D3, D1. destruct (strtol_nul 64 a b) as (us & ->). destruct (strtol_nul W a1 b1) as (pr & ->). cbn [bind].
  rewrite (str_at_nul a b N3). cbn [bind]. pose proof (zlen_nonneg a).
  assert (IN : In 0 (zdrop (p3 + zlen a + 1) (X3 ++ 0 :: R))).
  { replace (X3 ++ 0 :: R) with ((X3 ++ [0]) ++ R) by (now rewrite <- app_assoc). rewrite zdrop_app by lia. apply in_app_iff. right.
    rewrite zlen_app. change (zlen [0]) with 1. rewrite zdrop_nonpos by lia. exact I. }
  destruct (strchr_in (X3 ++ 0 :: R) (p3 + zlen a + 1) 59 ltac:(lia) IN) as (o & ->). cbn [bind].
  destruct o; eexists _, _; (split; [reflexivity|lia]).
Qed.

(** A record with at least three fields, the third ended by a comma (what the kernel writes since 3.6,
    here with any bytes in the fields and any text): what is decoded, and the bytes left for klog_parse_entry,
    depend on the record alone, not on older bytes of the buffer. *)
Theorem C119_own : forall W a b c d, a <> [] -> b <> [] -> c <> [] -> ~ In 44 a -> ~ In 44 b -> ~ In 44 c -> ~ In 0 (a ++ b ++ c ++ d) ->
  exists mem k, zlen mem = zlen (a ++ [44] ++ b ++ [44] ++ c ++ [44] ++ d) /\
    (forall R, klog_receive W ((a ++ [44] ++ b ++ [44] ++ c ++ [44] ++ d) ++ 0 :: R) = Ok (mem ++ 0 :: R, k)) /\
    (k = None <-> ~ In 59 d) /\
    forall r, k = Some r -> exists u v, mem = u ++ 59 :: v /\ r_off r = zlen u /\ ~ In 0 v.
Proof.
  intros W a b c d Na Nb Nc Ca Cb Cc N0.
  assert (Z0 : ~ In 0 a /\ ~ In 0 b /\ ~ In 0 c /\ ~ In 0 d) by (repeat split; intros X; apply N0; rewrite !in_app_iff; tauto).
  destruct Z0 as (Za & Zb & Zc & Zd).
  destruct (strtol_nul 64 c []) as (us & _).
  assert (VALS : exists us pr, forall R, strtol 64 (c ++ 0 :: R) = Ok us /\ strtol W (a ++ 0 :: R) = Ok pr).
  { assert (V : forall V s, ~ In 0 s -> exists v, forall R, strtol V (s ++ 0 :: R) = Ok v). 2: { destruct (V 64 c Zc) as (v1 & V1). destruct (V W a Za) as (v2 & V2). exists v1, v2. auto. }
    intros V s Ns.
    assert (SP : forall f s, f 0 = false -> exists x y, s = x ++ y /\ forall R, span_c f (s ++ 0 :: R) = Ok (x, y ++ 0 :: R)).
    { intros f s0 F. induction s0 as [|e s0 (x & y & -> & IH)].
      - exists [], []. split; [reflexivity|]. intros R. cbn. now rewrite F.
      - cbn [app span_c]. destruct (f e) eqn:Fe.
        + exists (e :: x), y. split; [reflexivity|]. intros R. rewrite IH. reflexivity.
        + exists [], (e :: x ++ y). split; [reflexivity|]. intros R. reflexivity. }
    unfold strtol, strto. destruct (SP isspace s eq_refl) as (x & y & -> & E).
    destruct y as [|e y].
    + destruct (SP isdigit [] eq_refl) as (x1 & y1 & _ & E1). eexists. intros R. rewrite E. cbn [bind app ch]. change (0 =? 45) with false. change (0 =? 43) with false. cbn iota.
      specialize (E1 R). cbn [app] in E1. rewrite E1. cbn [bind]. reflexivity.
    + destruct (SP isdigit y eq_refl) as (x1 & y1 & _ & E1). destruct (SP isdigit (e :: y) eq_refl) as (x2 & y2 & _ & E2).
      destruct (Z.eqb_spec e 45) as [->|M1]; [|destruct (Z.eqb_spec e 43) as [->|M2]]; eexists; intros R; rewrite E; cbn [bind app ch].
      * change (45 =? 45) with true. cbn iota. cbn [tl]. rewrite E1. cbn [bind]. reflexivity.
      * change (43 =? 45) with false. change (43 =? 43) with true. cbn iota. cbn [tl]. rewrite E1. cbn [bind]. reflexivity.
      * replace (e =? 45) with false by lia. replace (e =? 43) with false by lia. specialize (E2 R). cbn [app] in E2. rewrite E2. cbn [bind]. reflexivity. }
  clear us. destruct VALS as (us & pr & VALS).
  set (mem := a ++ [0] ++ b ++ [0] ++ c ++ [0] ++ d).
  assert (RUN : forall R, klog_receive W ((a ++ [44] ++ b ++ [44] ++ c ++ [44] ++ d) ++ 0 :: R) =
     let* semi := strchr (mem ++ 0 :: R) (zlen (a ++ [0] ++ b ++ [0] ++ c ++ [0])) 59 in
     match semi with None => Ok (mem ++ 0 :: R, None) | Some off => Ok (mem ++ 0 :: R, Some (mkR (Z.land pr 7) (sW W (us mod 2 ^ 64 / 1000000))
        (sW W ((us - sW W (us mod 2 ^ 64 / 1000000) * 1000000) mod 2 ^ 64 * 1000)) (us mod 2 ^ 64) off)) end).
  { intros R. unfold klog_receive.
    replace ((a ++ [44] ++ b ++ [44] ++ c ++ [44] ++ d) ++ 0 :: R) with ([] ++ a ++ 44 :: b ++ [44] ++ c ++ [44] ++ d ++ 0 :: R) by (cbn [app]; rewrite <- !app_assoc; cbn [app]; rewrite <- !app_assoc; cbn [app]; now rewrite <- !app_assoc).
    rewrite strtok_ok by (auto; reflexivity). cbn [bind app].
    replace (a ++ 0 :: b ++ 44 :: c ++ 44 :: d ++ 0 :: R) with ((a ++ [0]) ++ b ++ 44 :: c ++ [44] ++ d ++ 0 :: R) by (now rewrite <- !app_assoc).
    rewrite strtok_ok by (auto; rewrite zlen_app; reflexivity). cbn [bind app].
    replace ((a ++ [0]) ++ b ++ 0 :: c ++ 44 :: d ++ 0 :: R) with ((a ++ [0] ++ b ++ [0]) ++ c ++ 44 :: d ++ 0 :: R) by (cbn [app]; rewrite <- !app_assoc; cbn [app]; now rewrite <- !app_assoc).
    rewrite strtok_ok; auto; [|rewrite !zlen_app; change (zlen [0]) with 1; lia]. cbn [bind].
    replace (0 + zlen a + 1 + zlen b + 1) with (zlen (a ++ [0] ++ b ++ [0])) by (rewrite !zlen_app; change (zlen [0]) with 1; lia).
    rewrite zdrop_app_exact by reflexivity. rewrite (proj1 (VALS _)). cbn [bind].
    replace (zdrop 0 ((a ++ [0] ++ b ++ [0]) ++ c ++ 0 :: d ++ 0 :: R)) with (a ++ 0 :: (b ++ [0]) ++ c ++ 0 :: d ++ 0 :: R) by (rewrite zdrop_0; cbn [app]; rewrite <- !app_assoc; cbn [app]; now rewrite <- !app_assoc).
    rewrite (proj2 (VALS _)). cbn [bind]. rewrite str_at_nul by auto. cbn [bind].
    replace ((a ++ [0] ++ b ++ [0]) ++ c ++ 0 :: d ++ 0 :: R) with (mem ++ 0 :: R).
    2: { subst mem. cbn [app]. rewrite <- !app_assoc. cbn [app]. rewrite <- !app_assoc. cbn [app]. rewrite <- !app_assoc. reflexivity. }
    replace (zlen (a ++ [0] ++ b ++ [0]) + zlen c + 1) with (zlen (a ++ [0] ++ b ++ [0] ++ c ++ [0])) by (rewrite !zlen_app; change (zlen [0]) with 1; lia).
    reflexivity. }
  set (H := a ++ [0] ++ b ++ [0] ++ c ++ [0]) in *.
  assert (EM : mem = H ++ d). { subst mem H. repeat (progress (cbn [app]; rewrite <- ?app_assoc)). reflexivity. }
  assert (LM : zlen mem = zlen (a ++ [44] ++ b ++ [44] ++ c ++ [44] ++ d)) by (subst mem; rewrite !zlen_app; reflexivity).
  destruct (split_at 59 d) as [Q|(u & v & -> & Q)].
  - exists mem, None. split; [exact LM|]. split.
    { intros R. rewrite RUN, EM, <- app_assoc. rewrite strchr_none by (auto; lia). reflexivity. }
    split; [tauto|]. discriminate.
  - eexists mem, (Some _). split; [exact LM|]. split.
    { intros R. rewrite RUN, EM, <- !app_assoc. cbn [app]. rewrite strchr_some; auto; [|lia|intros X; apply Zd, in_app_iff; auto]. cbn [bind]. reflexivity. }
    split. { split; [discriminate|]. intros X. exfalso. apply X, in_app_iff. right. left. reflexivity. }
    intros r E. exists (H ++ u), v. split. { rewrite EM. now rewrite <- app_assoc. }
    split. { injection E as <-. cbn [r_off]. now rewrite zlen_app. }
    intros X. apply Zd, in_app_iff. right. right. exact X.
Qed.

(** A record with three fields only (what Linux 3.5 writes): the text shown is that of an older record
    still in the frame... *)
Theorem C119_stale_refuted : exists mem k mem2 off len,
  let old := bytes_of_string "6,8,41,-;hello; or not so short" ++ [10; 0] in
  let record := bytes_of_string "6,9,42;x" ++ [10] in
  klog_receive 64 (record ++ 0 :: zdrop (zlen record + 1) old) = Ok (mem, Some k) /\
  klog_parse mem (r_off k) = Ok (mem2, Some (off, len)) /\ zsub off len mem2 = bytes_of_string " or not so short" ++ [0].
Proof. do 5 eexists. cbv zeta. split; [vm_compute; reflexivity|]. split; vm_compute; reflexivity. Qed.

(** ... and for a record filling the buffer, bytes after it are read. *)
Theorem C119_overrun_refuted : exists text, let record := bytes_of_string "6,9,42;" ++ text ++ [10] in
  zlen record = 199 /\ klog_receive 64 (record ++ [0]) = Bug Oob /\
  forall f d blk, at_rest f -> klog_receive_entry kmsg 64 blk (KRec record :: d) f = Bug Oob.
Proof.
  exists (zrepeat 65 191). cbv zeta.
  assert (L : zlen (bytes_of_string "6,9,42;" ++ zrepeat 65 191 ++ [10]) = 199) by (vm_compute; reflexivity).
  assert (E : klog_receive 64 ((bytes_of_string "6,9,42;" ++ zrepeat 65 191 ++ [10]) ++ [0]) = Bug Oob) by (vm_compute; reflexivity).
  split; [exact L|]. split; [exact E|]. remember (bytes_of_string "6,9,42;" ++ zrepeat 65 191 ++ [10]) as r eqn:X. clear X.
  intros f d blk R. destruct (read_small f r (KRec r :: d) d R ltac:(lia)) as (f' & E1 & (junk & B & N & D & Sz & Sb)).
  { cbn. now rewrite L. }
  unfold klog_receive_entry. rewrite E1. cbn [bind]. rewrite L. change (199 <=? 0) with false. cbn iota.
  assert (S200 : f_size f' = 200).
  { destruct f' as (da, [| |h], sz); cbn in *.
    - rewrite Sz by reflexivity. apply R.
    - congruence.
    - exfalso. destruct R as (R1 & R2 & R3). unfold klog_read_entry, read_buf in E1. rewrite R3 in E1. change (200 - 1) with 199 in E1. cbn [kmsg] in E1. rewrite L in E1.
      change (199 <? 199) with false in E1. cbn iota in E1. rewrite R2 in E1. specialize (E1 None).
      destruct (mem_write (f_data f) 0 r) as [m1|]; [|discriminate]. cbn [bind f_buf buf_of with_buf f_data f_size] in E1.
      destruct (store m1 (zlen r) 0); discriminate. }
  rewrite B in Sb. rewrite zlen_app, zlen_cons in Sb. rewrite B. destruct junk as [|x junk]; [|rewrite zlen_cons in Sb; pose proof (zlen_nonneg junk); lia].
  rewrite E. reflexivity.
Qed.

Example C119_own_used : exists mem k, klog_receive 64 (bytes_of_string "6,1,5,-;x=1,2" ++ [10] ++ 0 :: [1; 2; 3]) = Ok (mem, Some k) /\ r_off k = 7.
Proof. do 2 eexists. split; vm_compute; reflexivity. Qed.
Example C119_inside_used : exists mem, klog_receive 64 (bytes_of_string ",;,9" ++ 0 :: [59; 0]) = Ok (mem, None).
Proof. eexists. vm_compute. reflexivity. Qed.

Print Assumptions C118_follow.
Print Assumptions C118_terminated.
Print Assumptions C118_nomem.
Print Assumptions C118_long_refuted.
Print Assumptions C119_inside_partial.
Print Assumptions C119_own.
Print Assumptions C119_stale_refuted.
Print Assumptions C119_overrun_refuted.
