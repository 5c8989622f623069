(** Lemmas about the chunked binary writer. *)
From Coq Require Import ZArith String List Bool Lia ZifyBool ZifyNat.
From Verif Require Import Bytes BytesProofs Ring RingSpec BinChunk BinChunkSpec.
Import ListNotations.
Open Scope Z_scope.

Lemma size_t_id : forall v, 0 <= v < 2 ^ 64 -> size_t v = v.
Proof. intros v H. unfold size_t. apply Z.mod_small. exact H. Qed.

Lemma nth_vec_app : forall pre b post, nth_vec (pre ++ b :: post) (zlen pre) = Ok b.
Proof.
  intros pre b post. unfold nth_vec. rewrite zlen_app, zlen_cons. pose proof (zlen_nonneg pre). pose proof (zlen_nonneg post).
  destruct ((0 <=? zlen pre) && (zlen pre <? zlen pre + (1 + zlen post))) eqn:E; [|lia].
  rewrite app_nth2 by (unfold zlen; lia). replace (Z.to_nat (zlen pre) - length pre)%nat with 0%nat by (unfold zlen; lia).
  reflexivity.
Qed.

Lemma push_ok : forall cap v x, zlen v < cap -> push cap v x = Ok (v ++ [x]).
Proof. intros cap v x H. unfold push. replace (zlen v <? cap) with true by lia. reflexivity. Qed.

Definition good_off (off : Z) (l : list (list Z)) : Prop :=
  match l with [] => off = 0 | b :: _ => off = 0 \/ 0 < off < zlen b end.

Lemma zlen_concat_in : forall (l : list (list Z)) b, In b l -> zlen b <= zlen (concat l).
Proof.
  induction l as [|x l IH]; intros b H; [destruct H|]. cbn [concat]. rewrite zlen_app.
  destruct H as [->|H]; [pose proof (zlen_nonneg (concat l)); lia|]. specialize (IH b H). pose proof (zlen_nonneg x). lia.
Qed.

Lemma fill_spec : forall iov, zlen (concat iov) < 2 ^ 64 ->
  forall l pre v off rem fuel cap, iov = pre ++ l -> good_off off l ->
  0 <= rem <= zlen (zdrop off (concat l)) -> zlen v + zlen l <= cap -> (length l <= fuel)%nat ->
  exists ps pre' l' off', iov = pre' ++ l' /\ good_off off' l' /\
    fill fuel cap iov v (zlen pre) off rem = Ok (v ++ ps, zlen pre', off') /\
    concat ps = ztake rem (zdrop off (concat l)) /\ zdrop off' (concat l') = zdrop rem (zdrop off (concat l)).
Proof.
  intros iov Hiov. induction l as [|b l IH]; intros pre v off rem fuel cap E Hg Hr Hc Hf.
  - cbn [good_off] in Hg. subst off. change (zlen (zdrop 0 (concat []))) with 0 in Hr. assert (rem = 0) by lia. subst rem.
    exists [], pre, [], 0. split; [exact E|]. split; [reflexivity|]. split; [|split; reflexivity].
    destruct fuel; cbn [fill]; rewrite app_nil_r; reflexivity.
  - destruct (Z.eq_dec rem 0) as [->|Hr0].
    { exists [], pre, (b :: l), off. split; [exact E|]. split; [exact Hg|]. split; [|split; reflexivity].
      destruct fuel; cbn [fill]; rewrite app_nil_r; reflexivity. }
    destruct fuel as [|fuel]; [cbn in Hf; lia|]. cbn [fill]. replace (rem >? 0) with true by lia.
    assert (Hb : 0 <= off <= zlen b) by (cbn [good_off] in Hg; pose proof (zlen_nonneg b); lia).
    assert (Hb2 : zlen b < 2 ^ 64).
    { assert (zlen b <= zlen (concat iov)); [|lia]. apply zlen_concat_in. rewrite E. apply in_app_iff. right. left. reflexivity. }
    rewrite E. rewrite nth_vec_app. cbn [bind]. rewrite <- E.
    rewrite size_t_id by lia.
    cbn [concat] in *. rewrite zdrop_app in Hr |- * by lia. rewrite zlen_app, zlen_zdrop in Hr.
    rewrite (zdrop_nonpos (off - zlen b)) in Hr |- * by lia. rewrite zlen_cons in Hc. cbn [length] in Hf.
    assert (HL : zlen (zdrop off b) = zlen b - off) by (rewrite zlen_zdrop; lia).
    destruct (Z.ltb_spec (zlen b - off) rem) as [L|L].
    + (* the vector is exhausted *)
      rewrite mem_read_ok by lia. cbn [bind]. pose proof (zlen_nonneg l). rewrite push_ok by lia. cbn [bind].
      replace (off + (zlen b - off) =? zlen b) with true by lia.
      replace (zlen pre + 1) with (zlen (pre ++ [b])) by (rewrite zlen_app; reflexivity).
      destruct (IH (pre ++ [b]) (v ++ [zsub off (zlen b - off) b]) 0 (rem - (zlen b - off)) fuel cap)
        as (ps & pre' & l' & off' & E' & G' & F & C1 & C2).
      * rewrite <- app_assoc. exact E.
      * destruct l; [reflexivity|left; reflexivity].
      * rewrite zdrop_0. lia.
      * rewrite zlen_app. change (zlen [zsub off (zlen b - off) b]) with 1. lia.
      * lia.
      * exists (zsub off (zlen b - off) b :: ps), pre', l', off'. split; [exact E'|]. split; [exact G'|].
        assert (Hz : zsub off (zlen b - off) b = zdrop off b) by (unfold zsub; apply ztake_all; lia).
        split. { rewrite F. rewrite <- app_assoc. reflexivity. }
        rewrite zdrop_0 in C1, C2. split.
        -- cbn [concat]. rewrite C1, Hz, ztake_app, HL. rewrite (ztake_all rem) by lia. reflexivity.
        -- rewrite C2, zdrop_app by lia. rewrite (zdrop_all rem (zdrop off b)) by lia. rewrite HL. reflexivity.
    + (* the chunk is complete *)
      rewrite mem_read_ok by lia. cbn [bind]. pose proof (zlen_nonneg l). rewrite push_ok by lia. cbn [bind].
      assert (HT : ztake rem (zdrop off b ++ concat l) = zsub off rem b).
      { unfold zsub. apply ztake_app_le. lia. }
      assert (HD : zdrop rem (zdrop off b ++ concat l) = zdrop (off + rem) b ++ concat l).
      { rewrite zdrop_app by lia. rewrite (zdrop_nonpos (rem - _)) by lia. rewrite zdrop_zdrop by lia. reflexivity. }
      rewrite HT, HD. replace (rem - rem) with 0 by lia.
      assert (F0 : forall fuel v idx off, fill fuel cap iov v idx off 0 = Ok (v, idx, off)) by (intros [|?]; reflexivity).
      destruct (Z.eqb_spec (off + rem) (zlen b)) as [Eq|Ne].
      * exists [zsub off rem b], (pre ++ [b]), l, 0. split; [rewrite <- app_assoc; exact E|].
        split; [destruct l; [reflexivity|left; reflexivity]|]. rewrite F0. split.
        -- rewrite zlen_app. reflexivity.
        -- split; [cbn [concat]; apply app_nil_r|]. rewrite zdrop_0. rewrite (zdrop_all (off + rem) b) by lia. reflexivity.
      * exists [zsub off rem b], pre, (b :: l), (off + rem). split; [exact E|]. split; [right; lia|]. rewrite F0.
        split; [reflexivity|]. split; [cbn [concat]; apply app_nil_r|]. cbn [concat].
        rewrite zdrop_app by lia. rewrite (zdrop_nonpos (off + rem - zlen b)) by lia. reflexivity.
Qed.

(** The sequence [all] of vectors carries the pieces [ps], numbered from [i]. *)
Inductive carries (hdr : list Z) : Z -> list (list (list Z)) -> list (list Z) -> Prop :=
  | carries_nil : forall i, carries hdr i [] []
  | carries_cons : forall i v all p ps, concat v = hdr ++ [i] ++ p -> carries hdr ((i + 1) mod 256) all ps ->
      carries hdr i (v :: all) (p :: ps).

(** What the loop does with the full sequence [all], for every result function. *)
Definition stops_at_failure (all : list (list (list Z)))
  (f : (nat -> Z) -> nat -> list (list (list Z)) -> M (list (list (list Z)) * Z)) : Prop :=
  forall res k done,
    ((forall j, (j < length all)%nat -> 0 <= res (k + j)%nat) -> f res k done = Ok (done ++ all, 0)) /\
    (forall j, (j < length all)%nat -> (forall i, (i < j)%nat -> 0 <= res (k + i)%nat) -> res (k + j)%nat < 0 ->
       f res k done = Ok (done ++ firstn (S j) all, res (k + j)%nat)).

Lemma chunks_spec : forall hdr iov mx, zlen (concat iov) < 2 ^ 64 -> 0 < mx ->
  forall fuel pre l off ci, iov = pre ++ l -> good_off off l -> 0 <= ci < 256 ->
  let data := zdrop off (concat l) in (Z.to_nat (zlen data) <= fuel)%nat ->
  exists all ps, stops_at_failure all (fun res k done => chunks fuel res k hdr iov mx ci (zlen pre) off (zlen data) done) /\
    carries hdr ci all ps /\ concat ps = data /\ Forall (fun p => 0 < zlen p <= mx) ps /\
    Forall (fun p => zlen p = mx) (removelast ps).
Proof.
  intros hdr iov mx Hiov Hmx. induction fuel as [|fuel IH]; intros pre l off ci E Hg Hci data Hf.
  - exists [], []. assert (Hd : zlen data = 0) by (pose proof (zlen_nonneg data); lia). split.
    + intros res k done. rewrite Hd. split; [intros _; cbn; rewrite app_nil_r; reflexivity|intros j Hj; cbn in Hj; lia].
    + split; [constructor|]. split; [symmetry; apply zlen_zero_nil; exact Hd|]. split; constructor.
  - pose proof (zlen_nonneg data) as Hd0. destruct (Z.eq_dec (zlen data) 0) as [Hd|Hd].
    { exists [], []. split.
      + intros res k done. rewrite Hd. split; [intros _; cbn; rewrite app_nil_r; reflexivity|intros j Hj; cbn in Hj; lia].
      + split; [constructor|]. split; [symmetry; apply zlen_zero_nil; exact Hd|]. split; constructor. }
    set (n := if zlen data <? mx then zlen data else mx).
    assert (Hn : 0 < n <= zlen data /\ n <= mx) by (unfold n; destruct (Z.ltb_spec (zlen data) mx); lia).
    set (v0 := if zlen hdr >? 0 then [hdr] else []).
    assert (Hv0 : concat v0 = hdr /\ zlen v0 <= 1).
    { unfold v0. destruct (zlen hdr >? 0) eqn:Eh; [cbn; rewrite app_nil_r; split; [reflexivity|unfold zlen; cbn; lia]|].
      assert (hdr = []) as -> by (apply zlen_zero_nil; pose proof (zlen_nonneg hdr); lia). split; [reflexivity|unfold zlen; cbn; lia]. }
    destruct Hv0 as (Hv0 & Hv1).
    assert (HL : zlen l <= zlen iov) by (rewrite E, zlen_app; pose proof (zlen_nonneg pre); lia).
    destruct (fill_spec iov Hiov l pre (v0 ++ [[ci]]) off n (S (length iov)) (zlen iov + 2) E Hg)
      as (vs & pre' & l' & off' & E' & G' & F & C1 & C2).
    + fold data. lia.
    + rewrite zlen_app. change (zlen [[ci]]) with 1. lia.
    + unfold zlen in HL. lia.
    + fold data in C1, C2.
      assert (Hd' : zlen (zdrop off' (concat l')) = zlen data - n) by (rewrite C2, zlen_zdrop; lia).
      assert (Hsz : zlen data < 2 ^ 64).
      { unfold data. rewrite zlen_zdrop. assert (zlen (concat l) <= zlen (concat iov)).
        { rewrite E, concat_app, zlen_app. pose proof (zlen_nonneg (concat pre)). lia. }
        pose proof (zlen_nonneg (concat l)). lia. }
      destruct (IH pre' l' off' ((ci + 1) mod 256) E' G' (Z.mod_pos_bound _ 256 ltac:(lia))) as (all & ps & St & Ca & Co & Fo & Re).
      { rewrite Hd'. lia. }
      set (v := v0 ++ [[ci]] ++ vs).
      exists (v :: all), (ztake n data :: ps).
      assert (Step : forall res k done,
        chunks (S fuel) res k hdr iov mx ci (zlen pre) off (zlen data) done =
        if res k <? 0 then Ok (done ++ [v], res k)
        else chunks fuel res (S k) hdr iov mx ((ci + 1) mod 256) (zlen pre') off' (zlen (zdrop off' (concat l'))) (done ++ [v])).
      { intros res k done. cbn [chunks]. replace (zlen data >? 0) with true by lia. fold n.
        assert (P0 : (if zlen hdr >? 0 then push (zlen iov + 2) [] hdr else Ok []) = Ok v0).
        { unfold v0. destruct (zlen hdr >? 0); [|reflexivity]. rewrite push_ok; [reflexivity|].
          change (zlen (@nil (list Z))) with 0. pose proof (zlen_nonneg iov). lia. }
        rewrite P0. cbn [bind]. rewrite push_ok by (pose proof (zlen_nonneg iov); lia). cbn [bind].
        rewrite F. cbn [bind]. rewrite <- app_assoc. fold v. unfold u8. rewrite Hd'. rewrite size_t_id by lia. reflexivity. }
      split; [|split; [|split; [|split]]].
      * intros res k done. specialize (St res (S k) (done ++ [v])). destruct St as (S1 & S2). split.
        -- intros H. rewrite Step. pose proof (H 0%nat ltac:(cbn; lia)) as H0. rewrite Nat.add_0_r in H0.
           replace (res k <? 0) with false by lia. rewrite S1; [rewrite <- app_assoc; reflexivity|].
           intros j Hj. replace (S k + j)%nat with (k + S j)%nat by lia. apply H. cbn. lia.
        -- intros j Hj Hi Hres. rewrite Step. destruct j as [|j].
           ++ rewrite Nat.add_0_r in *. replace (res k <? 0) with true by lia. reflexivity.
           ++ pose proof (Hi 0%nat ltac:(lia)) as H0. rewrite Nat.add_0_r in H0. replace (res k <? 0) with false by lia.
              replace (k + S j)%nat with (S k + j)%nat in * by lia.
              rewrite (S2 j); [cbn [firstn]; rewrite <- app_assoc; reflexivity|cbn in Hj; lia| |exact Hres].
              intros i Hi'. replace (S k + i)%nat with (k + S i)%nat by lia. apply Hi. lia.
      * constructor; [|exact Ca]. unfold v. rewrite !concat_app. rewrite Hv0, C1. reflexivity.
      * cbn [concat]. rewrite Co, C2. apply ztake_zdrop.
      * constructor; [|exact Fo]. rewrite zlen_ztake. lia.
      * destruct ps as [|p ps]; [constructor|]. cbn [removelast]. constructor; [|exact Re].
        rewrite zlen_ztake. pose proof (Forall_inv Fo) as Fo1. cbn beta in Fo1. cbn [concat] in Co. apply (f_equal zlen) in Co. rewrite zlen_app, Hd' in Co.
        pose proof (zlen_nonneg (concat ps)). unfold n in *. destruct (Z.ltb_spec (zlen data) mx); lia.
Qed.

Lemma total_size_eq : forall iov, zlen (concat iov) < 2 ^ 64 -> total_size iov = zlen (concat iov).
Proof.
  intros iov. unfold total_size.
  assert (G : forall t, 0 <= t -> t + zlen (concat iov) < 2 ^ 64 ->
    fold_left (fun t b => size_t (t + zlen b)) iov t = t + zlen (concat iov)).
  { induction iov as [|b iov IH]; intros t Ht H; cbn [fold_left concat] in *.
    - change (zlen (@nil Z)) with 0. lia.
    - rewrite zlen_app in *. pose proof (zlen_nonneg b). pose proof (zlen_nonneg (concat iov)).
      rewrite size_t_id by lia. rewrite IH by lia. lia. }
  intros H. rewrite G by lia. lia.
Qed.

Lemma max_chunk : forall tagsize hdrlen, 0 <= tagsize -> 0 <= hdrlen -> tagsize + hdrlen + 37 < 2 ^ 64 ->
  compute_max_chunk_len tagsize hdrlen = Z.max 0 (4076 - (37 + tagsize + hdrlen)).
Proof.
  intros tagsize hdrlen H1 H2 H3. unfold compute_max_chunk_len, ENTRY_MAX_PAYLOAD. rewrite size_t_id by lia.
  destruct (Z.ltb_spec (2 * 16 + 4 + tagsize + hdrlen + 1) 4076); lia.
Qed.

(** All the outcomes of a call: everything written, or stopped at the first failing write. *)
Definition outcomes (all : list (list (list Z))) (f : (nat -> Z) -> M (list (list (list Z)) * Z)) : Prop :=
  forall res,
    (f res = Ok (all, 0) /\ forall j, (j < length all)%nat -> 0 <= res j) \/
    (exists j, (j < length all)%nat /\ (forall i, (i < j)%nat -> 0 <= res i) /\ res j < 0 /\
               f res = Ok (firstn (S j) all, res j)).

Lemma first_negative : forall (res : nat -> Z) n,
  (forall j, (j < n)%nat -> 0 <= res j) \/
  exists j, (j < n)%nat /\ (forall i, (i < j)%nat -> 0 <= res i) /\ res j < 0.
Proof.
  intros res. induction n as [|n IH]; [left; intros; lia|].
  destruct IH as [IH|(j & J1 & J2 & J3)]; [|right; exists j; repeat split; [lia|assumption|assumption]].
  destruct (Z.ltb_spec (res n) 0) as [L|L]; [right; exists n; repeat split; [lia|assumption|assumption]|].
  left. intros j Hj. destruct (Nat.eq_dec j n) as [->|]; [exact L|apply IH; lia].
Qed.

Lemma writev_chunk_spec : forall tagsize hdr iov, 0 <= tagsize ->
  zlen (concat iov) < 2 ^ 64 -> 37 + tagsize + zlen hdr < 4076 ->
  exists all ps, outcomes all (fun res => ulog_bin_writev_chunk res tagsize hdr iov) /\
    carries hdr 0 all ps /\ concat ps = concat iov /\
    Forall (fun p => 0 < zlen p <= 4076 - (37 + tagsize + zlen hdr)) ps /\
    Forall (fun p => zlen p = 4076 - (37 + tagsize + zlen hdr)) (removelast ps).
Proof.
  intros tagsize hdr iov H1 H3 H4. set (mx := 4076 - (37 + tagsize + zlen hdr)).
  destruct (chunks_spec hdr iov mx H3 ltac:(unfold mx; lia) (Z.to_nat (zlen (concat iov))) [] iov 0 0)
    as (all & ps & St & R).
  - reflexivity.
  - destruct iov; [reflexivity|left; reflexivity].
  - lia.
  - rewrite zdrop_0. lia.
  - exists all, ps. rewrite zdrop_0 in *. split; [|exact R].
    intros res. destruct (St res 0%nat []) as (T1 & T2).
    unfold ulog_bin_writev_chunk. rewrite total_size_eq by exact H3. rewrite max_chunk by (pose proof (zlen_nonneg hdr); lia).
    replace (Z.max 0 (4076 - (37 + tagsize + zlen hdr))) with mx by (unfold mx; lia).
    replace (mx <=? 0) with false by (unfold mx; lia). change (zlen (@nil (list Z))) with 0 in *.
    destruct (first_negative res (length all)) as [H|(j & J1 & J2 & J3)].
    + left. split; [apply T1; exact H|exact H].
    + right. exists j. repeat split; try assumption. apply (T2 j J1 J2 J3).
Qed.

Lemma refused : forall res tagsize hdr iov, 0 <= tagsize -> 37 + tagsize + zlen hdr < 2 ^ 64 -> 4076 <= 37 + tagsize + zlen hdr ->
  ulog_bin_writev_chunk res tagsize hdr iov = Ok ([], - EINVAL).
Proof.
  intros res tagsize hdr iov H1 H2 H3. unfold ulog_bin_writev_chunk.
  rewrite max_chunk by (pose proof (zlen_nonneg hdr); lia).
  replace (Z.max 0 (4076 - (37 + tagsize + zlen hdr)) <=? 0) with true by lia. reflexivity.
Qed.

Lemma carries_numbered : forall hdr all ps k, carries hdr (Z.of_nat k mod 256) all ps ->
  map (@concat Z) all = numbered hdr k ps.
Proof.
  intros hdr all. induction all as [|v all IH]; intros ps k H; inversion H; subst; cbn [map numbered]; [reflexivity|].
  f_equal; [assumption|]. apply IH. rewrite Zplus_mod_idemp_l in *. rewrite Nat2Z.inj_succ. unfold Z.succ. assumption.
Qed.

Lemma numbered_strip : forall hdr ps k, map (zdrop (zlen hdr + 1)) (numbered hdr k ps) = ps.
Proof.
  intros hdr ps. induction ps as [|p ps IH]; intros k; cbn [numbered map]; [reflexivity|]. rewrite IH. f_equal.
  rewrite app_assoc. apply zdrop_app_exact. rewrite zlen_app. reflexivity.
Qed.

Lemma numbered_len : forall hdr ps k mx, Forall (fun p => 0 < zlen p <= mx) ps ->
  Forall (fun b => zlen b <= zlen hdr + 1 + mx) (numbered hdr k ps).
Proof.
  intros hdr ps. induction ps as [|p ps IH]; intros k mx H; cbn [numbered]; [constructor|]. inversion H; subst.
  constructor; [|apply IH; assumption]. rewrite !zlen_app. change (zlen [Z.of_nat k mod 256]) with 1. lia.
Qed.

Lemma names_short : forall t, zlen (comm_str (t_pcomm t)) <= 15 -> zlen (comm_str (t_tcomm t)) <= 15 -> zlen (names t) <= 32.
Proof.
  intros t H1 H2. unfold names. destruct (t_tgid t =? t_pid t); rewrite !zlen_app; change (zlen [0]) with 1; [change (zlen (@nil Z)) with 0|]; lia.
Qed.

Lemma chunk_len : forall res tagsize hdr iov vs r, 0 <= tagsize -> 37 + tagsize + zlen hdr < 2 ^ 64 -> zlen (concat iov) < 2 ^ 64 ->
  ulog_bin_writev_chunk res tagsize hdr iov = Ok (vs, r) -> Forall (fun v => 36 + tagsize + zlen (concat v) <= 4076) vs.
Proof.
  intros res tagsize hdr iov vs r H1 H2 H3 E. destruct (Z.leb_spec 4076 (37 + tagsize + zlen hdr)) as [L|L].
  - rewrite refused in E by lia. assert (vs = []) as -> by congruence. constructor.
  - destruct (writev_chunk_spec tagsize hdr iov H1 H3 L) as (all & ps & O & Ca & _ & Fo & _).
    assert (Hall : Forall (fun v => 36 + tagsize + zlen (concat v) <= 4076) all).
    { apply carries_numbered with (k := 0%nat) in Ca. apply (numbered_len hdr ps 0) in Fo. rewrite <- Ca in Fo.
      rewrite Forall_map in Fo. eapply Forall_impl; [|exact Fo]. cbn beta. intros v Hv. lia. }
    destruct (O res) as [(E' & _)|(j & _ & _ & _ & E')]; rewrite E' in E.
    + assert (vs = all) as -> by congruence. exact Hall.
    + assert (vs = firstn (S j) all) as -> by congruence.
      rewrite Forall_forall in *. intros v Hv. apply Hall.
      rewrite <- (firstn_skipn (S j) all). apply in_app_iff. left. exact Hv.
Qed.

(** Cutting data into pieces of one size is unique. *)
Lemma cut_unique : forall mx ps qs, Forall (fun p : list Z => 0 < zlen p <= mx) ps -> Forall (fun p => zlen p = mx) (removelast ps) ->
  Forall (fun p : list Z => 0 < zlen p <= mx) qs -> Forall (fun p => zlen p = mx) (removelast qs) -> concat ps = concat qs -> ps = qs.
Proof.
  intros mx ps. induction ps as [|p ps IH]; intros qs P1 P2 Q1 Q2 E; destruct qs as [|r qs].
  - reflexivity.
  - exfalso. inversion Q1; subst. cbn in E. symmetry in E. apply app_eq_nil in E. destruct E as [-> _]. change (zlen (@nil Z)) with 0 in *. lia.
  - exfalso. inversion P1; subst. cbn in E. apply app_eq_nil in E. destruct E as [-> _]. change (zlen (@nil Z)) with 0 in *. lia.
  - inversion P1 as [|? ? Lp P1']; inversion Q1 as [|? ? Lr Q1']; subst. cbn [concat] in E.
    assert (Z1 : forall x, Forall (fun p : list Z => 0 < zlen p <= mx) x -> concat x = [] -> x = []).
    { intros [|y x] F X; [reflexivity|]. inversion F; subst. cbn in X. apply app_eq_nil in X. destruct X as [-> _]. change (zlen (@nil Z)) with 0 in *. lia. }
    assert (R : zlen p = zlen r).
    { pose proof (zlen_nonneg (concat ps)). pose proof (zlen_nonneg (concat qs)). assert (EL := f_equal zlen E). rewrite !zlen_app in EL.
      destruct ps as [|p1 ps]; destruct qs as [|r1 qs].
      - cbn [concat] in EL. change (zlen (@nil Z)) with 0 in EL. lia.
      - change (removelast (r :: r1 :: qs)) with (r :: removelast (r1 :: qs)) in Q2. inversion Q2; subst. inversion Q1'; subst. cbn [concat] in EL. rewrite zlen_app in EL. pose proof (zlen_nonneg (concat qs)). change (zlen (@nil Z)) with 0 in EL. lia.
      - change (removelast (p :: p1 :: ps)) with (p :: removelast (p1 :: ps)) in P2. inversion P2; subst. inversion P1'; subst. cbn [concat] in EL. rewrite zlen_app in EL. pose proof (zlen_nonneg (concat ps)). change (zlen (@nil Z)) with 0 in EL. lia.
      - change (removelast (r :: r1 :: qs)) with (r :: removelast (r1 :: qs)) in Q2. inversion Q2; subst.
        change (removelast (p :: p1 :: ps)) with (p :: removelast (p1 :: ps)) in P2. inversion P2; subst. congruence. }
    assert (p = r /\ concat ps = concat qs) as [-> E'].
    { assert (A : ztake (zlen p) (p ++ concat ps) = p) by (apply ztake_app_exact; reflexivity).
      assert (B : zdrop (zlen p) (p ++ concat ps) = concat ps) by (apply zdrop_app_exact; reflexivity).
      rewrite E, R in A, B. rewrite ztake_app_exact in A by reflexivity. rewrite zdrop_app_exact in B by reflexivity. auto. }
    f_equal. apply IH; try assumption; [destruct ps|destruct qs]; try constructor.
    + change (removelast (r :: l :: ps)) with (r :: removelast (l :: ps)) in P2. inversion P2; assumption.
    + change (removelast (r :: l :: qs)) with (r :: removelast (l :: qs)) in Q2. inversion Q2; assumption.
Qed.
