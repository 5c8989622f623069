(** Lemmas for C108: once the other processes are silent, the reader runs out of work. *)
From Coq Require Import ZArith String List Bool Lia ZifyBool ZifyNat Arith.
From Verif Require Import Bytes BytesProofs Cat CatSpec CatProofs LiveText FollowSpec FollowProofs.
Import ListNotations.
Open Scope Z_scope.

(** ** Queue lengths *)
Lemma tail_drop_len n fuel : forall c c', inv n c -> tail_drop fuel c = Ok c' -> inv n c' /\ c_pending c' <= c_pending c /\ c_mark c' = c_mark c.
Proof.
  induction fuel as [|k IH]; intros c c' I; cbn [tail_drop].
  - destruct (c_tail c <? _); [discriminate|]. intros [= <-]. split; [exact I|]. split; [lia|reflexivity].
  - destruct (c_tail c <? _); [|intros [= <-]; split; [exact I|]; split; [lia|reflexivity]].
    destruct (Z.ltb_spec 0 (c_render c)).
    + destruct (flush_render_inv n c true I) as (c1 & -> & I1 & _ & P & _ & M). cbn [bind]. intros E.
      destruct (IH _ _ I1 E) as (I' & L & M'). split; [exact I'|]. split; [lia|congruence].
    + destruct (Z.ltb_spec 0 (c_pending c)).
      * destruct (flush_pending_inv n c true I) as (c1 & -> & I1 & P & _ & _ & M). cbn [bind]. intros E.
        destruct (IH _ _ I1 E) as (I' & L & M'). split; [exact I'|]. split; [lia|congruence].
      * cbn [bind]. intros E. apply (IH _ _ I E).
Qed.
Lemma render_queue_len n fuel : forall c c', inv n c -> flush_render_queue fuel c = Ok c' -> inv n c' /\ c_pending c' = c_pending c /\ c_mark c' = c_mark c.
Proof.
  induction fuel as [|k IH]; intros c c' I; cbn [flush_render_queue].
  - destruct (0 <? _); [discriminate|]. intros [= <-]. auto.
  - destruct (0 <? _); [|intros [= <-]; auto].
    destruct (flush_render_inv n c false I) as (c1 & -> & I1 & _ & P & _ & M). cbn [bind]. intros E.
    destruct (IH _ _ I1 E) as (I' & L & M'). split; [exact I'|]. split; congruence.
Qed.
Lemma tail_flush_len n c c' : inv n c -> process_tail_flush c = Ok c' -> c_pending c' <= c_pending c /\ c_mark c' = c_mark c.
Proof.
  intros I. unfold process_tail_flush. destruct (_ || _); [intros [= <-]; split; [lia|reflexivity]|].
  destruct (tail_drop _ c) as [c1|] eqn:E1; cbn [bind]; [|discriminate]. destruct (tail_drop_len _ _ _ _ I E1) as (I1 & L1 & M1).
  destruct (flush_render_queue _ c1) as [c2|] eqn:E2; cbn [bind]; [|discriminate]. destruct (render_queue_len _ _ _ _ I1 E2) as (I2 & L2 & M2).
  intros [= <-]. cbn. split; [lia|congruence].
Qed.
Lemma pull_oldest_len c : c_pending (pull_oldest c) = c_pending c - (if find_oldest c then 1 else 0).
Proof.
  unfold pull_oldest. destruct (find_oldest c) as [f|]; [|lia]. cbv zeta.
  match goal with |- context [if 0 <? c_tail ?x then _ else _] => set (c3 := x) end.
  assert (E : c_pending c3 = c_pending c - 1) by reflexivity.
  destruct (0 <? c_tail c3).
  - unfold enqueue_render. destruct (_ <? _); [exact E|]. destruct (c_rq c3 ++ [f]); exact E.
  - destruct (flush_frame_same c3 f) as (_ & P & _). change (c_pending (free_frame (flush_frame c3 f) f)) with (c_pending (flush_frame c3 f)). now rewrite P.
Qed.
Lemma pull_len n c c' : inv n c -> pull c = Ok c' -> zlen (c_pq c') <= zlen (c_pq c) /\ (c_pq c <> [] -> zlen (c_pq c') < zlen (c_pq c)).
Proof.
  intros I E. destruct (pull_inv n c I) as (c1 & E1 & I1). assert (c1 = c') as -> by congruence.
  rewrite <- (iv_pend _ _ I1), <- (iv_pend _ _ I).
  destruct (tail_flush_len n _ _ (update_mark_inv n _ (pull_oldest_inv n _ I)) E) as (L & _).
  assert (U : c_pending (update_mark_reached (pull_oldest c)) = c_pending (pull_oldest c)) by (unfold update_mark_reached; destruct (_ || _); reflexivity).
  rewrite U, pull_oldest_len in L. destruct (find_oldest c) eqn:F.
  - split; intros; lia.
  - split; [lia|]. intros X. destruct (X (find_oldest_none _ F)).
Qed.
Lemma pull_idle n c c' : inv n c -> c_pq c = [] -> (forall d, In d (c_devs c) -> d_mark d <= 0) -> pull c = Ok c' -> c_mark c' = true.
Proof.
  intros I Q M E.
  destruct (tail_flush_len n _ _ (update_mark_inv n _ (pull_oldest_inv n _ I)) E) as (_ & ->).
  unfold pull_oldest, find_oldest. rewrite Q. cbn [oldest_from]. unfold update_mark_reached. destruct (c_mark c) eqn:Mc; [exact Mc|].
  replace (existsb (fun d => 0 <? d_mark d) (c_devs c)) with false; [reflexivity|].
  symmetry. apply not_true_iff_false. intros X. apply existsb_exists in X. destruct X as (d & Hd & Hm). specialize (M d Hd). lia.
Qed.

(** ** A round without input *)
Lemma quiet_read {W} (en : env W) fds rev w : forall k i c fr, (forall j, (i <= j < i + k)%nat -> nth j rev false = false) ->
  exists c', read_devices en k i fds rev w c fr = (w, c', inr fr) /\ c_pq c' = c_pq c /\ length (c_devs c') = length (c_devs c) /\
    (forall j, (i <= j < i + k)%nat -> nth j fds false = true -> d_mark (get_dev c' j) <= 0) /\
    (forall j, (j < i)%nat -> get_dev c' j = get_dev c j).
Proof.
  induction k as [|k IH]; intros i c fr Hr; cbn [read_devices].
  - exists c. repeat split; auto. intros j Hj. lia.
  - rewrite (Hr i) by lia. cbn [negb]. set (c1 := if nth i fds false && _ then _ else c).
    assert (L1 : length (c_devs c1) = length (c_devs c)) by (unfold c1; destruct (_ && _); [cbn; apply set_nth_length|reflexivity]).
    destruct (IH (S i) c1 fr) as (c' & E & Q & L & M & O); [intros j Hj; apply Hr; lia|].
    exists c'. split; [exact E|]. split; [rewrite Q; unfold c1; destruct (_ && _); reflexivity|]. split; [congruence|]. split.
    + intros j Hj Hf. destruct (Nat.eq_dec j i) as [->|Hne]; [|apply M; [lia|exact Hf]].
      rewrite (O i) by lia. unfold c1. rewrite Hf. cbn [andb]. destruct (Z.ltb_spec 0 (d_mark (get_dev c i))); [|lia].
      rewrite nth_set_dev. rewrite Nat.eqb_refl. cbn [andb]. destruct (Nat.ltb_spec i (length (c_devs c))); cbn; [lia|].
      unfold get_dev. rewrite nth_overflow by lia. cbn. lia.
    + intros j Hj. rewrite (O j) by lia. unfold c1. destruct (_ && _); [|reflexivity].
      rewrite nth_set_dev. destruct (Nat.eqb_spec j i); [lia|]. reflexivity.
Qed.

(** ** Sums *)
Definition sum (n : nat) (f : nat -> nat) : nat := list_sum (map f (seq 0 n)).
Lemma sum_S n f : sum (S n) f = (sum n f + f n)%nat.
Proof. unfold sum. rewrite seq_S, map_app, list_sum_app. cbn. lia. Qed.
Lemma sum_ext n f f' : (forall j, (j < n)%nat -> f' j = f j) -> sum n f' = sum n f.
Proof. induction n as [|n IH]; intros H; [reflexivity|]. rewrite !sum_S, IH, H; auto. Qed.
Lemma sum_less n f f' i : (i < n)%nat -> (f' i < f i)%nat -> (forall j, j <> i -> f' j = f j) -> (sum n f' < sum n f)%nat.
Proof.
  induction n as [|n IH]; intros Hi Hf Ho; [lia|]. rewrite !sum_S. destruct (Nat.eq_dec i n) as [->|Hne].
  - rewrite (sum_ext n f f'); [lia|]. intros j Hj. apply Ho. lia.
  - rewrite (Ho n) by congruence. specialize (IH ltac:(lia) Hf Ho). lia.
Qed.
Lemma sum_zero n f : (forall j, (j < n)%nat -> f j = O) -> sum n f = O.
Proof. induction n as [|n IH]; intros H; [reflexivity|]. rewrite sum_S, IH, H; auto. Qed.
Lemma sum_le n f j : (j < n)%nat -> (f j <= sum n f)%nat.
Proof. induction n as [|n IH]; intros H; [lia|]. rewrite sum_S. destruct (Nat.eq_dec j n) as [->|]; [lia|]. specialize (IH ltac:(lia)). lia. Qed.

Section Settle.
Context {W : Type}.
Variables (en : env W) (N n : nat) (P : W -> (nat -> nat) -> Prop) (rank : W -> nat).
Hypothesis sane : poll_sane en.
Hypothesis poll_live : forall w f fds, P w f -> exists w' rev f', e_poll en w fds = (w', inr rev) /\ P w' f' /\
  ((rank w' < rank w)%nat \/
   (rank w' = rank w /\ (forall j, f' j = f j) /\ (In true fds -> rank w = O /\
      forall j, (j < n)%nat -> nth j rev false = nth j fds false && negb (Nat.eqb (f j) 0)))).
Hypothesis recv_live : forall w f i, P w f -> (i < n)%nat -> exists w' x f', e_recv en w i = (w', x) /\ x <> RxFail /\ P w' f' /\
  (rank w' <= rank w)%nat /\ (rank w = O -> (0 < f i)%nat -> (f' i < f i)%nat /\ forall j, j <> i -> f' j = f j).

Definition work (f : nat -> nat) (c : ctx) : nat := (2 * sum n f + length (c_pq c))%nat.

Lemma rank_read fds rev : forall k i w c fr f, (i + k <= n)%nat -> P w f ->
  let r := read_devices en k i fds rev w c fr in exists f', P (fst (fst r)) f' /\ (rank (fst (fst r)) <= rank w)%nat.
Proof.
  induction k as [|k IH]; intros i w c fr f Hk HP; cbn [read_devices]; cbv zeta; [exists f; auto|].
  destruct (negb _); [apply (IH (S i) w _ fr f); auto; lia|].
  destruct (alloc_frame c) as [[fr0 c1]|]; [|apply (IH (S i) w _ fr f); auto; lia].
  destruct (recv_live w f i HP ltac:(lia)) as (w1 & x & f1 & E & Hx & HP1 & Rk & Dec). rewrite E.
  destruct x as [ | dec | st da dec ok]; [contradiction|exists f1; auto|].
  match goal with |- context [read_devices en k (S i) fds rev w1 ?b ?z] => destruct (IH (S i) w1 b z f1 ltac:(lia) HP1) as (f' & H1 & H2) end.
  exists f'. split; [exact H1|]. lia.
Qed.
Lemma live_read fds rev : forall k i w c fr f, inv N c -> (i + k <= n)%nat -> length (c_devs c) = n -> P w f -> rank w = O ->
  (forall j, (i <= j)%nat -> nth j rev false = true -> d_pending (get_dev c j) = false) ->
  (forall j, (i <= j < i + k)%nat -> nth j rev false = true -> (0 < f j)%nat) ->
  let r := read_devices en k i fds rev w c fr in
  exists f', P (fst (fst r)) f' /\ rank (fst (fst r)) = O /\ (work f' (snd (fst r)) <= work f c)%nat /\
       ((exists j, (i <= j < i + k)%nat /\ nth j rev false = true) -> (work f' (snd (fst r)) < work f c)%nat).
Proof.
  induction k as [|k IH]; intros i w c fr f I Hk Hn HP R0 Hpd Hw; cbn [read_devices]; cbv zeta.
  { exists f. split; [exact HP|]. split; [exact R0|]. split; [apply le_n|]. intros (j & Hj & _). lia. }
  destruct (nth i rev false) eqn:Er; cbn [negb].
  - pose proof (read_devices_inv en N fds rev 1 i w c fr I) as I1. cbn [read_devices] in I1. rewrite Er in I1. cbn [negb] in I1.
    specialize (I1 ltac:(lia) Hpd).
    unfold alloc_frame in *. destruct (c_free c) as [|fr0 rfree] eqn:Ef; [destruct (inv_alloc _ _ I Ef)|].
    destruct (recv_live w f i HP ltac:(lia)) as (w1 & x & f1 & E & Hx & HP1 & Rk & Dec). rewrite E in *.
    destruct (Dec R0 (Hw i ltac:(lia) Er)) as (D1 & D2). pose proof (sum_less n f f1 i ltac:(lia) D1 D2) as SL.
    destruct x as [ | dec | st da dec ok]; [contradiction| |].
    + cbn [fst snd]. exists f1. split; [exact HP1|]. split; [lia|]. unfold work. cbn. split; [|intros _]; lia.
    + cbn [fst snd] in I1.
      match goal with |- context [read_devices en k (S i) fds rev w1 ?b ?z] => set (c1 := b) in *; specialize (IH (S i) w1 c1 z f1 I1) end.
      cbv zeta in IH. destruct IH as (f' & HP' & Rk' & Wk & _).
      * lia.
      * unfold c1. cbn. rewrite set_nth_length. exact Hn.
      * exact HP1.
      * lia.
      * intros j Hj Hr. unfold c1, get_dev. cbn. rewrite nth_set_nth. destruct (Nat.eqb_spec j i); [lia|]. cbn. apply Hpd; auto. lia.
      * intros j Hj Hr. rewrite D2 by lia. apply Hw; auto. lia.
      * exists f'. split; [exact HP'|]. split; [exact Rk'|].
        assert (Ew : work f1 c1 = (2 * sum n f1 + length (c_pq c) + 1)%nat) by (unfold work, c1; cbn; rewrite app_length; cbn; lia).
        unfold work in *. split; [|intros _]; lia.
  - set (c1 := if nth i fds false && _ then _ else c).
    destruct (IH (S i) w c1 fr f) as (f' & HP' & Rk' & W1 & W2).
    + unfold c1. destruct (_ && _); auto. apply set_dev_inv; auto.
    + lia.
    + unfold c1. destruct (_ && _); [cbn; rewrite set_nth_length|]; exact Hn.
    + exact HP.
    + exact R0.
    + intros j Hj Hr. unfold c1. destruct (_ && _); [|apply Hpd; auto; lia].
      rewrite nth_set_dev. destruct (Nat.eqb_spec j i); [lia|]. cbn. apply Hpd; auto; lia.
    + intros j Hj Hr. apply Hw; auto. lia.
    + exists f'. split; [exact HP'|]. split; [exact Rk'|].
      assert (Ew : work f c1 = work f c) by (unfold work, c1; destruct (_ && _); reflexivity).
      rewrite Ew in *. split; [exact W1|]. intros (j & Hj & Hr). apply W2. exists j. split; [|exact Hr].
      destruct (Nat.eq_dec j i) as [->|]; [congruence|lia].
Qed.

(** Nothing is left to do. *)
Definition idle (w : W) (f : nat -> nat) (c : ctx) : Prop := rank w = O /\ work f c = O /\ c_mark c = true.

Lemma in_fds j (l : list bool) : nth j l false = true -> In true l.
Proof. intros H. rewrite <- H. apply nth_In. destruct (Nat.lt_ge_cases j (length l)); [assumption|]. rewrite nth_overflow in H by assumption. discriminate. Qed.
Lemma fds_nth c j : (j < length (c_devs c))%nat -> nth j (map (fun d => negb (d_pending d)) (c_devs c)) false = negb (d_pending (get_dev c j)).
Proof.
  intros H. rewrite (nth_indep _ _ (negb (d_pending dflt))) by now rewrite map_length.
  apply (map_nth (fun d => negb (d_pending d)) (c_devs c) dflt j).
Qed.

Lemma live_round w f c w' c' r : (0 < n)%nat -> inv N c -> length (c_devs c) = n -> P w f -> process_devices en w c = Ok (w', c', r) ->
  exists f', P w' f' /\ ((rank w' < rank w)%nat \/ (rank w' = rank w /\ (work f' c' < work f c)%nat) \/ (work f c = O /\ idle w' f' c')).
Proof.
  intros Hn0 I Hn HP. unfold process_devices. set (fds := map (fun d => negb (d_pending d)) (c_devs c)).
  destruct (poll_live w f fds HP) as (w1 & rev & f1 & Ep & HP1 & HR). rewrite Ep. pose proof (sane _ _ _ _ Ep) as Hs.
  assert (Rd : forall w2 c2 x, read_devices en (length (c_devs c)) 0 fds rev w1 c 0 = (w2, c2, x) ->
             exists f2, P w2 f2 /\ (rank w2 <= rank w1)%nat).
  { intros w2 c2 x E2. destruct (rank_read fds rev (length (c_devs c)) 0 w1 c 0 f1 ltac:(lia) HP1) as (f2 & H1 & H2). rewrite E2 in *. eauto. }
  destruct HR as [HR|(R1 & F1 & HA)].
  { destruct (read_devices en (length (c_devs c)) 0 fds rev w1 c 0) as [[w2 c2] x] eqn:E2. destruct (Rd _ _ _ eq_refl) as (f2 & H2 & L2).
    destruct x as [z|z]; [|destruct (pull c2); cbn [bind]; [|discriminate]]; intros [= <- <- <-]; exists f2; (split; [exact H2|left; lia]). }
  clear Rd.
  assert (PD : forall j, (0 <= j)%nat -> nth j rev false = true -> d_pending (get_dev c j) = false).
  { intros j _ Hj. apply Hs in Hj. destruct (Nat.lt_ge_cases j (length (c_devs c))) as [Hl|Hl].
    - unfold fds in Hj. rewrite fds_nth in Hj by assumption. now apply negb_true_iff in Hj.
    - rewrite nth_overflow in Hj by (unfold fds; now rewrite map_length). discriminate. }
  destruct (existsb (fun j => nth j rev false) (seq 0 n)) eqn:Ex.
  - (* something to read *)
    apply existsb_exists in Ex. destruct Ex as (j & Hj & Hjr). apply in_seq in Hj.
    destruct (HA (in_fds _ _ (Hs _ Hjr))) as (R0 & Hrev).
    pose proof (live_read fds rev (length (c_devs c)) 0 w1 c 0 f1 I ltac:(lia) Hn HP1 ltac:(lia) PD) as LR.
    destruct LR as (f2 & HP2 & R2 & _ & Wk).
    { intros i Hi Hir. rewrite Hrev in Hir by lia. apply andb_prop in Hir as [_ Hir]. rewrite F1. apply negb_true_iff, Nat.eqb_neq in Hir. lia. }
    specialize (Wk ltac:(exists j; split; [lia|exact Hjr])).
    assert (Ew : work f1 c = work f c) by (unfold work; now rewrite (sum_ext n f f1)).
    pose proof (read_devices_inv en N fds rev (length (c_devs c)) 0 w1 c 0 I ltac:(lia) PD) as I2.
    destruct (read_devices en (length (c_devs c)) 0 fds rev w1 c 0) as [[w2 c2] x]. cbn [fst snd] in *.
    destruct x as [z|z].
    + intros [= <- <- <-]. exists f2. split; [exact HP2|]. right; left. split; lia.
    + destruct (pull c2) as [c3|] eqn:Epl; cbn [bind]; [|discriminate]. intros [= <- <- <-]. exists f2. split; [exact HP2|]. right; left. split; [lia|].
      destruct (pull_len N _ _ I2 Epl) as (PL & _). unfold work, zlen in *. lia.
  - (* nothing to read *)
    assert (Q : forall j, (0 <= j < 0 + length (c_devs c))%nat -> nth j rev false = false).
    { intros j Hj. destruct (nth j rev false) eqn:X; [|reflexivity]. exfalso. rewrite <- not_true_iff_false in Ex. apply Ex. apply existsb_exists.
      exists j. split; [apply in_seq; lia|exact X]. }
    destruct (quiet_read en fds rev w1 (length (c_devs c)) 0 c 0 Q) as (c2 & E2 & Eq & El & Mk & _). rewrite E2.
    pose proof (read_devices_inv en N fds rev (length (c_devs c)) 0 w1 c 0 I ltac:(lia) PD) as I2. rewrite E2 in I2. cbn [fst snd] in I2.
    destruct (pull c2) as [c3|] eqn:Epl; cbn [bind]; [|discriminate]. intros [= <- <- <-]. exists f1. split; [exact HP1|]. right.
    destruct (pull_len N _ _ I2 Epl) as (PL & PL').
    assert (Ew : sum n f1 = sum n f) by now apply sum_ext.
    destruct (c_pq c) as [|fq qq] eqn:Ec.
    + right.
      assert (All : forall j, (j < n)%nat -> nth j fds false = true).
      { intros j Hj. unfold fds. rewrite fds_nth by lia. apply negb_true_iff. destruct (d_pending (get_dev c j)) eqn:D; [|reflexivity].
        exfalso. assert (X : In j (map f_dev (c_pq c))) by (apply (iv_devs _ _ I j); split; [lia|exact D]). rewrite Ec in X. exact X. }
      destruct (HA (in_fds _ _ (All O Hn0))) as (R0 & Hrev).
      assert (Z0 : sum n f = O).
      { apply sum_zero. intros j Hj. pose proof (Hrev j Hj) as X. rewrite (Q j) in X by lia. rewrite (All j Hj) in X. cbn [andb] in X.
        symmetry in X. apply negb_false_iff, Nat.eqb_eq in X. exact X. }
      split; [unfold work; rewrite Z0, Ec; reflexivity|]. split; [lia|]. split.
      * unfold work. rewrite Ew, Z0. rewrite Eq in PL. change (zlen (@nil frame)) with 0 in PL. unfold zlen in PL. lia.
      * apply (pull_idle N c2 c3 I2 Eq); [|exact Epl]. intros d Hd. apply In_nth with (d := dflt) in Hd. destruct Hd as (j & Hj & <-).
        apply Mk; [lia|]. apply All. lia.
    + left. split; [exact R1|]. specialize (PL' ltac:(rewrite Eq; discriminate)). rewrite Eq in PL'. unfold work. rewrite Ew, Ec. unfold zlen in PL'. lia.
Qed.
End Settle.
