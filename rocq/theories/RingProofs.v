(** Refinement proof: the byte ring of [Ring] implements the queues of [RingSpec]. *)
From Coq Require Import ZArith String List Bool Lia ZifyBool ZifyNat.
From Verif Require Import Bytes BytesProofs Ring RingSpec.
Import ListNotations.
Open Scope Z_scope.

Arguments Z.mul : simpl never.
Arguments Z.add : simpl never.
Arguments Z.sub : simpl never.
Arguments Z.of_nat : simpl never.

(** Case analysis on the integer comparisons of the goal. *)
Ltac zcases := repeat
  match goal with
  | |- context [if ?x <? ?y then _ else _] => destruct (Z.ltb_spec x y)
  | |- context [if ?x <=? ?y then _ else _] => destruct (Z.leb_spec x y)
  | |- context [if ?x =? ?y then _ else _] => destruct (Z.eqb_spec x y)
  end.

(** ** Modular offsets *)

Definition wrap (S x : Z) : Z := if x <? S then x else x - S.

Lemma land_ones_mod : forall k n, 0 <= k -> 0 <= n -> Z.land n (2 ^ k - 1) = n mod 2 ^ k.
Proof.
  intros k n Hk Hn. rewrite <- (Z.land_ones n k) by lia. f_equal.
  rewrite Z.ones_equiv. lia.
Qed.

Definition pow2_size (S : Z) : Prop := exists k, 14 <= k <= 24 /\ S = 2 ^ k.

Lemma pow2_size_bounds : forall S, pow2_size S -> 16384 <= S.
Proof.
  intros S (k & Hk & ->). change 16384 with (2 ^ 14). apply Z.pow_le_mono_r; lia.
Qed.

Lemma offset_wrap : forall l n, pow2_size (size l) -> 0 <= n < 2 * size l ->
  ulogger_offset l n = wrap (size l) n.
Proof.
  intros l n (k & Hk & HS) Hn. unfold ulogger_offset. rewrite HS in *.
  rewrite land_ones_mod by lia. unfold wrap.
  destruct (Z.ltb_spec n (2 ^ k)).
  - apply Z.mod_small; lia.
  - replace n with ((n - 2 ^ k) + 1 * 2 ^ k) at 1 by lia.
    rewrite Z.mod_add by lia. apply Z.mod_small; lia.
Qed.

(** ** Ring slices *)

Definition ring (S : Z) (buf : list Z) (p n : Z) : list Z :=
  map (fun i => znth (wrap S (p + Z.of_nat i)) buf) (seq 0 (Z.to_nat n)).

Lemma zlen_ring : forall S buf p n, zlen (ring S buf p n) = Z.max 0 n.
Proof. intros. unfold ring. rewrite zlen_map. unfold zlen. rewrite seq_length. lia. Qed.

Lemma znth_ring : forall S buf p n i, 0 <= i < n ->
  znth i (ring S buf p n) = znth (wrap S (p + i)) buf.
Proof.
  intros S buf p n i H. unfold ring. unfold znth at 1.
  rewrite nth_indep with (d' := (fun i => znth (wrap S (p + Z.of_nat i)) buf) 0%nat)
    by (rewrite map_length, seq_length; lia).
  rewrite map_nth with (f := fun i => znth (wrap S (p + Z.of_nat i)) buf).
  rewrite seq_nth by lia. f_equal. f_equal. lia.
Qed.

Lemma ring_ext : forall S b p n l, 0 <= n -> zlen l = n ->
  (forall i, 0 <= i < n -> znth (wrap S (p + i)) b = znth i l) -> ring S b p n = l.
Proof.
  intros S b p n l Hn Hl H. apply zlist_ext.
  - rewrite zlen_ring. lia.
  - intros i Hi. rewrite zlen_ring in Hi. rewrite znth_ring by lia. apply H. lia.
Qed.

Lemma ring_0 : forall S b p, ring S b p 0 = [].
Proof. reflexivity. Qed.

Lemma ring_split : forall S b p n m, 0 <= p < S -> 0 <= n -> 0 <= m -> n + m <= S ->
  ring S b p (n + m) = ring S b p n ++ ring S b (wrap S (p + n)) m.
Proof.
  intros S b p n m Hp Hn Hm Hs. apply ring_ext; [lia|rewrite zlen_app, !zlen_ring; lia|].
  intros i Hi. rewrite znth_app by lia. rewrite zlen_ring.
  destruct (Z.ltb_spec i (Z.max 0 n)).
  - rewrite znth_ring by lia. reflexivity.
  - rewrite znth_ring by lia. f_equal. unfold wrap.
    destruct (Z.ltb_spec (p + i) S), (Z.ltb_spec (p + n) S).
    + destruct (Z.ltb_spec (p + n + (i - Z.max 0 n)) S); lia.
    + lia.
    + destruct (Z.ltb_spec (p + n + (i - Z.max 0 n)) S); lia.
    + destruct (Z.ltb_spec (p + n - S + (i - Z.max 0 n)) S); lia.
Qed.

(** Reading in two parts. *)
Lemma ring_read2 : forall S b p n, zlen b = S -> 0 <= p < S -> 0 <= n <= S ->
  let len := Z.min n (S - p) in
  zsub p len b ++ zsub 0 (n - len) b = ring S b p n.
Proof.
  intros S b p n Hb Hp Hn len. symmetry. subst len. apply ring_ext; [lia| |].
  - rewrite zlen_app, !zlen_zsub. lia.
  - intros i Hi. rewrite znth_app by lia. rewrite zlen_zsub.
    unfold wrap.
    match goal with |- context [if i <? ?x then _ else _] => destruct (Z.ltb_spec i x) end.
    + rewrite znth_zsub by lia. destruct (Z.ltb_spec i (Z.min n (S - p))); [|lia].
      destruct (Z.ltb_spec (p + i) S); [reflexivity|lia].
    + rewrite znth_zsub by lia.
      match goal with |- _ = if ?x <? ?y then _ else _ => destruct (Z.ltb_spec x y) end; [|lia].
      destruct (Z.ltb_spec (p + i) S); [lia|]. f_equal. lia.
Qed.

Lemma ring_read1 : forall S b p n, zlen b = S -> 0 <= p < S -> 0 <= n -> p + n <= S ->
  zsub p n b = ring S b p n.
Proof.
  intros S b p n Hb Hp Hn H. rewrite <- (ring_read2 S b p n) by lia. cbn zeta.
  replace (Z.min n (S - p)) with n by lia. replace (n - n) with 0 by lia.
  unfold zsub at 3. rewrite ztake_0, app_nil_r. reflexivity.
Qed.

(** Distance from [w] forward to [j]. *)
Definition dist (S w j : Z) : Z := if w <=? j then j - w else j - w + S.

(** [b'] is [b] except possibly for the [L] bytes from [w]. *)
Definition outside (S w L : Z) (b b' : list Z) : Prop :=
  zlen b' = zlen b /\ forall j, 0 <= j < S -> L <= dist S w j -> znth j b' = znth j b.

Lemma outside_refl : forall S w L b, outside S w L b b.
Proof. intros; split; reflexivity. Qed.

Lemma outside_trans : forall S w L b1 b2 b3,
  outside S w L b1 b2 -> outside S w L b2 b3 -> outside S w L b1 b3.
Proof.
  intros S w L b1 b2 b3 [H1 H2] [H3 H4]. split; [lia|]. intros j Hj Hd.
  rewrite H4, H2 by assumption. reflexivity.
Qed.

(** A slice that ends where the region begins is kept. *)
Lemma outside_ring : forall S w L b b' p n,
  outside S w L b b' -> 0 <= p < S -> 0 <= n -> 0 <= L -> n + L <= S -> w = wrap S (p + n) ->
  ring S b' p n = ring S b p n.
Proof.
  intros S w L b b' p n [_ H] Hp Hn HL Hs Hw. apply ring_ext; [lia|rewrite zlen_ring; lia|].
  intros i Hi. rewrite znth_ring by lia. apply H.
  - unfold wrap. destruct (Z.ltb_spec (p + i) S); lia.
  - subst w. unfold dist, wrap.
    destruct (Z.ltb_spec (p + i) S), (Z.ltb_spec (p + n) S); repeat
    match goal with |- context [if ?x <=? ?y then _ else _] => destruct (Z.leb_spec x y) end; lia.
Qed.

(** Putting [d] at [p] in two parts: characterised byte by byte. *)
Lemma mem_write_znth : forall b off d j, 0 <= off -> off + zlen d <= zlen b -> 0 <= j ->
  znth j (ztake off b ++ d ++ zdrop (off + zlen d) b) =
  if (off <=? j) && (j <? off + zlen d) then znth (j - off) d else znth j b.
Proof.
  intros b off d j H0 H1 Hj. pose proof (zlen_nonneg d).
  rewrite znth_app by lia. rewrite zlen_ztake.
  destruct (Z.ltb_spec j (Z.max 0 (Z.min off (zlen b)))).
  - rewrite znth_ztake by lia. destruct (Z.ltb_spec j off); [|lia].
    destruct (Z.leb_spec off j); [lia|]. reflexivity.
  - rewrite znth_app by lia.
    replace (Z.max 0 (Z.min off (zlen b))) with off by lia.
    destruct (Z.leb_spec off j); [|lia].
    destruct (Z.ltb_spec (j - off) (zlen d)), (Z.ltb_spec j (off + zlen d)); try lia; cbn [andb].
    + reflexivity.
    + rewrite znth_zdrop by lia. f_equal. lia.
Qed.

Definition put2 (S : Z) (b : list Z) (p : Z) (d b' : list Z) : Prop :=
  zlen b' = S /\
  forall j, 0 <= j < S -> znth j b' = if dist S p j <? zlen d then znth (dist S p j) d else znth j b.

(** A write in progress: region of [L] bytes at [w], [acc] written so far. *)
Definition prog (l0 : log) (L : Z) (acc : list Z) (l : log) : Prop :=
  size l = size l0 /\ head l = head l0 /\ dropped l = dropped l0 /\ name l = name l0 /\
  zlen acc <= L /\
  w_off l = wrap (size l0) (w_off l0 + zlen acc) /\
  outside (size l0) (w_off l0) L (buffer l0) (buffer l) /\
  ring (size l0) (buffer l) (w_off l0) (zlen acc) = acc.

Definition log_ok (l : log) : Prop :=
  pow2_size (size l) /\ zlen (buffer l) = size l /\ 0 <= w_off l < size l /\ zlen (name l) <= 15.

Lemma prog_init : forall l L, log_ok l -> 0 <= L -> prog l L [] l.
Proof.
  intros l L (Hp & Hb & Hw & _) HL. unfold prog. rewrite zlen_nil.
  repeat split; try assumption; try reflexivity.
  unfold wrap. destruct (Z.ltb_spec (w_off l + 0) (size l)); lia.
Qed.

Lemma put2_prog : forall l0 L acc l d b',
  log_ok l0 -> prog l0 L acc l -> zlen acc + zlen d <= L -> L < size l0 ->
  put2 (size l0) (buffer l) (w_off l) d b' ->
  prog l0 L (acc ++ d) (set_w_off (set_buffer l b') (ulogger_offset l (w_off l + zlen d))).
Proof.
  intros l0 L acc l d b' (Hp & Hb & Hw & _) (E1 & E2 & E3 & E4 & E5 & E6 & E7 & E8) Hd HL (P1 & P2).
  pose proof (zlen_nonneg acc). pose proof (zlen_nonneg d).
  set (S := size l0) in *. set (w := w_off l0) in *.
  assert (Hwl : 0 <= w_off l < S).
  { rewrite E6. unfold wrap. destruct (Z.ltb_spec (w + zlen acc) S); lia. }
  unfold prog. cbn [size head dropped name w_off buffer set_w_off set_buffer].
  rewrite zlen_app. repeat split; try assumption; try lia.
  - rewrite offset_wrap by (rewrite ?E1; fold S; try assumption; lia).
    rewrite E1, E6. fold S. unfold wrap.
    zcases; lia.
  - intros j Hj Hdj. rewrite P2 by assumption. fold S.
    destruct E7 as [_ E7]. fold S w in E7.
    destruct (Z.ltb_spec (dist S (w_off l) j) (zlen d)) as [Hlt|Hge].
    + exfalso. rewrite E6 in Hlt. revert Hlt Hdj. unfold dist, wrap.
      destruct (Z.ltb_spec (w + zlen acc) S);
      destruct (Z.leb_spec w j); repeat
      match goal with |- context [if ?x <=? ?y then _ else _] => destruct (Z.leb_spec x y) end; lia.
    + apply E7; assumption.
  - fold S. fold w. apply ring_ext; [lia|rewrite zlen_app; lia|].
    intros i Hi.
    assert (Hwi : 0 <= wrap S (w + i) < S)
      by (unfold wrap; destruct (Z.ltb_spec (w + i) S); lia).
    rewrite P2 by assumption. rewrite znth_app by lia.
    assert (Hdist : dist S (w_off l) (wrap S (w + i)) = if i <? zlen acc then i - zlen acc + S else i - zlen acc).
    { rewrite E6. unfold dist, wrap.
      destruct (Z.ltb_spec (w + i) S), (Z.ltb_spec (w + zlen acc) S), (Z.ltb_spec i (zlen acc)); repeat
      match goal with |- context [if ?x <=? ?y then _ else _] => destruct (Z.leb_spec x y) end; lia. }
    rewrite Hdist.
    destruct (Z.ltb_spec i (zlen acc)).
    + destruct (Z.ltb_spec (i - zlen acc + S) (zlen d)); [lia|].
      transitivity (znth i (ring S (buffer l) w (zlen acc))); [|rewrite E8; reflexivity].
      rewrite znth_ring by lia. reflexivity.
    + destruct (Z.ltb_spec (i - zlen acc) (zlen d)); [|lia]. reflexivity.
Qed.

(** The two memcpy of a write. *)
Lemma put2_split : forall S b p d1 d2 b1 b2,
  zlen b = S -> 0 <= p < S -> zlen d1 + zlen d2 <= S ->
  (zlen d1 = S - p \/ zlen d2 = 0) -> p + zlen d1 <= S ->
  mem_write b p d1 = Ok b1 -> mem_write b1 0 d2 = Ok b2 ->
  put2 S b p (d1 ++ d2) b2.
Proof.
  intros S b p d1 d2 b1 b2 Hb Hp Hd Hor Hle H1 H2.
  pose proof (zlen_nonneg d1). pose proof (zlen_nonneg d2).
  rewrite mem_write_ok in H1 by lia. injection H1 as <-.
  set (b1 := ztake p b ++ d1 ++ zdrop (p + zlen d1) b) in *.
  assert (Hb1 : zlen b1 = S).
  { subst b1. rewrite !zlen_app, zlen_ztake, zlen_zdrop. lia. }
  rewrite mem_write_ok in H2 by lia.
  assert (E2 : b2 = ztake 0 b1 ++ d2 ++ zdrop (0 + zlen d2) b1) by congruence.
  clear H2. subst b2.
  split.
  - rewrite !zlen_app, zlen_ztake, zlen_zdrop. lia.
  - intros j Hj. rewrite mem_write_znth by lia.
    subst b1. rewrite mem_write_znth by lia.
    rewrite zlen_app. unfold dist.
    destruct (Z.leb_spec p j).
    + destruct (Z.ltb_spec (j - p) (zlen d1 + zlen d2)).
      * rewrite znth_app by lia.
        destruct (Z.leb_spec 0 j); [|lia]. cbn [andb].
        destruct (Z.ltb_spec j (0 + zlen d2)).
        -- lia.
        -- destruct (Z.ltb_spec j (p + zlen d1)), (Z.ltb_spec (j - p) (zlen d1));
           cbn [andb]; (reflexivity || lia).
      * destruct (Z.leb_spec 0 j); [|lia]. cbn [andb].
        destruct (Z.ltb_spec j (0 + zlen d2)); [lia|].
        destruct (Z.ltb_spec j (p + zlen d1)); [lia|]. reflexivity.
    + destruct (Z.leb_spec 0 j); [|lia]. cbn [andb].
      destruct (Z.ltb_spec (j - p + S) (zlen d1 + zlen d2)).
      * rewrite znth_app by lia.
        destruct (Z.ltb_spec j (0 + zlen d2)), (Z.ltb_spec (j - p + S) (zlen d1)); 
        (lia || (f_equal; lia)).
      * destruct (Z.ltb_spec j (0 + zlen d2)); [lia|]. reflexivity.
Qed.

Lemma put2_one : forall S b p d b1,
  zlen b = S -> 0 <= p < S -> p + zlen d <= S -> mem_write b p d = Ok b1 -> put2 S b p d b1.
Proof.
  intros S b p d b1 Hb Hp Hd H. pose proof (zlen_nonneg d).
  assert (H2 : mem_write b1 0 [] = Ok b1).
  { rewrite mem_write_ok in H by lia. injection H as <-.
    rewrite mem_write_ok; rewrite ?zlen_nil; try lia.
    - reflexivity.
    - unfold zlen; cbn [List.length]; lia. }
  rewrite <- (app_nil_r d). apply put2_split with (b1 := b1); change (zlen (@nil Z)) with 0; try assumption; lia.
Qed.

Lemma do_write_log_prog : forall l0 L acc l d,
  log_ok l0 -> prog l0 L acc l -> zlen acc + zlen d <= L -> L < size l0 ->
  exists l', do_write_log l d = Ok l' /\ prog l0 L (acc ++ d) l'.
Proof.
  intros l0 L acc l d Hok Hprog Hd HL.
  pose proof Hok as (Hp & Hb & Hw & _).
  pose proof Hprog as (E1 & E2 & E3 & E4 & E5 & E6 & (E7 & _) & E8).
  pose proof (zlen_nonneg acc). pose proof (zlen_nonneg d).
  assert (Hwl : 0 <= w_off l < size l0).
  { rewrite E6. unfold wrap. destruct (Z.ltb_spec (w_off l0 + zlen acc) (size l0)); lia. }
  unfold do_write_log. rewrite E1.
  set (len := Z.min (zlen d) (size l0 - w_off l)).
  assert (L1 : zlen (ztake len d) = len) by (rewrite zlen_ztake; lia).
  assert (L2 : zlen (zdrop len d) = zlen d - len) by (rewrite zlen_zdrop; lia).
  rewrite mem_write_ok by lia. cbn [bind].
  destruct (Z.eqb_spec (zlen d) len) as [He|Hne].
  - cbn [bind]. eexists. split; [reflexivity|].
    apply put2_prog; try assumption.
    apply put2_one; try lia.
    rewrite (ztake_all len d) by lia. apply mem_write_ok; lia.
  - set (b1 := ztake (w_off l) (buffer l) ++ ztake len d ++ zdrop (w_off l + zlen (ztake len d)) (buffer l)).
    assert (Hb1 : zlen b1 = size l0).
    { subst b1. rewrite !zlen_app, (zlen_ztake (w_off l)), zlen_zdrop. lia. }
    rewrite mem_write_ok by lia. cbn [bind]. eexists. split; [reflexivity|].
    apply put2_prog; try assumption.
    rewrite <- (ztake_zdrop len d) at 1.
    apply put2_split with (b1 := b1); try lia.
    + subst b1. apply mem_write_ok; lia.
    + apply mem_write_ok; lia.
Qed.

(** ** Copying from user space *)

(** Same log as [l0] but for [L] bytes from the write offset and the write offset itself. *)
Definition touched (l0 : log) (L : Z) (l : log) : Prop :=
  size l = size l0 /\ head l = head l0 /\ dropped l = dropped l0 /\ name l = name l0 /\
  outside (size l0) (w_off l0) L (buffer l0) (buffer l).

Lemma prog_touched : forall l0 L acc l, prog l0 L acc l -> touched l0 L l.
Proof. intros l0 L acc l (E1 & E2 & E3 & E4 & E5 & E6 & E7 & E8). repeat split; try assumption; apply E7. Qed.

Lemma user_read_len : forall s off n, 0 <= off -> 0 <= n -> off + n <= seg_len s ->
  zlen (fst (user_read s off n)) = n.
Proof.
  intros s off n Ho Hn H. unfold user_read, seg_len in *. destruct (off + n <=? s_valid s); cbn [fst].
  - rewrite zlen_zsub. lia.
  - rewrite zlen_app, zlen_zrepeat, zlen_zsub. lia.
Qed.

Lemma user_read_ok : forall s off n, off + n <= s_valid s ->
  user_read s off n = (zsub off n (s_data s), false).
Proof. intros. unfold user_read. destruct (Z.leb_spec (off + n) (s_valid s)); [reflexivity|lia]. Qed.

Lemma user_read_bad : forall s off n, s_valid s < off + n -> snd (user_read s off n) = true.
Proof. intros. unfold user_read. destruct (Z.leb_spec (off + n) (s_valid s)); [lia|reflexivity]. Qed.

Lemma do_write_log_from_user_prog : forall l0 L acc l s count,
  log_ok l0 -> prog l0 L acc l -> 0 <= count <= seg_len s -> zlen acc + count <= L -> L < size l0 ->
  exists l', do_write_log_from_user l s count = Ok (l', (0 <? count) && (s_valid s <? count)) /\
  if (0 <? count) && (s_valid s <? count) then touched l0 L l'
  else prog l0 L (acc ++ ztake count (s_data s)) l'.
Proof.
  intros l0 L acc l s count Hok Hprog Hc Hd HL.
  pose proof Hok as (Hp & Hb & Hw & _).
  pose proof Hprog as (E1 & E2 & E3 & E4 & E5 & E6 & (E7 & _) & E8).
  pose proof (zlen_nonneg acc).
  assert (Hwl : 0 <= w_off l < size l0) by (rewrite E6; unfold wrap; zcases; lia).
  unfold do_write_log_from_user. rewrite E1.
  set (len := Z.min count (size l0 - w_off l)).
  destruct (Z.ltb_spec 0 count) as [Hpos|Hzero].
  2:{ assert (count = 0) by lia. subst count.
      replace len with 0 by lia. cbn [Z.eqb bind negb andb].
      eexists. split; [reflexivity|].
      rewrite ztake_0, app_nil_r.
      replace (ulogger_offset l (w_off l + 0)) with (w_off l).
      - destruct l; exact Hprog.
      - rewrite offset_wrap by (rewrite E1; try assumption; lia).
        unfold wrap. rewrite E1. zcases; lia. }
  destruct (Z.eqb_spec len 0); [lia|].
  assert (Hlenr : zlen (fst (user_read s 0 len)) = len) by (apply user_read_len; lia).
  destruct (user_read s 0 len) as [d1 bad1] eqn:Er1. cbn [fst] in Hlenr.
  rewrite mem_write_ok by lia.
  set (b1 := ztake (w_off l) (buffer l) ++ d1 ++ zdrop (w_off l + zlen d1) (buffer l)).
  assert (Hw1 : mem_write (buffer l) (w_off l) d1 = Ok b1) by (apply mem_write_ok; lia).
  assert (Hb1 : zlen b1 = size l0).
  { subst b1. rewrite !zlen_app, zlen_ztake, zlen_zdrop. lia. }
  assert (Hprog1 : prog l0 L (acc ++ d1) (set_w_off (set_buffer l b1) (ulogger_offset l (w_off l + zlen d1)))).
  { apply put2_prog; try assumption; try lia. apply put2_one; try assumption; lia. }
  cbn [bind].
  destruct (Z.ltb_spec (s_valid s) count) as [Hbad|Hgood]; cbn [andb].
  - (* fault *)
    destruct bad1.
    + eexists. split; [reflexivity|]. apply prog_touched in Hprog1.
      destruct Hprog1 as (T1 & T2 & T3 & T4 & T5). repeat split; try assumption; apply T5.
    + assert (len <= s_valid s).
      { destruct (Z.ltb_spec (s_valid s) len) as [Hlt|]; [|lia].
        pose proof (user_read_bad s 0 len Hlt) as Hx. rewrite Er1 in Hx. cbn in Hx. congruence. }
      destruct (Z.eqb_spec count len); [lia|].
      assert (Hlenr2 : zlen (fst (user_read s len (count - len))) = count - len) by (apply user_read_len; lia).
      assert (Hbad2 : snd (user_read s len (count - len)) = true) by (apply user_read_bad; lia).
      destruct (user_read s len (count - len)) as [d2 bad2] eqn:Er2. cbn [fst snd] in *. subst bad2.
      cbn [buffer set_buffer].
      assert (Hw2 : mem_write b1 0 d2 = Ok (ztake 0 b1 ++ d2 ++ zdrop (0 + zlen d2) b1)) by (apply mem_write_ok; lia).
      rewrite Hw2. cbn [bind]. eexists. split; [reflexivity|].
      set (b2 := ztake 0 b1 ++ d2 ++ zdrop (0 + zlen d2) b1) in *.
      assert (Hprog2 : prog l0 L (acc ++ d1 ++ d2) (set_w_off (set_buffer l b2) (ulogger_offset l (w_off l + zlen (d1 ++ d2))))).
      { apply put2_prog; try assumption; rewrite ?zlen_app; try lia. apply put2_split with (b1 := b1); try assumption; lia. }
      apply prog_touched in Hprog2.
      destruct Hprog2 as (T1 & T2 & T3 & T4 & T5). repeat split; try assumption; apply T5.
  - rewrite user_read_ok in Er1 by lia. injection Er1 as <- <-.
    destruct (Z.eqb_spec count len) as [He|Hne].
    + cbn [bind]. eexists. split; [reflexivity|].
      cbn [w_off set_buffer]. rewrite <- He in *.
      replace (ztake count (s_data s)) with (zsub 0 count (s_data s)) by reflexivity.
      rewrite Hlenr in Hprog1. exact Hprog1.
    + rewrite user_read_ok by lia.
      assert (L2 : zlen (zsub len (count - len) (s_data s)) = count - len)
        by (rewrite zlen_zsub; unfold seg_len in Hc; lia).
      cbn [buffer set_buffer]. rewrite mem_write_ok by lia. cbn [bind].
      eexists. split; [reflexivity|].
      assert (Ed : ztake count (s_data s) = zsub 0 len (s_data s) ++ zsub len (count - len) (s_data s)).
      { unfold zsub. rewrite zdrop_0. rewrite <- (ztake_zdrop len (ztake count (s_data s))).
        rewrite ztake_ztake. replace (Z.min len count) with len by lia. f_equal.
        unfold ztake, zdrop. rewrite skipn_firstn_comm. f_equal. lia. }
      rewrite Ed. cbn [w_off set_buffer].
      set (d1 := zsub 0 len (s_data s)) in *. set (d2 := zsub len (count - len) (s_data s)) in *.
      replace count with (zlen (d1 ++ d2)) by (rewrite zlen_app; lia).
      set (b2 := ztake 0 b1 ++ d2 ++ zdrop (0 + zlen d2) b1).
      replace (set_w_off (set_buffer (set_buffer l b1) b2) (ulogger_offset (set_buffer (set_buffer l b1) b2) (w_off l + zlen (d1 ++ d2))))
        with (set_w_off (set_buffer l b2) (ulogger_offset l (w_off l + zlen (d1 ++ d2)))) by reflexivity.
      apply put2_prog; try assumption; rewrite ?zlen_app; try lia.
      apply put2_split with (b1 := b1); try assumption; try lia.
      apply mem_write_ok; lia.
Qed.

Definition segs_len (segs : list seg) : Z := fold_right (fun s a => seg_len s + a) 0 segs.

Lemma segs_len_concat : forall segs, segs_len segs = zlen (List.concat (map s_data segs)).
Proof.
  induction segs as [|s r IH]; [reflexivity|].
  cbn [segs_len fold_right map List.concat]. rewrite zlen_app, <- IH. reflexivity.
Qed.

Lemma segs_len_nonneg : forall segs, 0 <= segs_len segs.
Proof. intros. rewrite segs_len_concat. apply zlen_nonneg. Qed.

Lemma write_iovecs_prog : forall segs l0 L acc l size1 ret,
  log_ok l0 -> prog l0 L acc l -> 0 <= size1 - ret -> zlen acc + (size1 - ret) <= L -> L < size l0 ->
  exists l',
  if segs_fault segs (size1 - ret)
  then write_iovecs l segs size1 ret = Ok (l', None) /\ touched l0 L l'
  else write_iovecs l segs size1 ret = Ok (l', Some (ret + Z.min (size1 - ret) (segs_len segs))) /\
       prog l0 L (acc ++ ztake (size1 - ret) (List.concat (map s_data segs))) l'.
Proof.
  induction segs as [|s r IH]; intros l0 L acc l size1 ret Hok Hprog Hn Hd HL.
  - exists l. cbn [segs_fault write_iovecs segs_len fold_right map List.concat]. split.
    + do 3 f_equal. lia.
    + unfold ztake. rewrite firstn_nil, app_nil_r. assumption.
  - cbn [segs_fault write_iovecs segs_len fold_right map List.concat].
    fold (segs_len r). pose proof (segs_len_nonneg r).
    fold (seg_len s).
    assert (Hs : 0 <= seg_len s) by apply zlen_nonneg.
    set (k := Z.min (seg_len s) (size1 - ret)).
    destruct (do_write_log_from_user_prog l0 L acc l s k Hok Hprog) as (l1 & H1 & H2); try lia.
    rewrite H1. cbn [bind].
    destruct ((0 <? k) && (s_valid s <? k)) eqn:Ef; cbn [orb].
    + exists l1. split; [reflexivity|assumption].
    + replace (size1 - ret - k) with (size1 - (ret + k)) by lia.
      assert (Hlk : zlen (ztake k (s_data s)) = k) by (rewrite zlen_ztake; unfold seg_len in *; lia).
      destruct (IH l0 L (acc ++ ztake k (s_data s)) l1 size1 (ret + k)) as (l2 & H3); try assumption; try lia.
      { rewrite zlen_app. lia. }
      exists l2. destruct (segs_fault r (size1 - (ret + k))); [assumption|].
      destruct H3 as [H3 H4]. split.
      * rewrite H3. do 3 f_equal. lia.
      * rewrite ztake_app, app_assoc. fold (seg_len s).
        replace (ztake (size1 - ret) (s_data s)) with (ztake k (s_data s)).
        2:{ destruct (Z.leb_spec (seg_len s) (size1 - ret)).
            - rewrite !ztake_all; unfold seg_len in *; try lia. reflexivity.
            - f_equal. lia. }
        destruct (Z.leb_spec (seg_len s) (size1 - ret)).
        -- replace (size1 - ret - seg_len s) with (size1 - (ret + k)) by lia. assumption.
        -- rewrite (ztake_nonpos (size1 - (ret + k))) in H4 by lia.
           rewrite (ztake_nonpos (size1 - ret - seg_len s)) by lia. assumption.
Qed.
