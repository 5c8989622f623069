(** Lemmas about the byte-string helpers of [Bytes]. *)
From Coq Require Import ZArith List Bool Lia ZifyBool ZifyNat.
From Verif Require Import Bytes.
Import ListNotations.
Open Scope Z_scope.

Lemma zlen_nonneg : forall {A} (l : list A), 0 <= zlen l.
Proof. intros; unfold zlen; lia. Qed.

Lemma zlen_nil : forall {A}, zlen (@nil A) = 0.
Proof. reflexivity. Qed.

Lemma zlen_cons : forall {A} (x : A) l, zlen (x :: l) = 1 + zlen l.
Proof. intros; unfold zlen; cbn [List.length]; lia. Qed.

Lemma zlen_app : forall {A} (a b : list A), zlen (a ++ b) = zlen a + zlen b.
Proof. intros; unfold zlen; rewrite app_length; lia. Qed.

Lemma zlen_map : forall {A B} (f : A -> B) l, zlen (map f l) = zlen l.
Proof. intros; unfold zlen; rewrite map_length; reflexivity. Qed.

Lemma zlen_ztake : forall {A} n (l : list A), zlen (ztake n l) = Z.max 0 (Z.min n (zlen l)).
Proof. intros; unfold zlen, ztake; rewrite firstn_length; lia. Qed.

Lemma zlen_zdrop : forall {A} n (l : list A), zlen (zdrop n l) = Z.max 0 (zlen l - Z.max 0 n).
Proof. intros; unfold zlen, zdrop; rewrite skipn_length; lia. Qed.

Lemma zlen_zsub : forall {A} o n (l : list A),
  zlen (zsub o n l) = Z.max 0 (Z.min n (zlen l - Z.max 0 o)).
Proof. intros; unfold zsub; rewrite zlen_ztake, zlen_zdrop; lia. Qed.

Lemma zlen_zrepeat : forall {A} (x : A) n, zlen (zrepeat x n) = Z.max 0 n.
Proof. intros; unfold zlen, zrepeat; rewrite repeat_length; lia. Qed.

Lemma zlen_le : forall n v, zlen (le n v) = Z.of_nat n.
Proof.
  induction n as [|n IH]; intros v; [reflexivity|].
  cbn [le]. rewrite zlen_cons, IH. lia.
Qed.

Lemma zlen_zero_nil : forall {A} (l : list A), zlen l = 0 -> l = [].
Proof. intros A l H; destruct l; [reflexivity|]. rewrite zlen_cons in H. pose proof (zlen_nonneg l). lia. Qed.

Lemma znth_out : forall i l, zlen l <= i -> znth i l = -1.
Proof. intros i l H; unfold znth, zlen in *. apply nth_overflow. lia. Qed.

Lemma znth_app : forall i a b, 0 <= i ->
  znth i (a ++ b) = if i <? zlen a then znth i a else znth (i - zlen a) b.
Proof.
  intros i a b H. unfold znth, zlen.
  destruct (Z.ltb_spec i (Z.of_nat (List.length a))).
  - rewrite app_nth1 by lia. reflexivity.
  - rewrite app_nth2 by lia. f_equal. lia.
Qed.

Lemma nth_firstn_lt : forall {A} n i (l : list A) d, (i < n)%nat -> nth i (firstn n l) d = nth i l d.
Proof.
  induction n as [|n IH]; intros i l d H; [lia|].
  destruct l as [|x l]; [destruct i; reflexivity|].
  cbn [firstn]. destruct i as [|i]; [reflexivity|]. cbn [nth]. apply IH. lia.
Qed.

Lemma nth_skipn : forall {A} n i (l : list A) d, nth i (skipn n l) d = nth (n + i) l d.
Proof.
  induction n as [|n IH]; intros i l d; [reflexivity|].
  destruct l as [|x l]; cbn [skipn].
  - destruct i; reflexivity.
  - cbn [plus nth]. apply IH.
Qed.

Lemma znth_ztake : forall i n l, 0 <= i -> znth i (ztake n l) = if i <? n then znth i l else -1.
Proof.
  intros i n l H. destruct (Z.ltb_spec i n).
  - unfold znth, ztake. apply nth_firstn_lt. lia.
  - apply znth_out. rewrite zlen_ztake. pose proof (zlen_nonneg l). lia.
Qed.

Lemma znth_zdrop : forall i n l, 0 <= i -> 0 <= n -> znth i (zdrop n l) = znth (n + i) l.
Proof.
  intros i n l H H0. unfold znth, zdrop. rewrite nth_skipn. f_equal. lia.
Qed.

Lemma znth_zsub : forall i o n l, 0 <= i -> 0 <= o ->
  znth i (zsub o n l) = if i <? n then znth (o + i) l else -1.
Proof.
  intros. unfold zsub. rewrite znth_ztake by assumption.
  destruct (i <? n); [|reflexivity]. apply znth_zdrop; assumption.
Qed.

Lemma zlist_ext : forall a b, zlen a = zlen b ->
  (forall i, 0 <= i < zlen a -> znth i a = znth i b) -> a = b.
Proof.
  intros a b HL H. apply (nth_ext a b (-1) (-1)).
  - unfold zlen in HL. lia.
  - intros n Hn. specialize (H (Z.of_nat n)). unfold znth, zlen in H.
    rewrite Nat2Z.id in H. apply H. lia.
Qed.

Lemma ztake_all : forall {A} n (l : list A), zlen l <= n -> ztake n l = l.
Proof. intros A n l H; unfold ztake, zlen in *. apply firstn_all2. lia. Qed.

Lemma ztake_nonpos : forall {A} n (l : list A), n <= 0 -> ztake n l = [].
Proof. intros A n l H; unfold ztake. replace (Z.to_nat n) with 0%nat by lia. reflexivity. Qed.

Lemma zdrop_nonpos : forall {A} n (l : list A), n <= 0 -> zdrop n l = l.
Proof. intros A n l H; unfold zdrop. replace (Z.to_nat n) with 0%nat by lia. reflexivity. Qed.

Lemma zdrop_all : forall {A} n (l : list A), zlen l <= n -> zdrop n l = [].
Proof. intros A n l H; unfold zdrop, zlen in *. apply skipn_all2. lia. Qed.

Lemma ztake_app : forall {A} n (a b : list A),
  ztake n (a ++ b) = ztake n a ++ ztake (n - zlen a) b.
Proof.
  intros A n a b. unfold ztake, zlen. rewrite firstn_app. f_equal. f_equal. lia.
Qed.

Lemma zdrop_app : forall {A} n (a b : list A),
  0 <= n -> zdrop n (a ++ b) = zdrop n a ++ zdrop (n - zlen a) b.
Proof.
  intros A n a b H. unfold zdrop, zlen. rewrite skipn_app. f_equal. f_equal. lia.
Qed.

Lemma ztake_app_le : forall {A} n (a b : list A), n <= zlen a -> ztake n (a ++ b) = ztake n a.
Proof.
  intros A n a b H. rewrite ztake_app, (ztake_nonpos (n - zlen a)) by lia. apply app_nil_r.
Qed.

Lemma ztake_app_exact : forall {A} n (a b : list A), n = zlen a -> ztake n (a ++ b) = a.
Proof. intros A n a b ->. rewrite ztake_app_le by lia. apply ztake_all. lia. Qed.

Lemma zdrop_app_exact : forall {A} n (a b : list A), n = zlen a -> zdrop n (a ++ b) = b.
Proof.
  intros A n a b ->. rewrite zdrop_app by apply zlen_nonneg.
  rewrite zdrop_all by lia. rewrite zdrop_nonpos by lia. reflexivity.
Qed.

Lemma ztake_zdrop : forall {A} n (l : list A), ztake n l ++ zdrop n l = l.
Proof. intros; unfold ztake, zdrop; apply firstn_skipn. Qed.

Lemma zdrop_zdrop : forall {A} n m (l : list A), 0 <= n -> 0 <= m ->
  zdrop n (zdrop m l) = zdrop (m + n) l.
Proof.
  intros A n m l Hn Hm. unfold zdrop.
  replace (Z.to_nat (m + n)) with (Z.to_nat m + Z.to_nat n)%nat by lia.
  generalize (Z.to_nat m) as k. intros k; revert l.
  induction k as [|k IH]; intros l; [reflexivity|].
  destruct l as [|x l].
  - cbn. destruct (Z.to_nat n); reflexivity.
  - cbn. apply IH.
Qed.

Lemma ztake_ztake : forall {A} n m (l : list A), ztake n (ztake m l) = ztake (Z.min n m) l.
Proof.
  intros A n m l. unfold ztake. rewrite firstn_firstn. f_equal. lia.
Qed.

Lemma ztake_0 : forall {A} (l : list A), ztake 0 l = [].
Proof. reflexivity. Qed.

Lemma zdrop_0 : forall {A} (l : list A), zdrop 0 l = l.
Proof. reflexivity. Qed.

Lemma mem_read_ok : forall buf off n, 0 <= off -> 0 <= n -> off + n <= zlen buf ->
  mem_read buf off n = Ok (zsub off n buf).
Proof.
  intros. unfold mem_read.
  destruct (Z.leb_spec 0 off); [|lia].
  destruct (Z.leb_spec 0 n); [|lia].
  destruct (Z.leb_spec (off + n) (zlen buf)); [|lia]. reflexivity.
Qed.

Lemma mem_write_ok : forall buf off d, 0 <= off -> off + zlen d <= zlen buf ->
  mem_write buf off d = Ok (ztake off buf ++ d ++ zdrop (off + zlen d) buf).
Proof.
  intros. unfold mem_write.
  destruct (Z.leb_spec 0 off); [|lia].
  destruct (Z.leb_spec (off + zlen d) (zlen buf)); [|lia]. reflexivity.
Qed.

(** Little endian *)

Lemma of_le_le : forall n v, of_le (le n v) = v mod (256 ^ Z.of_nat n).
Proof.
  induction n as [|n IH]; intros v.
  - cbn. rewrite Z.mod_1_r. reflexivity.
  - cbn [le of_le]. rewrite IH.
    rewrite Nat2Z.inj_succ, Z.pow_succ_r by lia.
    rewrite (Z.rem_mul_r v 256 (256 ^ Z.of_nat n)) by (try apply Z.pow_pos_nonneg; lia).
    lia.
Qed.

Lemma of_le_app : forall a b, of_le (a ++ b) = of_le a + 256 ^ zlen a * of_le b.
Proof.
  induction a as [|x a IH]; intros b.
  - cbn. destruct (of_le b); reflexivity.
  - cbn [app of_le]. rewrite IH, zlen_cons.
    rewrite Z.pow_add_r by (pose proof (zlen_nonneg a); lia).
    rewrite Z.pow_1_r. ring.
Qed.

Lemma bytes_eqb_eq : forall a b, bytes_eqb a b = true <-> a = b.
Proof.
  induction a as [|x a IH]; destruct b as [|y b]; cbn; split; intros H; try congruence.
  - apply andb_prop in H. destruct H as [H1 H2]. apply IH in H2. f_equal; [lia|assumption].
  - inversion H; subst. rewrite Z.eqb_refl. cbn. apply IH. reflexivity.
Qed.

Lemma bytes_eqb_refl : forall a, bytes_eqb a a = true.
Proof. intros. apply bytes_eqb_eq. reflexivity. Qed.

Lemma bytes_eqb_neq : forall a b, bytes_eqb a b = false <-> a <> b.
Proof.
  intros a b. rewrite <- bytes_eqb_eq. destruct (bytes_eqb a b); split; congruence.
Qed.

(** C strings *)

Lemma zlen_cstr : forall l, zlen (cstr l) <= zlen l.
Proof.
  induction l as [|x l IH]; [cbn; lia|].
  cbn [cstr]. destruct (x =? 0); rewrite ?zlen_cons, ?zlen_nil; pose proof (zlen_nonneg l); lia.
Qed.

Lemma cstr_no_nul : forall l, ~ In 0 (cstr l).
Proof.
  induction l as [|x l IH]; cbn; [tauto|].
  destruct (Z.eqb_spec x 0); cbn; [tauto|]. intros [H|H]; [lia|tauto].
Qed.

Lemma cstr_id : forall l, ~ In 0 l -> cstr l = l.
Proof.
  induction l as [|x l IH]; intros H; [reflexivity|].
  cbn [cstr]. destruct (Z.eqb_spec x 0).
  - subst. exfalso. apply H. left; reflexivity.
  - f_equal. apply IH. intros Hi. apply H. right; assumption.
Qed.

Lemma cstr_app_nul : forall a b, ~ In 0 a -> cstr (a ++ 0 :: b) = a.
Proof.
  induction a as [|x a IH]; intros b H; [reflexivity|].
  cbn [cstr app]. destruct (Z.eqb_spec x 0).
  - subst. exfalso. apply H. left; reflexivity.
  - f_equal. apply IH. intros Hi. apply H. right; assumption.
Qed.

Lemma dec_digits_len : forall f v, zlen (dec_digits f v) <= Z.of_nat f.
Proof.
  induction f as [|f IH]; intros v; [cbn; lia|].
  cbn [dec_digits]. destruct (v <? 10).
  - unfold zlen. cbn [List.length]. lia.
  - rewrite zlen_app. specialize (IH (v / 10)). unfold zlen at 2. cbn [List.length]. lia.
Qed.

Lemma zlen_dec_d : forall v, zlen (dec_d v) <= 21.
Proof.
  intros v. unfold dec_d, dec_u. destruct (v <? 0); rewrite ?zlen_cons;
  [pose proof (dec_digits_len 20 (-v))|pose proof (dec_digits_len 20 v)]; lia.
Qed.

(** The printed digits denote the number (base-10 value of the digit string). *)
Definition digits_value (ds : list Z) : Z := fold_left (fun a d => 10 * a + (d - 48)) ds 0.

Lemma dec_digits_value : forall f v, 0 <= v < 10 ^ Z.of_nat f -> digits_value (dec_digits f v) = v.
Proof.
  induction f as [|f IH]; intros v H; [cbn in *; lia|].
  cbn [dec_digits]. destruct (Z.ltb_spec v 10).
  - unfold digits_value. cbn [fold_left]. lia.
  - unfold digits_value in *. rewrite fold_left_app, IH.
    + cbn [fold_left]. pose proof (Z.div_mod v 10). lia.
    + rewrite Nat2Z.inj_succ, Z.pow_succ_r in H by lia.
      split; [apply Z.div_pos; lia|]. apply Z.div_lt_upper_bound; lia.
Qed.
