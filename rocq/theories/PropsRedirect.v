(** C56: levels of the redirected libraries; C69: entries of the GStreamer redirection. *)
From Coq Require Import ZArith String List Bool Lia ZifyBool ZifyNat.
From Verif Require Import Bytes BytesProofs Redirect RedirectProofs.
Import ListNotations.
Open Scope Z_scope.

(** ** Specification *)

(** Severity of a GLib flag word: the number of the lowest level bit that is set, from 2 (error, the most
    severe) to 7 (debug); the bits 0 and 1 are not levels. *)
Definition glib_severity (level i : Z) : Prop :=
  2 <= i <= 7 /\ Z.testbit level i = true /\ forall j, 2 <= j < i -> Z.testbit level j = false.

(** Severities that order messages: smaller is more severe, for both messages [a] and [b] of one cookie. A
    redirection is monotone when the more severe of two messages does not get a less severe priority,
    and is emitted if the other one is. *)
Definition monotone (a b : list call) : Prop :=
  forall p tag x, b = [Log p tag x] -> exists q tag' y, a = [Log q tag' y] /\ 0 <= q <= p /\ p <= 7.

(** ** C56 *)

Lemma land_bit level i k : 0 <= i -> k = 2 ^ i -> (Z.land level k =? 0) = negb (Z.testbit level i).
Proof.
  intros Hi ->. destruct (Z.testbit level i) eqn:T; cbn [negb].
  - apply Z.eqb_neq. intros H. assert (B : Z.testbit (Z.land level (2 ^ i)) i = true) by (rewrite Z.land_spec, T, Z.pow2_bits_true; auto).
    rewrite H, Z.bits_0 in B. discriminate.
  - apply Z.eqb_eq. apply Z.bits_inj'. intros n Hn. rewrite Z.land_spec, Z.bits_0.
    destruct (Z.eq_dec n i) as [->|N]; [now rewrite T|]. rewrite Z.pow2_bits_false by lia. apply andb_false_r.
Qed.

Lemma glib_level_spec level i : glib_severity level i ->
  glib_level level = if i =? 5 then 6 else if i =? 6 then 6 else i.
Proof.
  intros (Hi & Ht & Hl). unfold glib_level.
  rewrite (land_bit level 2 4), (land_bit level 3 8), (land_bit level 4 16), (land_bit level 5 32), (land_bit level 6 64), (land_bit level 7 128) by (try lia; reflexivity).
  rewrite !negb_involutive.
  assert (i = 2 \/ i = 3 \/ i = 4 \/ i = 5 \/ i = 6 \/ i = 7) as [-> | [-> | [-> | [-> | [-> | ->]]]]] by lia;
    rewrite Ht, ?(Hl 2), ?(Hl 3), ?(Hl 4), ?(Hl 5), ?(Hl 6) by lia; reflexivity.
Qed.

Lemma log_str_emits u master tag x p tag' y : 0 <= u <= 7 -> log_str u master tag x = [Log p tag' y] -> p = u /\ u <= master.
Proof.
  intros H. unfold log_str. change 7 with (Z.ones 3). rewrite Z.land_ones by lia. rewrite Z.mod_small by (change (2 ^ 3) with 8; lia).
  destruct (Z.leb_spec u master); [|discriminate]. intros E. assert (p = u) by congruence. auto.
Qed.

Lemma log_str_ok u master tag x : 0 <= u <= 7 -> u <= master -> log_str u master tag x = [Log u tag x].
Proof.
  intros H L. unfold log_str. change 7 with (Z.ones 3). rewrite Z.land_ones by lia. rewrite Z.mod_small by (change (2 ^ 3) with 8; lia).
  destruct (Z.leb_spec u master); [reflexivity|lia].
Qed.

Theorem C56_glib : forall master da ma db mb a b i j, glib_severity a i -> glib_severity b j -> i <= j ->
  monotone (glog_func master da a ma) (glog_func master db b mb).
Proof.
  intros master da ma db mb a b i j Ha Hb Hij p tag x E.
  pose proof (proj1 Ha) as Ra. pose proof (proj1 Hb) as Rb.
  unfold glog_func in *. rewrite (glib_level_spec a i Ha). rewrite (glib_level_spec b j Hb) in E.
  set (u := if i =? 5 then 6 else if i =? 6 then 6 else i). set (v := if j =? 5 then 6 else if j =? 6 then 6 else j) in *.
  assert (Hu : 2 <= u <= v /\ v <= 7).
  { unfold u, v. destruct (Z.eqb_spec i 5), (Z.eqb_spec j 5), (Z.eqb_spec i 6), (Z.eqb_spec j 6); lia. }
  clearbody u v. cbn zeta in *. destruct (Z.eqb_spec v (-1)); [lia|]. destruct (Z.eqb_spec u (-1)); [lia|].
  destruct (Z.geb_spec master 0); [|discriminate]. cbn [negb andb] in *.
  destruct (log_str_emits v master _ _ _ _ _ ltac:(lia) E) as (-> & L).
  rewrite log_str_ok by lia. do 3 eexists. split; [reflexivity|]. lia.
Qed.

(** A word without level bits is not emitted, a word with one is when the cookie allows it. *)
Theorem C56_glib_emits : forall master d m level,
  ((forall i, ~ glib_severity level i) -> glog_func master d level m = []) /\
  (forall i, glib_severity level i -> 7 <= master ->
     exists p, glog_func master d level m = [Log p (match d with Some n => n | None => bytes_of_string "APP" end) m] /\ 2 <= p <= 7).
Proof.
  intros master d m level. split.
  - intros H. assert (B : forall i, 2 <= i <= 7 -> Z.testbit level i = false).
    { assert (K : forall n : nat, (n <= 7)%nat -> forall i, 2 <= i <= Z.of_nat n -> Z.testbit level i = false).
      { induction n as [|n IH]; intros Hn i Hi; [lia|]. destruct (Z_le_gt_dec i (Z.of_nat n)); [apply IH; lia|].
        destruct (Z.testbit level i) eqn:T; [|reflexivity]. exfalso. apply (H i). split; [lia|]. split; [exact T|].
        intros j Hj. apply IH; lia. }
      intros i Hi. apply (K 7%nat); lia. }
    unfold glog_func, glib_level.
    rewrite (land_bit level 2 4), (land_bit level 3 8), (land_bit level 4 16), (land_bit level 5 32), (land_bit level 6 64), (land_bit level 7 128) by (try lia; reflexivity).
    rewrite !B by lia. reflexivity.
  - intros i Hs HM. pose proof (proj1 Hs). unfold glog_func. rewrite (glib_level_spec level i Hs). cbn zeta.
    set (u := if i =? 5 then 6 else if i =? 6 then 6 else i).
    assert (Hu : 2 <= u <= 7). { unfold u. destruct (Z.eqb_spec i 5), (Z.eqb_spec i 6); lia. }
    clearbody u. destruct (Z.eqb_spec u (-1)); [lia|]. destruct (Z.geb_spec master 0); [|lia]. cbn [negb andb].
    exists u. rewrite log_str_ok by lia. split; [reflexivity|lia].
Qed.

(** GStreamer numbers its levels from 1 (error); the thresholds of the categories select before. *)
Theorem C56_gst : forall master ta tb ca cb stack la oa ma lb ob mb a b x y, 1 <= a <= b -> a <= ta ->
  gst_log_func master ta ca stack a la oa ma = Ok x -> gst_log_func master tb cb stack b lb ob mb = Ok y ->
  monotone x y.
Proof.
  intros master ta tb ca cb stack la oa ma lb ob mb a b x y H HT Ex Ey p tag t E. subst y.
  unfold gst_log_func in *. destruct (Z.gtb_spec b tb); [congruence|]. destruct (Z.gtb_spec a ta); [lia|]. cbn zeta in *.
  assert (G : 3 <= gst_level a <= gst_level b /\ gst_level b <= 7).
  { unfold gst_level. repeat match goal with |- context [?u =? ?v] => destruct (Z.eqb_spec u v) end;
    repeat match goal with |- context [?u >=? ?v] => destruct (Z.geb_spec u v) end; lia. }
  revert Ex Ey G. generalize (gst_level a) as u, (gst_level b) as v. intros u v Ex Ey G.
  destruct (Z.eqb_spec v (-1)); [lia|]. destruct (Z.eqb_spec u (-1)); [lia|].
  destruct (Z.geb_spec master 0); [|cbn in Ey; congruence]. cbn [negb andb] in *.
  destruct (gst_format stack la oa ma) as [f1|]; [|discriminate]. destruct (gst_format stack lb ob mb) as [f2|]; [|discriminate].
  cbn [bind] in *. assert (E : log_str v master (or_app cb) (cstr f2) = [Log p tag t]) by congruence.
  destruct (log_str_emits v master _ _ _ _ _ ltac:(lia) E) as (-> & L).
  assert (x = log_str u master (or_app ca) (cstr f1)) as -> by congruence.
  rewrite log_str_ok by lia. do 3 eexists. split; [reflexivity|]. lia.
Qed.

(** OBus has the levels 0 (critical) to 5 (debug). *)
Theorem C56_obus : forall master a b ta tb, 0 <= a <= b -> b <= 5 -> monotone (obus_func master a ta) (obus_func master b tb).
Proof.
  intros master a b ta tb H Hb p tag x E. unfold obus_func in *.
  replace (u32 (b - 0 + 2)) with (b + 2) in E by (unfold u32; rewrite Z.mod_small; lia).
  replace (u32 (a - 0 + 2)) with (a + 2) by (unfold u32; rewrite Z.mod_small; lia).
  destruct (log_str_emits _ master _ _ _ _ _ (ltac:(lia) : 0 <= b + 2 <= 7) E) as (-> & L).
  rewrite log_str_ok by lia. do 3 eexists. split; [reflexivity|]. lia.
Qed.

Example C56_ex : glib_severity 0x24 2 /\ glib_severity 0x82 7 /\
  glog_func 6 None 0x24 [65] = [Log 2 (bytes_of_string "APP") [65]] /\ glog_func 7 (Some [66]) 0x82 [65] = [Log 7 [66] [65]] /\
  gst_log_func 6 7 None (zrepeat 1 12) 3 [97] [60; 62] [65] = Ok [Log 4 (bytes_of_string "APP") [97; 60; 62; 58; 65]] /\
  obus_func 7 5 [65] = [Log 7 (bytes_of_string "obus") [65]].
Proof.
  split; [|split; [|repeat split]].
  - split; [lia|]. split; [reflexivity|]. intros j Hj. lia.
  - split; [lia|]. split; [reflexivity|]. intros j Hj. assert (j = 2 \/ j = 3 \/ j = 4 \/ j = 5 \/ j = 6) as [-> | [-> | [-> | [-> | ->]]]] by lia; reflexivity.
Qed.

(** ** C69 *)

(** The entry is location, object, colon and message, cut to the buffer; restricted to locations (file,
    line and function) that are not longer than the buffer. *)
Theorem C69_entry_partial : forall master threshold category stack level loc obj msg,
  zlen stack = ENTRY_LEN -> zlen loc <= ENTRY_LEN -> zlen obj <= 2147483647 ->
  ~ In 0 loc -> ~ In 0 obj -> ~ In 0 msg -> 1 <= level <= threshold -> 7 <= master ->
  exists p, gst_log_func master threshold category stack level loc obj msg =
    Ok [Log p (match category with Some c => c | None => bytes_of_string "APP" end) (ztake 2047 (loc ++ obj ++ [58] ++ msg))].
Proof.
  intros master threshold category stack level loc obj msg HS HL HO Nl No Nm Hv HM.
  destruct (gst_format_ok stack loc obj msg) as (q & E); [unfold ENTRY_LEN in *; lia|lia|lia|].
  unfold gst_log_func. destruct (Z.gtb_spec level threshold); [lia|]. cbn zeta.
  assert (G : 3 <= gst_level level <= 7).
  { unfold gst_level. repeat match goal with |- context [?u =? ?v] => destruct (Z.eqb_spec u v) end;
    repeat match goal with |- context [?u >=? ?v] => destruct (Z.geb_spec u v) end; lia. }
  exists (gst_level level). destruct (Z.eqb_spec (gst_level level) (-1)); [lia|]. destruct (Z.geb_spec master 0); [|lia]. cbn [negb andb].
  rewrite E. cbn [bind]. rewrite log_str_ok by lia. rewrite HS. change (ENTRY_LEN - 1) with 2047.
  rewrite cstr_nul; [reflexivity|]. unfold whole. intros HZ.
  assert (IN : In 0 (loc ++ obj ++ 58 :: msg)) by (unfold ztake in HZ; rewrite <- (firstn_skipn (Z.to_nat 2047)); apply in_or_app; now left).
  apply in_app_or in IN. destruct IN as [|IN]; [contradiction|]. apply in_app_or in IN. destruct IN as [|IN]; [contradiction|].
  destruct IN as [|IN]; [discriminate|contradiction].
Qed.

Example C69_ex : exists stack : list Z, zlen stack = ENTRY_LEN /\ zlen (bytes_of_string "a.c:12:f") <= ENTRY_LEN /\ ~ In 0 (bytes_of_string "a.c:12:f").
Proof. exists (zrepeat 0 2048). split; [reflexivity|]. split; [vm_compute; discriminate|]. vm_compute. intuition discriminate. Qed.

(** With a longer location every message that is emitted is written outside the buffer (the name of the
    function may be a long C++ signature). *)
Theorem C69_overflow_refuted : forall master threshold category stack level loc obj msg,
  zlen stack = ENTRY_LEN -> ENTRY_LEN < zlen loc <= 2147483647 -> 1 <= level <= threshold -> 0 <= master ->
  gst_log_func master threshold category stack level loc obj msg = Bug Oob.
Proof.
  intros master threshold category stack level loc obj msg HS HL Hv HM. unfold ENTRY_LEN in *.
  unfold gst_log_func. destruct (Z.gtb_spec level threshold); [lia|]. cbn zeta.
  assert (G : 3 <= gst_level level <= 7).
  { unfold gst_level. repeat match goal with |- context [?u =? ?v] => destruct (Z.eqb_spec u v) end;
    repeat match goal with |- context [?u >=? ?v] => destruct (Z.geb_spec u v) end; lia. }
  destruct (Z.eqb_spec (gst_level level) (-1)); [lia|]. destruct (Z.geb_spec master 0); [|lia]. cbn [negb andb].
  rewrite gst_format_oob by lia. reflexivity.
Qed.

Example C69_overflow_ex : ENTRY_LEN < zlen (zrepeat 97 2049) <= 2147483647 /\ zlen (zrepeat 0 2048) = ENTRY_LEN.
Proof. split; [vm_compute; split; [reflexivity|discriminate]|reflexivity]. Qed.

Print Assumptions C56_glib.
Print Assumptions C56_glib_emits.
Print Assumptions C56_gst.
Print Assumptions C56_obus.
Print Assumptions C69_entry_partial.
Print Assumptions C69_overflow_refuted.
