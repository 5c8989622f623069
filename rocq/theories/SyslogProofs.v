From Coq Require Import ZArith String List Bool Lia ZifyBool ZifyNat.
From Verif Require Import Bytes BytesProofs Syslog.
From Verif Require Writer.
Import ListNotations.
Open Scope Z_scope.

(** ** The level of a mask *)

Lemma mask_loop_log2 : forall fuel m l, 0 <= m < 4294967296 -> m < 2 ^ (Z.of_nat fuel - 1) ->
  mask_loop fuel m l = Ok (if m =? 0 then l else l + 1 + Z.log2 m).
Proof.
  induction fuel as [|fuel IH]; intros m l H F.
  - change (2 ^ (Z.of_nat 0 - 1)) with 0 in F. lia.
  - cbn [mask_loop]. destruct (Z.eqb_spec m 0) as [->|N]; [reflexivity|].
    rewrite Z.shiftr_div_pow2 by lia. unfold u32. rewrite Z.mod_small by lia. change (2 ^ 1) with 2.
    assert (0 <= m / 2 < 4294967296) by (split; [apply Z.div_pos; lia|apply Z.div_lt_upper_bound; lia]).
    destruct fuel as [|fuel].
    { change (2 ^ (Z.of_nat 1 - 1)) with 1 in F. lia. }
    rewrite IH; [|assumption|].
    + destruct (Z.eqb_spec (m / 2) 0) as [E|E].
      * assert (m = 1) as -> by (pose proof (Z.div_mod m 2); pose proof (Z.mod_pos_bound m 2); lia). f_equal. change (Z.log2 1) with 0. lia.
      * f_equal. assert (Z.log2 m = Z.succ (Z.log2 (m / 2))); [|lia].
        pose proof (Z.log2_spec (m / 2) ltac:(lia)) as [L1 L2]. apply Z.log2_unique; [pose proof (Z.log2_nonneg (m / 2)); lia|].
        pose proof (Z.log2_nonneg (m / 2)). rewrite Z.pow_succ_r in * by lia. rewrite (Z.pow_succ_r 2 (Z.succ (Z.log2 (m / 2)))) by lia.
        rewrite (Z.pow_succ_r 2 (Z.log2 (m / 2))) by lia.
        pose proof (Z.div_mod m 2). pose proof (Z.mod_pos_bound m 2). lia.
    + apply Z.div_lt_upper_bound; [lia|]. replace (Z.of_nat (S (S fuel)) - 1) with (Z.succ (Z.of_nat (S fuel) - 1)) in F by lia.
      rewrite Z.pow_succ_r in F by lia. exact F.
Qed.

(** The level after setlogmask with a mask of 32 bits (as an int, so maybe negative). *)
Lemma mask_loop_int m : -2147483648 <= m < 2147483648 ->
  mask_loop 34 m (-1) = Ok (if m =? 0 then -1 else Z.log2 (u32 m)).
Proof.
  intros H. destruct (Z_le_gt_dec 0 m) as [P|P].
  - rewrite mask_loop_log2; [|lia|change (2 ^ (Z.of_nat 34 - 1)) with 8589934592; lia].
    unfold u32. rewrite Z.mod_small by lia. destruct (m =? 0); [reflexivity|]. f_equal; lia.
  - change (mask_loop 34 m (-1)) with (if m =? 0 then Ok (-1) else mask_loop 33 (Z.shiftr (u32 m) 1) (-1 + 1)).
    destruct (Z.eqb_spec m 0); [lia|].
    assert (E : u32 m = m + 4294967296).
    { unfold u32. symmetry. apply (Z.mod_unique_pos _ _ (-1)); lia. }
    rewrite E, Z.shiftr_div_pow2 by lia. change (2 ^ 1) with 2.
    assert (B : 1073741824 <= (m + 4294967296) / 2 < 2147483648)
      by (split; [apply Z.div_le_lower_bound; lia|apply Z.div_lt_upper_bound; lia]).
    assert (L1 : Z.log2 ((m + 4294967296) / 2) = 30) by (apply Z.log2_unique; change (2 ^ 30) with 1073741824; change (2 ^ Z.succ 30) with 2147483648; lia).
    assert (L2 : Z.log2 (m + 4294967296) = 31) by (apply Z.log2_unique; change (2 ^ 31) with 2147483648; change (2 ^ Z.succ 31) with 4294967296; lia).
    rewrite mask_loop_log2; [|lia|change (2 ^ (Z.of_nat 33 - 1)) with 4294967296; lia].
    destruct (Z.eqb_spec ((m + 4294967296) / 2) 0); [lia|]. rewrite L1, L2. reflexivity.
Qed.

(** ** The formatted message *)

Lemma vformat_conv fmt ap x r : vformat fmt ap = Some (x, r) -> length ap = (length (filter (fun i => match i with Conv => true | _ => false end) fmt) + length r)%nat.
Proof.
  revert ap x r. induction fmt as [|[s|] fmt IH]; cbn [vformat filter length]; intros ap x r H.
  - assert (ap = r) by congruence. now subst.
  - destruct (vformat fmt ap) as [[y q]|] eqn:E; [|discriminate]. assert (q = r) by congruence. subst. eauto.
  - destruct ap as [|a ap]; [discriminate|]. destruct (vformat fmt ap) as [[y q]|] eqn:E; [|discriminate].
    assert (q = r) by congruence. subst. cbn [length]. rewrite (IH _ _ _ E). lia.
Qed.

Lemma vformat_short fmt ap : (length ap < length (filter (fun i => match i with Conv => true | _ => false end) fmt))%nat -> vformat fmt ap = None.
Proof.
  intros H. destruct (vformat fmt ap) as [[x r]|] eqn:E; [|reflexivity]. pose proof (vformat_conv _ _ _ _ E). lia.
Qed.

Lemma vformat_lit fmt ap x r : Forall (fun i => i <> Conv) fmt -> vformat fmt ap = Some (x, r) -> r = ap /\ vformat fmt r = Some (x, r).
Proof.
  intros F. revert ap x r. induction F as [|i fmt Hi F IH]; cbn [vformat]; intros ap x r H.
  - assert (ap = r) by congruence. assert (x = []) by congruence. now subst.
  - destruct i as [s|]; [|congruence]. destruct (vformat fmt ap) as [[y q]|] eqn:E; [|discriminate].
    destruct (IH _ _ _ E) as (-> & E2). assert (r = ap) by congruence. subst r. now rewrite E2.
Qed.

Lemma vlog_fits e long stack fmt ap text r : vformat fmt ap = Some (text, r) -> zlen text < zlen stack -> zlen stack <= 2147483647 ->
  vlog_notruncate e long stack fmt ap = Ok (Some (text ++ [0])).
Proof.
  intros E L L2. unfold vlog_notruncate. rewrite E. unfold Writer.vsnprintf. pose proof (zlen_nonneg text).
  destruct (Z.gtb_spec (zlen text) 2147483647); [lia|]. rewrite ztake_all by lia.
  rewrite mem_write_ok by (rewrite ?zlen_app; change (zlen [0]) with 1; lia). cbn [bind].
  destruct (Z.ltb_spec (zlen text) 0); [lia|]. destruct (Z.ltb_spec (zlen text) (zlen stack)); [|lia].
  rewrite ztake_0. cbn [app]. rewrite mem_read_ok by (rewrite ?zlen_app, ?zlen_zdrop, ?zlen_app; change (zlen [0]) with 1; lia).
  cbn [bind]. do 2 f_equal. unfold zsub. rewrite zdrop_0. rewrite ztake_app_exact; [reflexivity|rewrite zlen_app; reflexivity].
Qed.

Lemma vlog_cut e stack fmt ap text r : vformat fmt ap = Some (text, r) -> 0 < zlen stack <= zlen text -> zlen text <= 2147483647 ->
  vlog_notruncate e false stack fmt ap = Ok (Some (ztake (zlen stack - 1) text ++ [0])).
Proof.
  intros E L L2. unfold vlog_notruncate. rewrite E. unfold Writer.vsnprintf.
  destruct (Z.gtb_spec (zlen text) 2147483647); [lia|].
  assert (LD : zlen (ztake (zlen stack - 1) text ++ [0]) = zlen stack) by (rewrite zlen_app, zlen_ztake; change (zlen [0]) with 1; lia).
  rewrite mem_write_ok by lia. cbn [bind].
  destruct (Z.ltb_spec (zlen text) 0); [lia|]. destruct (Z.ltb_spec (zlen text) (zlen stack)); [lia|]. cbn [negb].
  rewrite ztake_0. cbn [app]. rewrite zdrop_all, app_nil_r by lia. rewrite mem_read_ok by lia.
  cbn [bind]. do 2 f_equal. unfold zsub. rewrite zdrop_0. apply ztake_all. lia.
Qed.

Lemma vlog_long e c stack fmt ap text r : vformat fmt ap = Some (text, r) -> zlen stack <= zlen text -> zlen text <= 2147483647 ->
  0 < zlen stack -> e_malloc e = Some c ->
  vlog_notruncate e true stack fmt ap =
  match vformat fmt r with
  | None => Bug Oob
  | Some (t2, _) => let* mbuf := mem_write (zrepeat c (zlen text + 1)) 0 (t2 ++ [0]) in let* b := mem_read mbuf 0 (zlen text + 1) in Ok (Some b)
  end.
Proof.
  intros E L L2 L3 HM. unfold vlog_notruncate. rewrite E. unfold Writer.vsnprintf.
  destruct (Z.gtb_spec (zlen text) 2147483647); [lia|].
  rewrite mem_write_ok by (rewrite ?zlen_app, ?zlen_ztake; change (zlen [0]) with 1; lia). cbn [bind].
  destruct (Z.ltb_spec (zlen text) 0); [lia|]. destruct (Z.ltb_spec (zlen text) (zlen stack)); [lia|]. cbn [negb].
  rewrite HM. reflexivity.
Qed.

(** ** The level and the name are kept *)

Definition not_mask (o : op) : Prop := match o with OMask _ => False | _ => True end.

Lemma step_keeps e s o s' ev : not_mask o -> step e s o = Ok (s', ev) ->
  (0 <= y_level s -> y_level s' = y_level s) /\ (y_init s = true -> y_init s' = true /\ y_name s' = y_name s).
Proof.
  intros N E. assert (LB : forall s p d, let q := fst (log_buf e s p d) in
     y_init q = y_init s /\ y_name q = y_name s /\ (0 <= y_level s -> y_level q = y_level s)).
  { clear. intros s p d. unfold log_buf. cbn [fst]. destruct (Z.ltb_spec (y_level s) 0); cbn [y_init y_name y_level]; repeat split; lia. }
  assert (DI : forall i, let q := do_init e s i in (y_level q = y_level s) /\ (y_init s = true -> y_init q = true /\ y_name q = y_name s)).
  { intros i. unfold do_init. destruct (y_init s) eqn:I; cbn [y_init y_name y_level]; auto. split; [reflexivity|discriminate]. }
  destruct o as [i k|st p f a|m|]; [| |destruct N|].
  - cbn [step] in E. assert (Q : openlog e s i k = (s', ev)) by congruence. clear E. unfold openlog in Q.
    destruct (DI i) as (D1 & D2). destruct (Z.land k 8 =? 0).
    + assert (s' = do_init e s i) by congruence. subst s'. split; [intros; exact D1|exact D2].
    + assert (s' = fst (log_buf e (do_init e s i) 6 (bytes_of_string "redirecting syslog to ulog" ++ [0]))) by (rewrite Q; reflexivity).
      subst s'. destruct (LB (do_init e s i) 6 (bytes_of_string "redirecting syslog to ulog" ++ [0])) as (L1 & L2 & L3). rewrite L1, L2.
      split; [intros; rewrite L3 by lia; exact D1|exact D2].
  - cbn [step] in E. unfold syslog in E. destruct (DI None) as (D1 & D2).
    destruct (vlog_notruncate e (y_long (do_init e s None)) st f a) as [[d|]|]; [| |discriminate]; cbn [bind] in E.
    + assert (s' = fst (log_buf e (do_init e s None) (Z.land p 7) d)) by (destruct (log_buf e (do_init e s None) (Z.land p 7) d); cbn; congruence).
      subst s'. destruct (LB (do_init e s None) (Z.land p 7) d) as (L1 & L2 & L3). rewrite L1, L2.
      split; [intros; rewrite L3 by lia; exact D1|exact D2].
    + assert (s' = do_init e s None) by congruence. subst s'. split; [intros; exact D1|exact D2].
  - cbn [step] in E. assert (s' = s) by congruence. subst. auto.
Qed.

Lemma run_keeps e ops : forall s s' ev, Forall not_mask ops -> run e s ops = Ok (s', ev) ->
  (0 <= y_level s -> y_level s' = y_level s) /\ (y_init s = true -> y_init s' = true /\ y_name s' = y_name s).
Proof.
  induction ops as [|o ops IH]; intros s s' ev F E; cbn [run] in E.
  - assert (s' = s) by congruence. subst. auto.
  - destruct (step e s o) as [[s1 e1]|] eqn:E1; [|discriminate]. cbn [bind] in E.
    destruct (run e s1 ops) as [[s2 e2]|] eqn:E2; [|discriminate]. cbn [bind] in E. assert (s' = s2) by congruence. subst s'.
    destruct (step_keeps e s o s1 e1 (Forall_inv F) E1) as (A1 & A2). destruct (IH s1 s2 e2 (Forall_inv_tail F) E2) as (B1 & B2).
    split; [intros; rewrite B1 by (rewrite A1; lia); auto|]. intros H. destruct (A2 H) as (I1 & I2). destruct (B2 I1) as (J1 & J2). split; congruence.
Qed.
