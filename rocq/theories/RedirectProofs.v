From Coq Require Import ZArith String List Bool Lia ZifyBool ZifyNat.
From Verif Require Import Bytes BytesProofs Redirect.
Import ListNotations.
Open Scope Z_scope.

Lemma size_small x : 0 <= x < 18446744073709551616 -> size_t x = x.
Proof. intros H. apply Z.mod_small. exact H. Qed.

(** The buffer after the snprintf at [off]. *)
Lemma snprintf_ok A R text size : zlen (A ++ R) - zlen A = size -> 0 <= size ->
  exists R', zlen (A ++ ztake (size - 1) text) + zlen R' = zlen (A ++ R) /\
    (0 < size -> exists q, R' = 0 :: q) /\ (size = 0 -> R' = []) /\
    snprintf (A ++ R) (zlen A) size text = Ok (zlen text, (A ++ ztake (size - 1) text) ++ R').
Proof.
  intros H S. rewrite zlen_app in *. pose proof (zlen_nonneg A). pose proof (zlen_nonneg text). unfold snprintf.
  destruct (Z.eqb_spec size 0) as [->|N].
  - assert (R = []) as -> by (apply zlen_zero_nil; lia). exists []. assert (ztake (0 - 1) text = []) as -> by reflexivity.
    rewrite !app_nil_r. change (zlen (@nil Z)) with 0 in *. repeat split; try lia. 
  - set (d := ztake (size - 1) text). assert (Ld : 0 <= zlen d <= size - 1) by (unfold d; rewrite zlen_ztake; lia).
    rewrite mem_write_ok by (rewrite ?zlen_app; change (zlen [0]) with 1; lia). cbn [bind].
    rewrite ztake_app_exact by reflexivity. rewrite zlen_app. change (zlen [0]) with 1.
    exists (0 :: zdrop (zlen d + 1) R). rewrite zlen_app, zlen_cons, zlen_zdrop. repeat split; try lia; [eexists; reflexivity|].
    change (zlen [0]) with 1. do 2 f_equal. rewrite <- !app_assoc. do 2 f_equal. cbn [app]. f_equal. rewrite zdrop_app by lia.
    rewrite zdrop_all by lia. cbn [app]. f_equal. lia.
Qed.

Lemma ztake_cut (A B : list Z) n m : n = m - zlen A -> zlen A <= m -> A ++ ztake n B = ztake m (A ++ B).
Proof. intros -> H. rewrite ztake_app, (ztake_all m A) by lia. reflexivity. Qed.

Lemma cstr_nul A q : ~ In 0 A -> cstr (A ++ 0 :: q) = A.
Proof.
  induction A as [|c A IH]; intros H; [reflexivity|]. cbn [cstr app].
  destruct (Z.eqb_spec c 0) as [->|]; [exfalso; apply H; now left|]. rewrite IH; [reflexivity|]. intros X; apply H; now right.
Qed.

Definition whole (loc obj msg : list Z) : list Z := loc ++ obj ++ 58 :: msg.

Lemma gst_format_ok stack loc obj msg : 0 < zlen stack <= 2147483647 -> zlen obj <= 2147483647 -> zlen loc <= zlen stack ->
  exists q, gst_format stack loc obj msg = Ok (ztake (zlen stack - 1) (whole loc obj msg) ++ 0 :: q).
Proof.
  intros HS HO HL. unfold gst_format. pose proof (zlen_nonneg loc) as L0. pose proof (zlen_nonneg obj) as O0. pose proof (zlen_nonneg msg) as M0.
  set (n := zlen stack) in *. cbn zeta. rewrite (size_small (n - 0)) by lia.
  destruct (snprintf_ok [] stack loc (n - 0)) as (R1 & H1 & HR1 & HR1' & E1); [change (zlen (@nil Z)) with 0; cbn [app]; fold n; lia|lia|].
  change (zlen (@nil Z)) with 0 in E1. cbn [app] in E1, H1. fold n in H1. rewrite E1. cbn [bind].
  replace (if zlen loc >? 0 then 0 + zlen loc else 0) with (zlen loc) by (destruct (Z.gtb_spec (zlen loc) 0); lia).
  destruct (HR1 ltac:(lia)) as (q1 & ->). clear HR1 HR1' E1. rewrite zlen_ztake in H1.
  rewrite (size_small (n - zlen loc)) by lia.
  destruct (Z.eq_dec (zlen loc) n) as [Full|NF].
  { (* the location just fills the buffer: nothing more is written *)
    replace (n - zlen loc) with 0 by lia. unfold prettify_object, snprintf. cbn [Z.eqb bind].
    destruct (Z.ltb_spec (zlen obj) 0); [lia|]. rewrite (size_small (zlen obj)) by lia. destruct (Z.geb_spec (zlen obj) 0); [|lia].
    change (s32 (size_t (0 - 1))) with (-1). cbn [bind].
    change (if -1 >? 0 then zlen loc + -1 else zlen loc) with (zlen loc). replace (n - zlen loc) with 0 by lia.
    change (size_t 0) with 0. cbn [Z.eqb bind]. exists q1. do 2 f_equal. unfold whole. rewrite ztake_app.
    replace (n - 0 - 1) with (n - 1) by lia. rewrite (ztake_nonpos (n - 1 - zlen loc)) by lia. now rewrite app_nil_r. }
  rewrite (ztake_all _ loc) in * by lia.
  destruct (snprintf_ok loc (0 :: q1) obj (n - zlen loc)) as (R2 & H2 & HR2 & HR2' & E2); [rewrite zlen_app; lia|lia|].
  unfold prettify_object. rewrite E2. cbn [bind]. destruct (Z.ltb_spec (zlen obj) 0); [lia|]. rewrite (size_small (zlen obj)) by lia.
  rewrite (size_small (n - zlen loc - 1)) by lia.
  assert (S32 : s32 (n - zlen loc - 1) = n - zlen loc - 1).
  { unfold s32. rewrite Z.mod_small by lia. destruct (Z.ltb_spec (n - zlen loc - 1) 2147483648); lia. }
  rewrite S32. destruct (HR2 ltac:(lia)) as (q2 & ->). clear HR2 HR2' E2.
  set (d := ztake (n - zlen loc - 1) obj) in *. assert (Ld : zlen d = Z.min (n - zlen loc - 1) (zlen obj)) by (unfold d; rewrite zlen_ztake; lia).
  assert (EO : (if (if zlen obj >=? n - zlen loc then n - zlen loc - 1 else zlen obj) >? 0
                then zlen loc + (if zlen obj >=? n - zlen loc then n - zlen loc - 1 else zlen obj) else zlen loc) = zlen (loc ++ d)).
  { rewrite zlen_app, Ld. destruct (Z.geb_spec (zlen obj) (n - zlen loc)).
    - destruct (Z.gtb_spec (n - zlen loc - 1) 0); lia.
    - destruct (Z.gtb_spec (zlen obj) 0); lia. }
  cbn [bind]. rewrite EO. rewrite zlen_app in H2.
  rewrite (size_small (n - zlen (loc ++ d))) by (rewrite zlen_app; lia).
  destruct (snprintf_ok (loc ++ d) (0 :: q2) (58 :: msg) (n - zlen (loc ++ d))) as (R3 & H3 & HR3 & _ & E3); [rewrite !zlen_app in *; lia|rewrite zlen_app; lia|].
  rewrite E3. cbn [bind]. destruct (HR3 ltac:(rewrite zlen_app; lia)) as (q3 & ->). exists q3. do 2 f_equal.
  rewrite (ztake_cut (loc ++ d) _ _ (n - 1)) by (rewrite ?zlen_app; lia).
  unfold whole. rewrite <- app_assoc. rewrite !(ztake_app (n - 1) loc), !(ztake_all (n - 1) loc) by lia. f_equal.
  destruct (Z_le_gt_dec (zlen obj) (n - zlen loc - 1)).
  - unfold d. rewrite (ztake_all _ obj) by lia. reflexivity.
  - rewrite !ztake_app. rewrite !(ztake_nonpos (n - 1 - zlen loc - _)) by lia. rewrite !app_nil_r.
    unfold d. rewrite ztake_ztake. f_equal. lia.
Qed.

Lemma gst_format_oob stack loc obj msg : 0 < zlen stack <= 2147483647 -> zlen stack < zlen loc <= 2147483647 ->
  gst_format stack loc obj msg = Bug Oob.
Proof.
  intros HS HL. unfold gst_format. set (n := zlen stack) in *. cbn zeta. rewrite (size_small (n - 0)) by lia.
  destruct (snprintf_ok [] stack loc (n - 0)) as (R1 & H1 & _ & _ & E1); [change (zlen (@nil Z)) with 0; cbn [app]; fold n; lia|lia|].
  change (zlen (@nil Z)) with 0 in E1. cbn [app] in E1, H1. fold n in H1. rewrite E1. cbn [bind].
  destruct (Z.gtb_spec (zlen loc) 0); [|lia]. unfold prettify_object, snprintf.
  assert (SZ : size_t (n - (0 + zlen loc)) = n - zlen loc + 18446744073709551616).
  { unfold size_t. symmetry. apply (Z.mod_unique_pos _ _ (-1)); lia. }
  rewrite SZ. destruct (Z.eqb_spec (n - zlen loc + 18446744073709551616) 0); [lia|].
  unfold mem_write. rewrite !zlen_app, H1. change (zlen [0]) with 1.
  match goal with |- context [zlen (ztake ?a obj)] => pose proof (zlen_nonneg (ztake a obj)) end.
  match goal with |- context [?a <=? n] => destruct (Z.leb_spec a n); [lia|] end. rewrite andb_false_r. reflexivity.
Qed.
