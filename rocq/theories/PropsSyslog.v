(** C55: setlogmask of the syslog wrapper; C70: messages of the wrapper; C71: openlog. *)
From Coq Require Import ZArith String List Bool Lia ZifyBool ZifyNat.
From Verif Require Import Bytes BytesProofs Syslog SyslogProofs.
Import ListNotations.
Open Scope Z_scope.

(** ** Specification *)

(** <syslog.h>: the mask of all priorities up to [p]. *)
Definition LOG_UPTO (p : Z) : Z := 2 ^ (p + 1) - 1.

(** The messages among the events. *)
Definition emitted (evs : list event) : list event := filter (fun e => match e with Emit _ _ _ => true | _ => false end) evs.

(** The text of a format with its arguments, as ISO C defines it. *)
Inductive prints : list item -> list (list Z) -> list Z -> Prop :=
  | p_nil : prints [] [] []
  | p_lit s fmt ap x : prints fmt ap x -> prints (Lit s :: fmt) ap (s ++ x)
  | p_conv a fmt ap x : prints fmt ap x -> prints (Conv :: fmt) (a :: ap) (a ++ x).

Lemma prints_vformat fmt ap x : prints fmt ap x -> vformat fmt ap = Some (x, []).
Proof. induction 1; cbn [vformat]; rewrite ?IHprints; auto. Qed.

(** ** C55 *)

(** After setlogmask with any mask but 0, whatever was done before and with any calls but setlogmask in
    between, a message is emitted exactly if its priority is at most that of the highest bit of the
    mask, when it is between 2 (critical) and 7 (debug); and the next setlogmask gives that mask back,
    filled up. Restricted to those priorities: see below. *)
Theorem C55_mask_partial : forall e s m s1 ev1 ops s2 ev2 stack prio fmt ap text m2, -2147483648 <= m < 2147483648 ->
  -2147483648 <= m2 < 2147483648 ->
  m <> 0 -> 2 <= Z.log2 (u32 m) <= 7 ->
  step e s (OMask m) = Ok (s1, ev1) -> Forall (fun o => forall k, o <> OMask k) ops -> run e s1 ops = Ok (s2, ev2) ->
  prints fmt ap text -> zlen stack = 256 -> zlen text <= 255 ->
  (exists s3, step e s2 (OLog stack prio fmt ap) =
    Ok (s3, if prio mod 8 <=? Z.log2 (u32 m) then [Emit (prio mod 8) (y_name s2) (text ++ [0])] else [])) /\
  (exists s3, step e s2 (OMask m2) = Ok (s3, [Ret (LOG_UPTO (Z.log2 (u32 m)))])).
Proof.
  intros e s m s1 ev1 ops s2 ev2 stack prio fmt ap text m2 Hm Hm2 Hm0 HL E1 HO E2 HP HS HT.
  cbn [step] in E1. unfold setlogmask in E1. rewrite (mask_loop_int m Hm) in E1. destruct (Z.eqb_spec m 0) as [|_]; [contradiction|]. cbn [bind] in E1.
  set (L := Z.log2 (u32 m)) in *. clearbody L.
  replace (if L <? 2 then 2 else if L >? 7 then 7 else L) with L in E1 by (destruct (Z.ltb_spec L 2), (Z.gtb_spec L 7); lia).
  assert (S1 : s1 = set_level (do_init e s None) L) by congruence.
  assert (YL : y_level s1 = L).
  { subst s1. unfold set_level. cbn [y_level]. destruct (Z.ltb_spec L 0); [lia|]. destruct (Z.gtb_spec L 7); lia. }
  assert (HO' : Forall not_mask ops).
  { eapply Forall_impl; [|exact HO]. intros o Ho. destruct o; cbn; auto. exact (Ho mask eq_refl). }
  assert (YI : y_init s1 = true). { subst s1. unfold set_level, do_init. cbn [y_init]. destruct (y_init s) eqn:I; [exact I|reflexivity]. }
  destruct (run_keeps e ops s1 s2 ev2 HO' E2) as (K1 & K2). destruct (K2 YI) as (I2 & _). specialize (K1 ltac:(lia)). rewrite YL in K1.
  assert (D : do_init e s2 None = s2) by (unfold do_init; now rewrite I2). split.
  - cbn [step]. unfold syslog. rewrite D. rewrite (vlog_fits e _ stack fmt ap text [] (prints_vformat _ _ _ HP)) by lia. cbn [bind].
    unfold log_buf. rewrite K1. destruct (Z.ltb_spec L 0); [lia|].
    replace (Z.land prio 7) with (prio mod 8) by (change 7 with (Z.ones 3); rewrite Z.land_ones by lia; reflexivity).
    replace (Z.land (prio mod 8) 7) with (prio mod 8) by (change 7 with (Z.ones 3); rewrite Z.land_ones by lia; change (2 ^ 3) with 8; rewrite Z.mod_mod by lia; reflexivity).
    rewrite K1. eexists; reflexivity.
  - cbn [step]. unfold setlogmask. rewrite D, (mask_loop_int m2 Hm2). cbn [bind]. rewrite K1. rewrite Z.shiftl_mul_pow2, Z.mul_1_l by lia.
    eexists; reflexivity.
Qed.

(** In particular for LOG_UPTO: emitted exactly if in the mask. *)
Theorem C55_upto_partial : forall e s p s1 ev1 ops s2 ev2 stack prio fmt ap text m2, 2 <= p <= 7 ->
  -2147483648 <= m2 < 2147483648 ->
  step e s (OMask (LOG_UPTO p)) = Ok (s1, ev1) -> Forall (fun o => forall k, o <> OMask k) ops -> run e s1 ops = Ok (s2, ev2) ->
  prints fmt ap text -> zlen stack = 256 -> zlen text <= 255 ->
  (exists s3, step e s2 (OLog stack prio fmt ap) =
    Ok (s3, if Z.testbit (LOG_UPTO p) (prio mod 8) then [Emit (prio mod 8) (y_name s2) (text ++ [0])] else [])) /\
  (exists s3, step e s2 (OMask m2) = Ok (s3, [Ret (LOG_UPTO p)])).
Proof.
  intros e s p s1 ev1 ops s2 ev2 stack prio fmt ap text m2 Hp Hm2 E1 HO E2 HP HS HT.
  assert (Hb : 7 <= LOG_UPTO p <= 255).
  { unfold LOG_UPTO. assert (p = 2 \/ p = 3 \/ p = 4 \/ p = 5 \/ p = 6 \/ p = 7) as [-> | [-> | [-> | [-> | [-> | ->]]]]] by lia; cbv; split; discriminate. }
  assert (HL : Z.log2 (u32 (LOG_UPTO p)) = p).
  { unfold u32. rewrite Z.mod_small by lia. unfold LOG_UPTO. replace (2 ^ (p + 1) - 1) with (Z.pred (2 ^ (p + 1))) by lia. rewrite Z.log2_pred_pow2; lia. }
  destruct (C55_mask_partial e s (LOG_UPTO p) s1 ev1 ops s2 ev2 stack prio fmt ap text m2) as (A & B); auto; try lia.
  rewrite HL in *. split; [|exact B].
  replace (Z.testbit (LOG_UPTO p) (prio mod 8)) with (prio mod 8 <=? p); [exact A|].
  unfold LOG_UPTO. replace (2 ^ (p + 1) - 1) with (Z.ones (p + 1)) by (rewrite Z.ones_equiv; lia). pose proof (Z.mod_pos_bound prio 8 ltac:(lia)).
  destruct (Z.leb_spec (prio mod 8) p); [rewrite Z.ones_spec_low by lia|rewrite Z.ones_spec_high by lia]; reflexivity.
Qed.

Definition ex_env : env := mkEnv true 6 (Some 170).
Definition ex_stack : list Z := zrepeat 0 256.
Definition hello : list item := [Lit (bytes_of_string "user "); Conv].
Example C55_ex : exists s1 ev1 s2 ev2, step ex_env init (OMask (LOG_UPTO 4)) = Ok (s1, ev1) /\
  run ex_env s1 [OOpen (Some (bytes_of_string "d")) 8; OLog ex_stack 3 hello [bytes_of_string "bob"]] = Ok (s2, ev2) /\
  emitted ev2 = [Emit 3 [] (bytes_of_string "user bob" ++ [0])] /\
  prints hello [bytes_of_string "eve"] (bytes_of_string "user eve") /\ LOG_UPTO 4 = 31.
Proof.
  do 4 eexists. split; [vm_compute; reflexivity|]. split; [vm_compute; reflexivity|]. split; [vm_compute; reflexivity|].
  split; [|reflexivity]. change (bytes_of_string "user eve") with (bytes_of_string "user " ++ bytes_of_string "eve" ++ []). repeat constructor.
Qed.

(** setlogmask(0) asks for the mask only, but lowers the level to critical: the notice is not emitted
    any more. *)
Theorem C55_zero_refuted : exists s1 s2 s3,
  step ex_env init (OMask (LOG_UPTO 6)) = Ok (s1, [Ret 0]) /\ step ex_env s1 (OMask 0) = Ok (s2, [Ret (LOG_UPTO 6)]) /\
  step ex_env s2 (OLog ex_stack 5 hello [[]]) = Ok (s3, []).
Proof. do 3 eexists. split; [vm_compute; reflexivity|]. split; vm_compute; reflexivity. Qed.

(** The masks of the emergency and alert priorities do not hide critical messages. *)
Theorem C55_low_refuted : exists s1 s2,
  step ex_env init (OMask (LOG_UPTO 0)) = Ok (s1, [Ret 0]) /\ Z.testbit (LOG_UPTO 0) 2 = false /\
  step ex_env s1 (OLog ex_stack 2 [Lit [65]] []) = Ok (s2, [Emit 2 [] [65; 0]]).
Proof. do 2 eexists. split; [vm_compute; reflexivity|]. split; vm_compute; reflexivity. Qed.

(** Before any message, the mask that is given back is empty although informational messages would
    have been emitted. *)
Theorem C55_first_refuted : exists s1 s2,
  step ex_env init (OMask (LOG_UPTO 7)) = Ok (s1, [Ret 0]) /\
  step ex_env init (OLog ex_stack 6 [Lit [65]] []) = Ok (s2, [Emit 6 [] [65; 0]]).
Proof. do 2 eexists. split; vm_compute; reflexivity. Qed.

(** ** C70 *)

(** Without long messages: the first 255 bytes. With them: the whole text, but proved only for texts of
    at most 255 bytes and for formats without conversions. *)
Theorem C70_text_partial : forall e stack fmt ap text, prints fmt ap text -> zlen stack = 256 -> zlen text <= 2147483647 ->
  vlog_notruncate e false stack fmt ap = Ok (Some (ztake 255 text ++ [0])) /\
  (zlen text <= 255 -> vlog_notruncate e true stack fmt ap = Ok (Some (text ++ [0]))) /\
  (e_malloc e <> None -> ap = [] -> vlog_notruncate e true stack fmt ap = Ok (Some (text ++ [0]))).
Proof.
  intros e stack fmt ap text HP HS HT. pose proof (prints_vformat _ _ _ HP) as HV. split; [|split].
  - destruct (Z_lt_ge_dec (zlen text) 256).
    + rewrite (vlog_fits e false stack fmt ap text [] HV) by lia. rewrite ztake_all by lia. reflexivity.
    + rewrite (vlog_cut e stack fmt ap text [] HV) by lia. rewrite HS. reflexivity.
  - intros L. rewrite (vlog_fits e true stack fmt ap text [] HV) by lia. reflexivity.
  - intros HM HN. destruct (Z_lt_ge_dec (zlen text) 256); [rewrite (vlog_fits e true stack fmt ap text [] HV) by lia; reflexivity|].
    destruct (e_malloc e) as [c|] eqn:M; [|contradiction]. rewrite (vlog_long e c stack fmt ap text [] HV) by (auto; lia).
    subst ap. rewrite HV. pose proof (zlen_nonneg text).
    assert (LZ : zlen (zrepeat c (zlen text + 1)) = zlen text + 1) by (rewrite zlen_zrepeat; lia).
    assert (LT : zlen (text ++ [0]) = zlen text + 1) by (rewrite zlen_app; reflexivity).
    rewrite mem_write_ok by lia. cbn [bind]. rewrite ztake_0, LT. cbn [app]. rewrite zdrop_all, app_nil_r by lia.
    rewrite mem_read_ok by lia. cbn [bind]. unfold zsub. rewrite zdrop_0, ztake_all by lia. reflexivity.
Qed.

Example C70_ex : prints [Lit (zrepeat 97 300)] [] (zrepeat 97 300 ++ []) /\ zlen (zrepeat 97 300 ++ []) = 300 /\
  prints hello [bytes_of_string "bob"] (bytes_of_string "user " ++ bytes_of_string "bob" ++ []).
Proof. repeat split; repeat constructor. Qed.

(** With long messages every message of at least 256 bytes with a conversion reads arguments that do
    not exist: the argument list is used a second time. *)
Theorem C70_long_refuted : forall e stack fmt ap text, prints fmt ap text -> zlen stack = 256 ->
  256 <= zlen text <= 2147483647 -> e_malloc e <> None -> ap <> [] ->
  vlog_notruncate e true stack fmt ap = Bug Oob.
Proof.
  intros e stack fmt ap text HP HS HT HM HN. pose proof (prints_vformat _ _ _ HP) as HV.
  destruct (e_malloc e) as [c|] eqn:M; [|contradiction]. rewrite (vlog_long e c stack fmt ap text [] HV) by (auto; lia).
  rewrite vformat_short; [reflexivity|]. pose proof (vformat_conv _ _ _ _ HV) as L. cbn [length] in *.
  destruct ap; [contradiction|]. cbn [length] in L. lia.
Qed.

Example C70_long_ex : prints [Conv] [zrepeat 97 256] (zrepeat 97 256 ++ []) /\ zlen (zrepeat 97 256 ++ []) = 256.
Proof. repeat split; repeat constructor. Qed.

(** ** C71 *)

(** openlog names the messages that follow; restricted to an openlog before any other call. *)
Theorem C71_ident_partial : forall e ident k ops s ev stack prio fmt ap s' p tag data,
  run e init (OOpen (Some ident) k :: ops) = Ok (s, ev) -> Forall (fun o => forall k, o <> OMask k) ops ->
  step e s (OLog stack prio fmt ap) = Ok (s', [Emit p tag data]) -> tag = ident.
Proof.
  intros e ident k ops s ev stack prio fmt ap s' p tag data E HO E2. cbn [run] in E.
  destruct (step e init (OOpen (Some ident) k)) as [[s1 e1]|] eqn:E1; [|discriminate]. cbn [bind] in E.
  destruct (run e s1 ops) as [[s2 e2]|] eqn:E3; [|discriminate]. cbn [bind] in E. assert (s2 = s) by congruence. subst s2.
  assert (I1 : y_init s1 = true /\ y_name s1 = ident).
  { cbn [step] in E1. unfold openlog in E1. destruct (Z.land k 8 =? 0).
    - assert (s1 = do_init e init (Some ident)) by congruence. subst. split; reflexivity.
    - unfold log_buf in E1. assert (s1 = if y_level (do_init e init (Some ident)) <? 0 then mkState (y_init (do_init e init (Some ident))) (y_name (do_init e init (Some ident))) (y_long (do_init e init (Some ident))) (e_level e) else do_init e init (Some ident)) by congruence. subst. split; reflexivity. }
  destruct I1 as (I1 & N1).
  assert (HO' : Forall not_mask ops).
  { eapply Forall_impl; [|exact HO]. intros o Ho. destruct o; cbn; auto. exact (Ho mask eq_refl). }
  destruct (run_keeps e ops s1 s e2 HO' E3) as (_ & K). destruct (K I1) as (I2 & N2).
  cbn [step] in E2. unfold syslog in E2. assert (D : do_init e s None = s) by (unfold do_init; now rewrite I2). rewrite D in E2.
  destruct (vlog_notruncate e (y_long s) stack fmt ap) as [[d|]|]; [| |discriminate]; cbn [bind] in E2; [|congruence].
  unfold log_buf in E2. cbn [y_name] in E2.
  assert (NN : y_name (if y_level s <? 0 then mkState (y_init s) (y_name s) (y_long s) (e_level e) else s) = y_name s) by (destruct (y_level s <? 0); reflexivity).
  rewrite NN in E2. destruct (Z.land (Z.land prio 7) 7 <=? _) in E2; [|congruence]. congruence.
Qed.

Example C71_ex : exists s ev s', run ex_env init [OOpen (Some (bytes_of_string "d")) 0; OClose] = Ok (s, ev) /\
  step ex_env s (OLog ex_stack 5 hello [[66]]) = Ok (s', [Emit 5 (bytes_of_string "d") (bytes_of_string "user B" ++ [0])]).
Proof. do 3 eexists. split; vm_compute; reflexivity. Qed.

(** The name given after a first message, or a second name, is ignored. *)
Theorem C71_ident_refuted :
  (exists s s' ev, run ex_env init [OLog ex_stack 5 [Lit [65]] []; OOpen (Some (bytes_of_string "d")) 0] = Ok (s, ev) /\
    step ex_env s (OLog ex_stack 5 [Lit [65]] []) = Ok (s', [Emit 5 [] [65; 0]])) /\
  (exists s s' ev, run ex_env init [OOpen (Some (bytes_of_string "a")) 0; OClose; OOpen (Some (bytes_of_string "b")) 0] = Ok (s, ev) /\
    step ex_env s (OLog ex_stack 5 [Lit [65]] []) = Ok (s', [Emit 5 (bytes_of_string "a") [65; 0]])).
Proof. split; do 3 eexists; split; vm_compute; reflexivity. Qed.

Print Assumptions C55_mask_partial.
Print Assumptions C55_upto_partial.
Print Assumptions C55_zero_refuted.
Print Assumptions C55_low_refuted.
Print Assumptions C55_first_refuted.
Print Assumptions C70_text_partial.
Print Assumptions C70_long_refuted.
Print Assumptions C71_ident_partial.
Print Assumptions C71_ident_refuted.
