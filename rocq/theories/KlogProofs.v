From Coq Require Import ZArith String List Bool Lia ZifyBool ZifyNat Arith.
From Verif Require Import Bytes BytesProofs Parse Klog KlogSpec.
Import ListNotations.
Open Scope Z_scope.

(** ** Scanning *)
Lemma span_c_app f a c r : Forall (fun x => f x = true) a -> f c = false ->
  span_c f (a ++ c :: r) = Ok (a, c :: r).
Proof.
  induction 1 as [|x a H F IH]; intros Hc; cbn [app span_c].
  - now rewrite Hc.
  - rewrite H, IH by auto. reflexivity.
Qed.
(** In a block with a NUL that stops the scan. *)
Lemma span_c_nul f s r : f 0 = false ->
  exists a b, span_c f (s ++ 0 :: r) = Ok (a, b ++ 0 :: r) /\ s = a ++ b /\ Forall (fun x => f x = true) a.
Proof.
  intros H0. induction s as [|c s (a & b & E & -> & F)]; cbn [app span_c].
  - rewrite H0. exists [], []. cbn. auto.
  - destruct (f c) eqn:Hc.
    + cbn [app] in E. rewrite E. cbn [bind]. exists (c :: a), b. auto.
    + exists [], (c :: a ++ b). cbn. rewrite <- app_assoc. auto.
Qed.

Lemma num_of_val ds : num_of ds = dec_val ds.
Proof.
  unfold num_of. assert (G : forall ds a, fold_left (fun a c => 10 * a + (c - 48)) ds a = a * 10 ^ zlen ds + dec_val ds).
  { clear. induction ds as [|c ds IH]; intros a.
    - cbn. lia.
    - cbn [fold_left dec_val]. rewrite IH, zlen_cons. rewrite Z.pow_add_r by (pose proof (zlen_nonneg ds); lia). lia. }
  rewrite G. lia.
Qed.
Lemma dec_val_nonneg ds : Forall (fun c => 48 <= c <= 57) ds -> 0 <= dec_val ds.
Proof.
  induction 1 as [|c ds H F IH]; cbn [dec_val]; [lia|].
  assert (0 < 10 ^ zlen ds) by (apply Z.pow_pos_nonneg; [lia|apply zlen_nonneg]). nia.
Qed.
Lemma digits_isdigit ds : Forall (fun c => 48 <= c <= 57) ds -> Forall (fun c => isdigit c = true) ds.
Proof. apply Forall_impl. unfold isdigit. lia. Qed.

Lemma strto_digits sp ds x r : Forall (fun c => c = 32) sp -> digits ds -> isdigit x = false ->
  strto (sp ++ ds ++ x :: r) = Ok (false, ds, x :: r).
Proof.
  intros Hs [Hn Hd] Hx. destruct ds as [|d ds]; [congruence|]. unfold strto.
  inversion Hd as [|? ? Hd1 Hd2]; subst.
  cbn [app]. rewrite span_c_app.
  - cbn [bind ch]. destruct (Z.eqb_spec d 45); [lia|]. destruct (Z.eqb_spec d 43); [lia|].
    change (d :: ds ++ x :: r) with ((d :: ds) ++ x :: r).
    rewrite span_c_app; [reflexivity|now apply digits_isdigit|exact Hx].
  - eapply Forall_impl; [|exact Hs]. cbn. intros c ->. reflexivity.
  - unfold isspace. lia.
Qed.
Lemma strtoul_digits W sp ds x r : Forall (fun c => c = 32) sp -> digits ds -> isdigit x = false -> dec_val ds < 2 ^ W ->
  strtoul W (sp ++ ds ++ x :: r) = Ok (dec_val ds, x :: r).
Proof.
  intros Hs Hd Hx Hv. unfold strtoul. rewrite strto_digits by auto. cbn [bind]. rewrite num_of_val.
  destruct (Z.leb_spec (2 ^ W) (dec_val ds)); [lia|]. reflexivity.
Qed.
Lemma strtol_digits W ds x r : digits ds -> isdigit x = false -> dec_val ds < 2 ^ (W - 1) ->
  strtol W (ds ++ x :: r) = Ok (dec_val ds).
Proof.
  intros Hd Hx Hv. unfold strtol. pose proof (strto_digits [] ds x r (Forall_nil _) Hd Hx) as E. cbn [app] in E. rewrite E. cbn [bind]. rewrite num_of_val. f_equal. lia.
Qed.
Lemma tl_app_nul (s r : list Z) c : c <> 0 -> ch (s ++ 0 :: r) = Ok c ->
  exists s', s = c :: s' /\ tl (s ++ 0 :: r) = s' ++ 0 :: r.
Proof. intros Hc. destruct s as [|d s]; cbn; intros E; injection E as E; subst; [congruence|]. eauto. Qed.
Lemma ch_nul s r : exists c, ch (s ++ 0 :: r) = Ok c.
Proof. destruct s; cbn; eauto. Qed.
Lemma strto_nul s r : exists neg ds b u, strto (s ++ 0 :: r) = Ok (neg, ds, b ++ 0 :: r) /\ s = u ++ b.
Proof.
  unfold strto. destruct (span_c_nul isspace s r eq_refl) as (sp & s1 & -> & Es & _). cbn [bind].
  destruct (ch_nul s1 r) as [c Hc]. rewrite Hc. cbn [bind].
  assert (G : forall s2 v, s1 = v ++ s2 -> forall neg : bool, exists neg' ds b u,
     (let* (ds, s3) := span_c isdigit (s2 ++ 0 :: r) in Ok (neg, ds, match ds with [] => s ++ 0 :: r | _ => s3 end)) = Ok (neg', ds, b ++ 0 :: r) /\ s = u ++ b).
  { intros s2 v Ev neg. destruct (span_c_nul isdigit s2 r eq_refl) as (ds & s3 & -> & E3 & _). cbn [bind].
    destruct ds as [|d ds].
    - exists neg, [], s, []. split; reflexivity.
    - exists neg, (d :: ds), s3, (sp ++ v ++ d :: ds). split; [reflexivity|]. rewrite Es, Ev, E3. now rewrite <- !app_assoc. }
  destruct (Z.eqb_spec c 45) as [->|].
  { destruct (tl_app_nul s1 r 45 ltac:(lia) Hc) as (s2 & E & ->). apply (G s2 [45]). exact E. }
  destruct (Z.eqb_spec c 43) as [->|].
  { destruct (tl_app_nul s1 r 43 ltac:(lia) Hc) as (s2 & E & ->). apply (G s2 [43]). exact E. }
  apply (G s1 []). reflexivity.
Qed.
Lemma strtoul_nul W s r : exists v b u, strtoul W (s ++ 0 :: r) = Ok (v, b ++ 0 :: r) /\ s = u ++ b.
Proof.
  unfold strtoul. destruct (strto_nul s r) as (neg & ds & b & u & -> & E). cbn [bind]. eauto.
Qed.

(** ** C50 *)
Lemma zdrop_1_cons (c : Z) r : zdrop 1 (c :: r) = r.
Proof. reflexivity. Qed.
Lemma land7 v : 0 <= v -> Z.land v 7 = v mod 8.
Proof. intros H. change 7 with (Z.ones 3). rewrite Z.land_ones by lia. reflexivity. Qed.

(** The prefix of a line as the kernel writes it. *)
Lemma parse_prefix_ok W pr rest e : 0 < W -> digits pr -> dec_val pr < 2 ^ W ->
  k_msg e = kprefix pr ++ rest -> 4 <= k_len e ->
  parse_prefix W e = Ok (mkK (dec_val pr mod 8) (k_sec e) (k_nsec e) rest (k_len e - zlen (kprefix pr))).
Proof.
  intros HW [Hn Hd] Hv Hm Hl. unfold parse_prefix. rewrite Hm. unfold kprefix.
  cbn [app ch bind]. change (60 =? 60) with true. destruct (Z.ltb_spec (k_len e) 4); [lia|]. cbn [negb orb].
  rewrite zdrop_1_cons. destruct pr as [|c1 pr]; [congruence|]. cbn [app ch bind].
  inversion Hd as [|? ? Hc Hd']; subst.
  replace (zdrop 2 (60 :: c1 :: (pr ++ [62]) ++ rest)) with ((pr ++ [62]) ++ rest) by reflexivity.
  assert (HL : zlen (60 :: c1 :: (pr ++ [62]) ++ rest) - zlen rest = zlen (60 :: c1 :: pr ++ [62])).
  { rewrite !zlen_cons, !zlen_app. lia. }
  destruct pr as [|c2 pr].
  - cbn [app ch bind]. change (62 =? 62) with true. cbn match.
    replace (zdrop 3 (60 :: c1 :: 62 :: rest)) with rest by reflexivity.
    cbn [app] in HL. rewrite HL. unfold isdigit. destruct (Z.leb_spec 48 c1); [|lia]. destruct (Z.leb_spec c1 57); [|lia].
    cbn [andb]. rewrite land7 by lia. do 2 f_equal. cbn. lia.
  - cbn [app ch bind]. inversion Hd' as [|? ? Hc2 Hd2]; subst. destruct (Z.eqb_spec c2 62); [lia|].
    replace (c1 :: c2 :: (pr ++ [62]) ++ rest) with ([] ++ (c1 :: c2 :: pr) ++ 62 :: rest) by (cbn; now rewrite <- app_assoc).
    rewrite strtoul_digits; [|constructor|split; [discriminate|exact Hd]|reflexivity|exact Hv].
    cbn [bind ch]. change (62 =? 62) with true. cbn [negb]. rewrite zdrop_1_cons.
    rewrite land7 by (now apply dec_val_nonneg). do 2 f_equal. cbn [app] in HL. rewrite <- HL.
    cbn [app]. rewrite <- app_assoc. reflexivity.
Qed.
Lemma sW_small W v : 0 < W -> 0 <= v < 2 ^ (W - 1) -> sW W v = v.
Proof.
  intros HW H. unfold sW. assert (2 ^ W = 2 * 2 ^ (W - 1)) by (rewrite <- Z.pow_succ_r by lia; f_equal; lia).
  rewrite Z.mod_small by lia. destruct (Z.ltb_spec v (2 ^ (W - 1))); lia.
Qed.
Lemma parse_timestamp_ok W sp sec usec text e : 1 < W -> Forall (fun c => c = 32) sp -> digits sec -> digits usec ->
  dec_val sec < 2 ^ (W - 1) -> dec_val usec * 1000 < 2 ^ (W - 1) ->
  k_msg e = ktime sp sec usec ++ text ->
  parse_timestamp W e = Ok (mkK (k_prio e) (dec_val sec) (dec_val usec * 1000) text (k_len e - zlen (ktime sp sec usec))).
Proof.
  intros HW Hsp Hs Hu Vs Vu Hm. unfold parse_timestamp. rewrite Hm. unfold ktime.
  assert (P2 : 2 ^ W = 2 * 2 ^ (W - 1)) by (rewrite <- Z.pow_succ_r by lia; f_equal; lia).
  pose proof (dec_val_nonneg sec (proj2 Hs)). pose proof (dec_val_nonneg usec (proj2 Hu)).
  rewrite <- !app_assoc. cbn [app ch bind]. change (91 =? 91) with true. cbn [negb].
  rewrite zdrop_1_cons. rewrite strtoul_digits; auto; [|lia]. cbn [bind ch]. change (46 =? 46) with true. cbn [negb].
  rewrite zdrop_1_cons. replace (usec ++ 93 :: 32 :: text) with ([] ++ usec ++ 93 :: 32 :: text) by reflexivity.
  rewrite strtoul_digits; auto; [|lia]. cbn [bind ch]. change (93 =? 93) with true. cbn [negb].
  rewrite zdrop_1_cons. cbn [bind ch]. change (32 =? 32) with true. cbn [negb].
  replace (zdrop 2 (93 :: 32 :: text)) with text by reflexivity.
  rewrite !sW_small by lia. do 2 f_equal. rewrite !zlen_cons, !zlen_app, !zlen_cons, !zlen_app, !zlen_cons.
  change (zlen (@nil Z)) with 0. lia.
Qed.
Lemma parse_prefix_none W e c r : k_msg e = c :: r -> c <> 60 -> parse_prefix W e = Ok e.
Proof. intros E H. unfold parse_prefix. rewrite E. cbn [ch bind]. destruct (Z.eqb_spec c 60); [lia|]. reflexivity. Qed.
Lemma parse_timestamp_none W e c r : k_msg e = c :: r -> c <> 91 ->
  parse_timestamp W e = Ok (mkK (k_prio e) 0 0 (k_msg e) (k_len e)).
Proof. intros E H. unfold parse_timestamp. rewrite E. cbn [ch bind]. destruct (Z.eqb_spec c 91); [lia|]. reflexivity. Qed.

(** Every line: inside the block, and what is shown is an end of the line. *)
Lemma parse_prefix_safe W e s r : k_msg e = s ++ 0 :: r -> k_len e = zlen s + 1 ->
  exists u s' p, parse_prefix W e = Ok (mkK p (k_sec e) (k_nsec e) (s' ++ 0 :: r) (zlen s' + 1)) /\ s = u ++ s' /\
    (u = [] \/ exists x, u = 60 :: x) /\ (hd 0 (s ++ [0]) <> 60 -> p = k_prio e /\ u = []).
Proof.
  intros Hm Hl. unfold parse_prefix. rewrite Hm.
  assert (T : exists u s' p, Ok e = Ok (mkK p (k_sec e) (k_nsec e) (s' ++ 0 :: r) (zlen s' + 1)) /\ s = u ++ s' /\
    (u = [] \/ exists x, u = 60 :: x) /\ (hd 0 (s ++ [0]) <> 60 -> p = k_prio e /\ u = [])).
  { exists [], s, (k_prio e). destruct e; cbn in *. subst. auto. }
  destruct s as [|c s].
  { cbn [app ch bind]. change (0 =? 60) with false. exact T. }
  cbn [app ch bind]. destruct (Z.eqb_spec c 60) as [->|]; [|exact T].
  destruct (Z.ltb_spec (k_len e) 4); [exact T|]. cbn [negb orb]. clear T.
  destruct s as [|c1 [|c2 s]]; rewrite ?zlen_cons in Hl; change (zlen (@nil Z)) with 0 in Hl; try lia.
  cbn [app]. rewrite zdrop_1_cons. cbn [ch bind]. replace (zdrop 2 (60 :: c1 :: c2 :: s ++ 0 :: r)) with (c2 :: s ++ 0 :: r) by reflexivity.
  cbn [ch bind]. destruct (Z.eqb_spec c2 62) as [->|].
  - replace (zdrop 3 (60 :: c1 :: 62 :: s ++ 0 :: r)) with (s ++ 0 :: r) by reflexivity.
    exists [60; c1; 62], s. eexists. split; [|split; [reflexivity|split; [eauto|cbn; lia]]].
    f_equal. f_equal. rewrite !zlen_cons. lia.
  - replace (c1 :: c2 :: s ++ 0 :: r) with ((c1 :: c2 :: s) ++ 0 :: r) by reflexivity.
    destruct (strtoul_nul W (c1 :: c2 :: s) r) as (v & b & u & -> & Eb). cbn [bind].
    destruct (ch_nul b r) as [ce Hce]. rewrite Hce. cbn [bind]. destruct (Z.eqb_spec ce 62) as [->|]; cbn [negb].
    + destruct (tl_app_nul b r 62 ltac:(lia) Hce) as (s' & -> & Ht).
      exists (60 :: u ++ [62]), s'. eexists. split; [|split; [|split; [eauto|cbn; lia]]].
      * cbn [app]. rewrite zdrop_1_cons. f_equal. f_equal. apply (f_equal zlen) in Eb.
        rewrite !zlen_app, !zlen_cons in *. rewrite !zlen_app, !zlen_cons. lia.
      * rewrite Eb. cbn. now rewrite <- app_assoc.
    + exists [], (60 :: c1 :: c2 :: s). eexists. split; [|split; [reflexivity|split; [auto|cbn; lia]]].
      f_equal. f_equal. rewrite !zlen_cons. lia.
Qed.
Lemma parse_timestamp_safe W e s r : k_msg e = s ++ 0 :: r -> k_len e = zlen s + 1 ->
  exists u s' a b, parse_timestamp W e = Ok (mkK (k_prio e) a b (s' ++ 0 :: r) (zlen s' + 1)) /\ s = u ++ s' /\
    ((u = [] /\ a = 0 /\ b = 0) \/ exists x, u = 91 :: x).
Proof.
  intros Hm Hl. unfold parse_timestamp. rewrite Hm, Hl.
  assert (T : exists u s' a b, Ok (mkK (k_prio e) 0 0 (s ++ 0 :: r) (zlen s + 1)) = Ok (mkK (k_prio e) a b (s' ++ 0 :: r) (zlen s' + 1)) /\ s = u ++ s' /\
    ((u = [] /\ a = 0 /\ b = 0) \/ exists x, u = 91 :: x)).
  { exists [], s, 0, 0. split; [reflexivity|]. split; [reflexivity|]. auto. }
  destruct s as [|c s].
  { cbn [app ch bind]. change (0 =? 91) with false. exact T. }
  cbn [app ch bind]. destruct (Z.eqb_spec c 91) as [->|]; [|exact T]. cbn [negb].
  rewrite zdrop_1_cons.
  destruct (strtoul_nul W s r) as (v & b & u & -> & Eb). cbn [bind].
  destruct (ch_nul b r) as [ce Hce]. rewrite Hce. cbn [bind]. destruct (Z.eqb_spec ce 46) as [->|]; cbn [negb]; [|exact T].
  destruct (tl_app_nul b r 46 ltac:(lia) Hce) as (s1 & -> & _). cbn [app]. rewrite zdrop_1_cons.
  destruct (strtoul_nul W s1 r) as (v2 & b2 & u2 & -> & Eb2). cbn [bind].
  destruct (ch_nul b2 r) as [c2 Hc2]. rewrite Hc2. cbn [bind]. destruct (Z.eqb_spec c2 93) as [->|]; cbn [negb]; [|exact T].
  destruct (tl_app_nul b2 r 93 ltac:(lia) Hc2) as (s2 & -> & _). cbn [app]. rewrite zdrop_1_cons.
  destruct (ch_nul s2 r) as [c3 Hc3]. rewrite Hc3. cbn [bind]. destruct (Z.eqb_spec c3 32) as [->|]; cbn [negb]; [|exact T].
  destruct (tl_app_nul s2 r 32 ltac:(lia) Hc3) as (s3 & -> & _). cbn [app].
  replace (zdrop 2 (93 :: 32 :: s3 ++ 0 :: r)) with (s3 ++ 0 :: r) by reflexivity.
  exists (91 :: u ++ 46 :: u2 ++ [93; 32]), s3. do 2 eexists. split; [|split; [|right; eauto]].
  - f_equal. f_equal. subst s s1. rewrite !zlen_cons, !zlen_app, !zlen_cons, !zlen_app, !zlen_cons, ?zlen_app. lia.
  - subst s s1. cbn. rewrite <- !app_assoc. cbn. now rewrite <- !app_assoc.
Qed.

(** ** C49: the block *)
Lemma load_at A x B : load (A ++ x :: B) (zlen A) = Ok x.
Proof.
  unfold load. pose proof (zlen_nonneg A). pose proof (zlen_nonneg B).
  rewrite zlen_app, zlen_cons. destruct (Z.leb_spec 0 (zlen A)); [|lia]. destruct (Z.ltb_spec (zlen A) (zlen A + (1 + zlen B))); [|lia].
  cbn [andb]. rewrite znth_app by lia. destruct (Z.ltb_spec (zlen A) (zlen A)); [lia|]. rewrite Z.sub_diag. reflexivity.
Qed.
Lemma load_at' A x B p : p = zlen A -> load (A ++ x :: B) p = Ok x.
Proof. intros ->. apply load_at. Qed.
Lemma store_at A x B v p : p = zlen A -> store (A ++ x :: B) p v = Ok (A ++ v :: B).
Proof.
  intros ->. unfold store. pose proof (zlen_nonneg A). pose proof (zlen_nonneg B).
  rewrite mem_write_ok; [|lia|rewrite zlen_app, !zlen_cons; change (zlen (@nil Z)) with 0; lia].
  rewrite ztake_app_exact by reflexivity. rewrite zdrop_app by (rewrite zlen_cons; change (zlen (@nil Z)) with 0; lia).
  rewrite zdrop_all by (rewrite zlen_cons; change (zlen (@nil Z)) with 0; lia).
  replace (zlen A + zlen [v] - zlen A) with 1 by (rewrite zlen_cons; change (zlen (@nil Z)) with 0; lia). reflexivity.
Qed.

(** What the loop makes of a text. *)
Definition unhex2 (a b : Z) : Z := Z.lor (Z.shiftl (hex2dec a) 4) (hex2dec b).
Fixpoint unesc (s : list Z) : list Z :=
  match s with
  | [] => []
  | c :: r =>
    match r with
    | x :: a :: b :: r' =>
      if (c =? 92) && (x =? 120) && isxdigit a && isxdigit b then unhex2 a b :: unesc r' else c :: unesc r
    | _ => c :: unesc r
    end
  end.

Lemma escape_at_ok A s B : ~ In 0 s -> s <> [] ->
  escape_at (A ++ s ++ 0 :: B) (zlen A) = Ok (match s with
    | c :: x :: a :: b :: _ => (c =? 92) && (x =? 120) && isxdigit a && isxdigit b
    | _ => false end).
Proof.
  intros Hn Hs. unfold escape_at.
  assert (L1 : zlen A + 1 = zlen (A ++ [0])) by (rewrite zlen_app; reflexivity).
  destruct s as [|c s]; [congruence|]. cbn [app]. rewrite load_at. cbn [bind].
  destruct (Z.eqb_spec c 92) as [->|]; cbn [negb andb]; [|now destruct s as [|? [|? [|? ?]]]].
  assert (R : forall (y : Z) l, A ++ y :: l = (A ++ [y]) ++ l) by (intros; now rewrite <- app_assoc).
  destruct s as [|x s]; cbn [app]; rewrite (R 92).
  { rewrite load_at' by (rewrite zlen_app; reflexivity). reflexivity. }
  rewrite load_at' by (rewrite zlen_app; reflexivity). cbn [bind].
  destruct (Z.eqb_spec x 120) as [->|]; cbn [negb andb]; [|now destruct s as [|? [|? ?]]].
  assert (R2 : forall (y : Z) l, (A ++ [92]) ++ y :: l = (A ++ [92; y]) ++ l) by (intros; now rewrite <- !app_assoc).
  rewrite R2. destruct s as [|a s]; cbn [app].
  { rewrite load_at' by (rewrite zlen_app; reflexivity). reflexivity. }
  rewrite load_at' by (rewrite zlen_app; reflexivity). cbn [bind].
  destruct (isxdigit a); cbn [negb andb]; [|now destruct s].
  assert (R3 : forall (y : Z) l, (A ++ [92; 120]) ++ y :: l = (A ++ [92; 120; y]) ++ l) by (intros; now rewrite <- !app_assoc).
  rewrite R3. destruct s as [|b s]; cbn [app].
  { rewrite load_at' by (rewrite zlen_app; reflexivity). reflexivity. }
  rewrite load_at' by (rewrite zlen_app; reflexivity). reflexivity.
Qed.

Lemma store_gap (A X R : list Z) v : X <> [] -> store (A ++ X ++ R) (zlen A) v = Ok ((A ++ [v]) ++ tl X ++ R).
Proof.
  intros H. destruct X as [|x X]; [congruence|]. cbn [app tl]. rewrite store_at by reflexivity. now rewrite <- app_assoc.
Qed.
Lemma zlen_tl (l : list Z) : l <> [] -> zlen (tl l) = zlen l - 1.
Proof. destruct l; [congruence|]. intros _. rewrite zlen_cons. cbn [tl]. lia. Qed.

Lemma unesc_loop_ok : forall n s A G B fuel, (length s <= n)%nat -> ~ In 0 s -> (length s < fuel)%nat ->
  exists G', unesc_loop fuel (A ++ G ++ s ++ 0 :: B) (zlen A + zlen G) (zlen A) =
    Ok (A ++ unesc s ++ G' ++ 0 :: B, zlen A + zlen G + zlen s, zlen A + zlen (unesc s)) /\
    zlen (unesc s) + zlen G' = zlen G + zlen s.
Proof.
  induction n as [|n IH]; intros s A G B fuel Hl Hn Hf; (destruct fuel as [|fuel]; [lia|]).
  - destruct s; [|cbn in Hl; lia]. cbn [app unesc]. exists G. cbn [unesc_loop].
    rewrite app_assoc. rewrite load_at' by (now rewrite zlen_app). cbn [bind]. change (0 =? 0) with true.
    change (zlen (@nil Z)) with 0. rewrite !Z.add_0_r. rewrite <- app_assoc. split; [reflexivity|lia].
  - destruct s as [|c s].
    { apply (IH [] A G B (S fuel)); cbn; auto; lia. }
    assert (Hc : c <> 0) by (intros ->; apply Hn; now left).
    cbn [unesc_loop]. replace (A ++ G ++ (c :: s) ++ 0 :: B) with ((A ++ G) ++ (c :: s) ++ 0 :: B) by (now rewrite <- app_assoc).
    replace (zlen A + zlen G) with (zlen (A ++ G)) by (now rewrite zlen_app).
    assert (E0 : load ((A ++ G) ++ (c :: s) ++ 0 :: B) (zlen (A ++ G)) = Ok c) by apply load_at.
    rewrite E0. cbn [bind]. destruct (Z.eqb_spec c 0); [lia|].
    rewrite escape_at_ok by (auto; discriminate). cbn [bind].
    assert (HS : forall X R v, X <> [] -> (c :: s) = X ++ R -> (length R <= n)%nat -> (length R < fuel)%nat ->
      exists G', (let* mem := store ((A ++ G) ++ (c :: s) ++ 0 :: B) (zlen A) v in
                  unesc_loop fuel mem (zlen (A ++ G) + zlen X) (zlen A + 1)) =
        Ok (A ++ (v :: unesc R) ++ G' ++ 0 :: B, zlen (A ++ G) + zlen (c :: s), zlen A + zlen (v :: unesc R)) /\
        zlen (v :: unesc R) + zlen G' = zlen G + zlen (c :: s)).
    { intros X R v HX E HR HR2. rewrite E. rewrite <- !app_assoc.
      rewrite (app_assoc G X), store_gap by (intros Z; apply app_eq_nil in Z; tauto). cbn [bind].
      assert (HnR : ~ In 0 R) by (intros Z; apply Hn; rewrite E; apply in_or_app; now right).
      destruct (IH R (A ++ [v]) (tl (G ++ X)) B fuel HR HnR HR2) as (G' & E' & L').
      assert (HT : zlen (tl (G ++ X)) = zlen G + zlen X - 1).
      { rewrite zlen_tl by (intros Z; apply app_eq_nil in Z; tauto). rewrite zlen_app. lia. }
      replace (zlen (A ++ G) + zlen X) with (zlen (A ++ [v]) + zlen (tl (G ++ X))).
      2: { rewrite HT, !zlen_app. change (zlen [v]) with 1. lia. }
      replace (zlen A + 1) with (zlen (A ++ [v])) by (rewrite zlen_app; reflexivity).
      rewrite E'. exists G'. split.
      - f_equal. f_equal; [f_equal|].
        + now rewrite <- !app_assoc.
        + rewrite HT, !zlen_app. change (zlen [v]) with 1. lia.
        + rewrite zlen_cons, zlen_app. change (zlen [v]) with 1. lia.
      - rewrite zlen_cons, zlen_app. lia. }
    cbn [length] in Hl, Hf.
    destruct s as [|x [|a [|b s]]]; cbn [unesc].
    + destruct (HS [c] [] c) as (G' & E & L); [discriminate|reflexivity|cbn; lia|cbn; lia|]. cbn [unesc] in E, L. exists G'. split; [exact E|exact L].
    + destruct (HS [c] [x] c) as (G' & E & L); [discriminate|reflexivity|cbn in *; lia|cbn in *; lia|]. exists G'. split; [exact E|exact L].
    + destruct (HS [c] [x; a] c) as (G' & E & L); [discriminate|reflexivity|cbn in *; lia|cbn in *; lia|]. exists G'. split; [exact E|exact L].
    + destruct ((c =? 92) && (x =? 120) && isxdigit a && isxdigit b) eqn:Esc.
      * set (mem := (A ++ G) ++ (c :: x :: a :: b :: s) ++ 0 :: B).
        assert (L2 : load mem (zlen (A ++ G) + 2) = Ok a).
        { subst mem. replace ((A ++ G) ++ (c :: x :: a :: b :: s) ++ 0 :: B) with (((A ++ G) ++ [c; x]) ++ a :: b :: s ++ 0 :: B) by (now rewrite <- !app_assoc).
          apply load_at'. rewrite (zlen_app (A ++ G)). reflexivity. }
        assert (L3 : load mem (zlen (A ++ G) + 3) = Ok b).
        { subst mem. replace ((A ++ G) ++ (c :: x :: a :: b :: s) ++ 0 :: B) with (((A ++ G) ++ [c; x; a]) ++ b :: s ++ 0 :: B) by (now rewrite <- !app_assoc).
          apply load_at'. rewrite (zlen_app (A ++ G)). reflexivity. }
        rewrite L2, L3. cbn [bind]. fold (unhex2 a b).
        destruct (HS [c; x; a; b] s (unhex2 a b)) as (G' & E & L); [discriminate|reflexivity|cbn in *; lia|cbn in *; lia|].
        change (zlen [c; x; a; b]) with 4 in E. subst mem. exists G'. split; [exact E|exact L].
      * destruct (HS [c] (x :: a :: b :: s) c) as (G' & E & L); [discriminate|reflexivity|cbn in *; lia|cbn in *; lia|].
        change (zlen [c]) with 1 in E. exists G'. split; [exact E|exact L].
Qed.

Lemma strchr_some A a c r p : p = zlen A -> c <> 0 -> ~ In 0 a -> ~ In c a ->
  strchr (A ++ a ++ c :: r) p c = Ok (Some (zlen A + zlen a)).
Proof.
  intros -> Hc H0 Hn. unfold strchr. rewrite zdrop_app_exact by reflexivity.
  rewrite span_c_app.
  - cbn [bind ch]. rewrite Z.eqb_refl. reflexivity.
  - apply Forall_forall. intros x Hx. destruct (Z.eqb_spec x 0) as [->|]; [contradiction|].
    destruct (Z.eqb_spec x c) as [->|]; [contradiction|]. reflexivity.
  - rewrite Z.eqb_refl. now rewrite andb_false_r.
Qed.
Lemma strchr_none A a c r p : p = zlen A -> c <> 0 -> ~ In 0 a -> ~ In c a ->
  strchr (A ++ a ++ 0 :: r) p c = Ok None.
Proof.
  intros -> Hc H0 Hn. unfold strchr. rewrite zdrop_app_exact by reflexivity.
  rewrite span_c_app.
  - cbn [bind ch]. destruct (Z.eqb_spec 0 c); [congruence|]. reflexivity.
  - apply Forall_forall. intros x Hx. destruct (Z.eqb_spec x 0) as [->|]; [contradiction|].
    destruct (Z.eqb_spec x c) as [->|]; [contradiction|]. reflexivity.
  - reflexivity.
Qed.
Lemma split_at (c : Z) s : ~ In c s \/ exists a b, s = a ++ c :: b /\ ~ In c a.
Proof.
  induction s as [|x s IH]; [now left|].
  destruct (Z.eq_dec x c) as [->|Hx]; [right; exists [], s; auto|].
  destruct IH as [H|(a & b & -> & H)].
  - left. intros [E|E]; [congruence|contradiction].
  - right. exists (x :: a), b. split; [reflexivity|]. intros [E|E]; [congruence|contradiction].
Qed.
Lemma unesc_plain a b : ~ In 92 a -> unesc (a ++ b) = a ++ unesc b.
Proof.
  induction a as [|c a IH]; intros H; [reflexivity|]. cbn [app].
  assert (Hc : (c =? 92) = false) by (apply Z.eqb_neq; intros ->; apply H; now left).
  rewrite <- IH by (intros X; apply H; now right).
  cbn [unesc]. rewrite Hc. cbn [andb]. destruct (a ++ b) as [|? [|? [|? ?]]]; reflexivity.
Qed.
Lemma unesc_id s : ~ In 92 s -> unesc s = s.
Proof. intros H. pose proof (unesc_plain s [] H) as E. cbn [unesc] in E. now rewrite !app_nil_r in E. Qed.

Lemma klog_parse_ok A s R : ~ In 0 s -> ~ In 10 s ->
  exists G, klog_parse (A ++ s ++ 10 :: R) (zlen A - 1) =
    Ok (A ++ unesc s ++ 0 :: G ++ R, Some (zlen A, zlen (unesc s) + 1)) /\ zlen (unesc s) + zlen G = zlen s.
Proof.
  intros H0 H10. unfold klog_parse. replace (zlen A - 1 + 1) with (zlen A) by lia.
  rewrite strchr_some by (auto; lia). cbn [bind].
  rewrite app_assoc, store_at by (now rewrite zlen_app). cbn [bind]. rewrite <- app_assoc.
  destruct (split_at 92 s) as [Hs|(a & b & -> & Ha)].
  - rewrite strchr_none by (auto; lia). cbn [bind]. rewrite unesc_id by auto. exists []. split; [|change (zlen (@nil Z)) with 0; lia].
    cbn [app]. do 3 f_equal. f_equal. lia.
  - replace (A ++ (a ++ 92 :: b) ++ 0 :: R) with (A ++ a ++ 92 :: (b ++ 0 :: R)) by (now rewrite <- !app_assoc).
    assert (Ha0 : ~ In 0 a) by (intros X; apply H0; apply in_or_app; now left).
    rewrite strchr_some by (auto; lia). cbn [bind].
    assert (Hb0 : ~ In 0 (92 :: b)) by (intros X; apply H0; apply in_or_app; now right).
    destruct (unesc_loop_ok (length (92 :: b)) (92 :: b) (A ++ a) [] R
                (S (length (A ++ a ++ 92 :: b ++ 0 :: R))) (le_n _) Hb0) as (G & E & L).
    { rewrite !app_length. cbn [length]. rewrite app_length. lia. }
    change (zlen (@nil Z)) with 0 in E, L. rewrite Z.add_0_r in E. cbn [app] in E. rewrite <- !app_assoc, !zlen_app in E.
    rewrite E. cbn [bind]. rewrite (unesc_plain a (92 :: b)) by auto.
    set (ub := unesc (92 :: b)) in *.
    replace (A ++ a ++ ub ++ G ++ 0 :: R) with ((A ++ a ++ ub) ++ (G ++ [0]) ++ R) by (now rewrite <- !app_assoc).
    destruct (G ++ [0]) as [|g G'] eqn:EG; [destruct G; discriminate|]. cbn [app].
    rewrite store_at by (rewrite !zlen_app; lia). cbn [bind].
    exists G'. rewrite <- !app_assoc. split.
    + do 3 f_equal. f_equal. rewrite zlen_app. lia.
    + apply (f_equal zlen) in EG. rewrite zlen_app, !zlen_cons in EG. change (zlen (@nil Z)) with 0 in EG. rewrite !zlen_app. lia.
Qed.

(** Without a line feed the record is refused and nothing is written. *)
Lemma klog_parse_no_lf A s R : ~ In 0 s -> ~ In 10 s ->
  klog_parse (A ++ s ++ 0 :: R) (zlen A - 1) = Ok (A ++ s ++ 0 :: R, None).
Proof.
  intros H0 H10. unfold klog_parse. replace (zlen A - 1 + 1) with (zlen A) by lia.
  rewrite strchr_none by (auto; lia). reflexivity.
Qed.

(** Escaping and back. *)
Definition esc_check (c : Z) : bool :=
  (unhex2 (hexc (c / 16)) (hexc (c mod 16)) =? c) && isxdigit (hexc (c / 16)) && isxdigit (hexc (c mod 16)).
Lemma esc_all : forallb (fun n => esc_check (Z.of_nat n)) (seq 0 256) = true.
Proof. vm_compute. reflexivity. Qed.
Lemma esc_ok c : 0 <= c < 256 -> esc_check c = true.
Proof.
  intros H. pose proof esc_all as E. rewrite forallb_forall in E. specialize (E (Z.to_nat c)).
  rewrite Z2Nat.id in E by lia. apply E. apply in_seq. lia.
Qed.
Lemma unesc_kescape t : bytes t -> unesc (kescape t) = t.
Proof.
  induction 1 as [|c t H F IH]; [reflexivity|]. unfold kescape in *. cbn [map concat]. unfold kescape_byte at 1.
  destruct ((c <? 32) || (127 <=? c) || (c =? 92)) eqn:E.
  - pose proof (esc_ok c H) as K. unfold esc_check in K. apply andb_true_iff in K. destruct K as [K K3].
    apply andb_true_iff in K. destruct K as [K1 K2]. apply Z.eqb_eq in K1.
    cbn [app unesc]. rewrite K2, K3. change ((92 =? 92) && (120 =? 120)) with true. cbn [andb]. now rewrite K1, IH.
  - rewrite unesc_plain; [now rewrite IH|]. cbn. lia.
Qed.
Lemma isxdigit_range c : isxdigit c = true -> 48 <= c < 127.
Proof. unfold isxdigit, isdigit. lia. Qed.
Lemma kescape_printable t : bytes t -> Forall (fun c => 32 <= c < 127) (kescape t).
Proof.
  induction 1 as [|c t H F IH]; [constructor|]. unfold kescape in *. cbn [map concat]. apply Forall_app. split; [|exact IH].
  unfold kescape_byte. destruct ((c <? 32) || (127 <=? c) || (c =? 92)) eqn:E.
  - pose proof (esc_ok c H) as K. unfold esc_check in K. apply andb_true_iff in K. destruct K as [K K3].
    apply andb_true_iff in K. destruct K as [K1 K2]. apply isxdigit_range in K2, K3.
    repeat constructor; lia.
  - constructor; [lia|constructor].
Qed.

(** ** The fields before the text *)
Lemma strtok_ok A tok B p : p = zlen A -> tok <> [] -> ~ In 44 tok -> ~ In 0 tok ->
  strtok (A ++ tok ++ 44 :: B) p = Ok (A ++ tok ++ 0 :: B, Some p, p + zlen tok + 1).
Proof.
  intros -> Ht H44 H0. unfold strtok. rewrite zdrop_app_exact by reflexivity.
  assert (E1 : span_c (fun c => c =? 44) (tok ++ 44 :: B) = Ok ([], tok ++ 44 :: B)).
  { destruct tok as [|t tok]; [congruence|]. cbn. destruct (Z.eqb_spec t 44) as [->|]; [exfalso; apply H44; now left|]. reflexivity. }
  rewrite E1. cbn [bind]. change (zlen (@nil Z)) with 0. rewrite Z.add_0_r.
  assert (E2 : exists c, ch (tok ++ 44 :: B) = Ok c /\ (c =? 0) = false).
  { destruct tok as [|t tok]; [congruence|]. exists t. split; [reflexivity|]. apply Z.eqb_neq. intros ->. apply H0. now left. }
  destruct E2 as (c & -> & Hc). cbn [bind]. rewrite Hc.
  rewrite span_c_app.
  - cbn [bind ch]. change (44 =? 0) with false. cbn match.
    rewrite app_assoc, store_at by (now rewrite zlen_app). cbn [bind]. now rewrite <- app_assoc.
  - apply Forall_forall. intros x Hx. destruct (Z.eqb_spec x 44) as [->|]; [contradiction|].
    destruct (Z.eqb_spec x 0) as [->|]; [contradiction|]. reflexivity.
  - reflexivity.
Qed.
Lemma digits_not c ds : digits ds -> (c < 48 \/ 57 < c) -> ~ In c ds.
Proof. intros [_ F] H X. rewrite Forall_forall in F. specialize (F _ X). lia. Qed.
Lemma digits_nonempty ds : digits ds -> ds <> [].
Proof. now intros []. Qed.

Lemma klog_receive_ok W pr sq us flags body junk :
  1 < W <= 64 -> digits pr -> digits sq -> digits us -> ~ In 0 flags -> ~ In 59 flags ->
  dec_val pr < 2 ^ (W - 1) -> dec_val us < 2 ^ 63 -> dec_val us / 1000000 < 2 ^ (W - 1) -> 999999999 < 2 ^ (W - 1) ->
  let A := pr ++ [0] ++ sq ++ [0] ++ us ++ [0] ++ flags ++ [59] in
  klog_receive W (pr ++ [44] ++ sq ++ [44] ++ us ++ [44] ++ flags ++ [59] ++ body ++ 0 :: junk) =
    Ok (A ++ body ++ 0 :: junk,
        Some (mkR (dec_val pr mod 8) (dec_val us / 1000000) (dec_val us mod 1000000 * 1000) (dec_val us) (zlen A - 1))).
Proof.
  intros HW Hp Hq Hu F0 F59 Vp Vu Vs Vn A. unfold klog_receive. cbn [app].
  pose proof (dec_val_nonneg pr (proj2 Hp)). pose proof (dec_val_nonneg us (proj2 Hu)).
  pose proof (digits_nonempty _ Hp). pose proof (digits_nonempty _ Hq). pose proof (digits_nonempty _ Hu).
  assert (D : forall ds, digits ds -> ~ In 44 ds /\ ~ In 0 ds) by (intros; split; apply digits_not; auto; lia).
  set (T := flags ++ 59 :: body ++ 0 :: junk).
  pose proof (strtok_ok [] pr (sq ++ 44 :: us ++ 44 :: T) 0 eq_refl ltac:(auto) (proj1 (D _ Hp)) (proj2 (D _ Hp))) as E1.
  cbn [app] in E1. rewrite E1. cbn [bind].
  replace (pr ++ 0 :: sq ++ 44 :: us ++ 44 :: T) with ((pr ++ [0]) ++ sq ++ 44 :: us ++ 44 :: T) by (now rewrite <- app_assoc).
  rewrite strtok_ok; [|rewrite zlen_app; change (zlen [0]) with 1; lia|auto|apply D; auto|apply D; auto]. cbn [bind].
  replace ((pr ++ [0]) ++ sq ++ 0 :: us ++ 44 :: T) with ((pr ++ [0] ++ sq ++ [0]) ++ us ++ 44 :: T) by (now rewrite <- !app_assoc).
  rewrite strtok_ok; [|rewrite !zlen_app; change (zlen [0]) with 1; lia|auto|apply D; auto|apply D; auto]. cbn [bind].
  set (P := pr ++ [0] ++ sq ++ [0]).
  assert (HP : 0 + zlen pr + 1 + zlen sq + 1 = zlen P) by (subst P; rewrite !zlen_app; change (zlen [0]) with 1; lia).
  rewrite HP. rewrite zdrop_app_exact by reflexivity. rewrite strtol_digits by (auto; lia). cbn [bind].
  rewrite zdrop_0. replace (P ++ us ++ 0 :: T) with (pr ++ 0 :: sq ++ 0 :: us ++ 0 :: T) at 1 by (subst P; now rewrite <- !app_assoc).
  rewrite strtol_digits by auto. cbn [bind].
  unfold str_at. rewrite span_c_app.
  2: { apply Forall_forall. intros x Hx. destruct (Z.eqb_spec x 0) as [->|]; [|reflexivity]. exfalso. apply (proj2 (D _ Hu)); auto. }
  2: reflexivity.
  cbn [bind]. replace (P ++ us ++ 0 :: T) with ((P ++ us ++ [0]) ++ flags ++ 59 :: body ++ 0 :: junk) by (subst T; now rewrite <- !app_assoc).
  rewrite strchr_some; [|rewrite !zlen_app; change (zlen [0]) with 1; lia|lia|auto|auto]. cbn [bind].
  rewrite land7 by auto. rewrite (Z.mod_small (dec_val us) (2 ^ 64)) by lia.
  assert (0 <= dec_val us / 1000000) by (apply Z.div_pos; lia).
  rewrite (sW_small W (dec_val us / 1000000)) by lia.
  pose proof (Z.div_mod (dec_val us) 1000000 ltac:(lia)). pose proof (Z.mod_pos_bound (dec_val us) 1000000 ltac:(lia)).
  replace (dec_val us - dec_val us / 1000000 * 1000000) with (dec_val us mod 1000000) by lia.
  rewrite (Z.mod_small (dec_val us mod 1000000)) by lia. rewrite sW_small by lia.
  f_equal. f_equal.
  - subst A P. now rewrite <- !app_assoc.
  - f_equal. f_equal. subst A P. rewrite !zlen_app. change (zlen [59]) with 1. change (zlen [0]) with 1. lia.
Qed.
