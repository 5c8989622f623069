(** Property C130: from the logging calls of programs to the bytes that ulogcat prints.

    Vocabulary: ProgramSpec.v ([visible], [screen], [proper], [cost], [notice]). *)
From Coq Require Import ZArith String List Bool Permutation Sorted Lia ZifyBool ZifyNat Arith.
From Verif Require Import Bytes BytesProofs Ring RingSpec RingHistory RingRefine RingLemmas RingObs Parse ParseSpec ParseProofs Iov
  Cat CatSpec CatMerge Render RenderSpec RenderProofs Live LiveSpec LiveProofs LiveDump PropsRing PropsLive SaidSpec PropsSaid Program ProgramSpec.
From Verif Require Macros PropsMacros PropsRender.
Import ListNotations.
Open Scope Z_scope.

(** ** The calls *)
Definition said_of (c : call) : said := mkSaid (p_task c) (p_sec c) (p_nsec c) (p_prio c) (p_tag c) (ztake 255 (p_text c)).
Lemma no_bit p : Z.testbit p 7 = false -> binary_of p = false.
Proof.
  intros H. unfold binary_of. rewrite Z.testbit_false in H by lia. change (2 ^ 7) with 128 in H. now rewrite H.
Qed.
Lemma enabled_visible c : Macros.enabled (p_prio c) (p_level c) = visible c.
Proof. unfold Macros.enabled, visible. change 7 with (Z.ones 3). now rewrite Z.land_ones by lia. Qed.
Lemma ztake_in {A} n (l : list A) x : In x (ztake n l) -> In x l.
Proof. unfold ztake. intros H. rewrite <- (firstn_skipn (Z.to_nat n) l). apply in_or_app. auto. Qed.
Lemma firstn_ztake {A} (l : list A) : firstn 255 l = ztake 255 l.
Proof. reflexivity. Qed.

Lemma call_says procs c : proper procs c ->
  log_call c = Ok (if visible c then Some (say (p_fid c) (said_of c)) else None).
Proof.
  intros P. unfold log_call, Macros.ulog_log. rewrite enabled_visible. destruct (visible c); [|reflexivity].
  rewrite PropsMacros.vlog; [|unfold zlen; rewrite (pr_stack _ _ P); reflexivity|pose proof (pr_text _ _ P); lia].
  cbn [bind]. unfold say, said_of. cbn [s_task s_sec s_nsec s_prio s_tag s_msg]. now rewrite (no_bit _ (proj2 (pr_prio _ _ P))).
Qed.
Lemma program_says procs l : Forall (proper procs) l ->
  program l = Ok (map (fun c => say (p_fid c) (said_of c)) (filter visible l)).
Proof.
  induction 1 as [|c l P _ IH]; cbn [program filter]; [reflexivity|]. rewrite (call_says procs c P). cbn [bind]. rewrite IH. cbn [bind].
  destruct (visible c); reflexivity.
Qed.
Lemma call_sayable procs c : proper procs c -> sayable (said_of c).
Proof.
  intros P. destruct (pr_ids _ _ P), (pr_time _ _ P) as [T1 T2], (pr_tag _ _ P) as [G1 G2]. unfold sayable, said_of. cbn [s_task s_sec s_nsec s_prio s_tag s_msg].
  pose proof (zlen_names (p_task c)). unfold ParseSpec.int32, uint32, c_string. unfold ProgramSpec.int32 in *.
  repeat split; try lia; try tauto; try (pose proof (pr_prio _ _ P); lia).
  intros _ X. apply ztake_in in X. apply (proj1 (pr_text _ _ P) X).
Qed.
Lemma fits procs c : proper procs c -> fitting (said_of c) = ztake 255 (p_text c).
Proof.
  intros P. destruct (pr_tag _ _ P) as [G1 G2]. unfold fitting, said_of. cbn [s_task s_prio s_tag s_msg].
  rewrite (no_bit _ (proj2 (pr_prio _ _ P))). pose proof (zlen_names (p_task c)). apply ztake_all. rewrite zlen_ztake. lia.
Qed.
Lemma cost_weight procs c : proper procs c -> weight (said_of c) = cost c.
Proof.
  intros P. unfold weight, cost. rewrite (fits procs c P), firstn_ztake. unfold said_of. cbn [s_task s_prio s_tag].
  rewrite (no_bit _ (proj2 (pr_prio _ _ P))). lia.
Qed.
Lemma costs_weights procs l : Forall (proper procs) l -> weights (map said_of l) = costs l.
Proof. induction 1 as [|c l P _ IH]; cbn [map weights costs fold_right]; [reflexivity|]. fold (weights (map said_of l)) (costs l). now rewrite IH, (cost_weight procs c P). Qed.

(** ** The device *)
Definition wfile : file := mkFile true false None.
Definition wfiles (procs : list Z) : list (Z * file) := map (fun f => (f, wfile)) procs.
Lemma lookup_wfiles procs f : lookup f (wfiles procs) = if in_dec Z.eq_dec f procs then Some wfile else None.
Proof.
  induction procs as [|p procs IH]; cbn [wfiles map lookup]; [reflexivity|]. fold (wfiles procs). rewrite IH.
  destruct (Z.eqb_spec p f) as [->|N]; [destruct (in_dec _ f (f :: procs)) as [|X]; [reflexivity|exfalso; apply X; now left]|].
  destruct (in_dec Z.eq_dec f procs), (in_dec Z.eq_dec f (p :: procs)) as [Y|Y]; auto; exfalso.
  - apply Y. now right.
  - destruct Y; auto.
Qed.
Lemma run_app a : forall b d d1 o1 d2 o2, run d a = Ok (d1, o1) -> run d1 b = Ok (d2, o2) -> run d (a ++ b) = Ok (d2, o1 ++ o2).
Proof.
  induction a as [|o a IH]; intros b d d1 o1 d2 o2 E1 E2; cbn [run app] in *.
  - assert (d1 = d) by congruence. assert (o1 = []) by congruence. subst. exact E2.
  - destruct (step d o) as [[d0 x]|]; cbn [bind] in *; [|discriminate]. destruct (run d0 a) as [[d3 xs]|] eqn:E; cbn [bind] in *; [|discriminate].
    assert (d3 = d1) by congruence. assert (o1 = x :: xs) by congruence. subst. now rewrite (IH b d0 d1 xs d2 o2 E E2).
Qed.
Lemma run_opens l : forall a q, NoDup (a ++ q) ->
  run (Ring.mkDev l (wfiles a)) (opens q) = Ok (Ring.mkDev l (wfiles (a ++ q)), map (fun _ => OutVal 0) q).
Proof.
  intros a q. revert a. induction q as [|p q IH]; intros a N; cbn [opens map run step]; [now rewrite app_nil_r|].
  unfold ulogger_open. cbn [d_files d_log]. rewrite lookup_wfiles.
  assert (~ In p a). { intros X. apply NoDup_remove_2 in N. apply N, in_or_app. auto. }
  destruct (in_dec Z.eq_dec p a); [contradiction|]. cbn [andb bind]. fold (opens q).
  replace (wfiles a ++ [(p, mkFile true false None)]) with (wfiles (a ++ [p])) by (unfold wfiles; now rewrite map_app).
  rewrite IH by (now rewrite <- app_assoc). cbn [bind]. now rewrite <- app_assoc.
Qed.
Lemma fix_up_wfiles l old new len procs : fix_up_files l old new len (wfiles procs) = Ok (wfiles procs).
Proof. induction procs as [|p procs IH]; cbn [wfiles map fix_up_files]; [reflexivity|]. fold (wfiles procs). rewrite IH. reflexivity. Qed.
Lemma write_files d procs fid t sec nsec it d' x : d_files d = wfiles procs -> step d (OpWrite fid t sec nsec it) = Ok (d', x) -> d_files d' = wfiles procs.
Proof.
  intros F. cbn [step]. destruct (lookup fid (d_files d)) as [f|]; [|congruence]. destruct (f_write f); [|congruence].
  destruct (ulogger_write_iter d (f_raw f) t sec nsec it) as [[d1 v]|] eqn:E; [|discriminate]. cbn [bind]. intros [= <- _]. revert E.
  unfold ulogger_write_iter. destruct (f_raw f && _); [congruence|].
  match goal with |- (if ?b then _ else _) = _ -> _ => destruct b; [congruence|] end.
  match goal with |- bind ?m _ = _ -> _ => destruct m as [d0|] eqn:E0; [|discriminate] end. cbn [bind].
  assert (F0 : d_files d0 = wfiles procs).
  { unfold fix_up_readers in E0. rewrite F in E0. match type of E0 with bind ?m _ = _ => destruct m as [l'|]; [|discriminate] end.
    cbn [bind] in E0. rewrite fix_up_wfiles in E0. cbn [bind] in E0. assert (d0 = Ring.mkDev l' (wfiles procs)) by congruence. now subst. }
  match goal with |- bind ?m _ = _ -> _ => destruct m as [[l2 s1]|]; [|discriminate] end. cbn [bind].
  match goal with |- bind ?m _ = _ -> _ => destruct m as [[l3 r]|]; [|discriminate] end. cbn [bind].
  destruct r; intros [= <- _]; exact F0.
Qed.
Lemma iovec_readable v : readable (iovec v).
Proof. unfold iovec, readable. rewrite Forall_map. apply Forall_forall. intros b _. cbn. lia. Qed.
Lemma write_run procs l : Forall (proper procs) l -> forall d ops0 outs0 l0, reachable d -> d_files d = wfiles procs -> told ops0 outs0 l0 ->
  exists d' outs, d_files d' = wfiles procs /\ run d (map (fun c => say (p_fid c) (said_of c)) l) = Ok (d', outs) /\
    told (ops0 ++ map (fun c => say (p_fid c) (said_of c)) l) (outs0 ++ outs) (l0 ++ map said_of l).
Proof.
  induction 1 as [|c l P _ IH]; intros d ops0 outs0 l0 R F T; cbn [map run].
  - exists d, []. rewrite !app_nil_r. auto.
  - pose proof (call_sayable procs c P) as S. unfold say at 1. set (it := iovec _).
    assert (U : user_op (OpWrite (p_fid c) (s_task (said_of c)) (s_sec (said_of c)) (s_nsec (said_of c)) it)) by (apply readable_user, iovec_readable).
    destruct (reachable_R d R) as (a0 & m0 & HR0 & Hv0 & _). destruct (step_R d a0 _ U HR0 Hv0) as (d1 & E & _). match type of E with _ = Ok (_, ?y) => set (x := y) in *; clearbody x end. rewrite E. cbn [bind].
    pose proof (write_files d procs _ _ _ _ _ _ _ F E) as F1. pose proof (reachable_step _ _ _ _ R U E) as R1.
    assert (L : lookup (p_fid c) (d_files d) = Some wfile).
    { rewrite F, lookup_wfiles. destruct (in_dec Z.eq_dec (p_fid c) procs) as [|X]; [reflexivity|]. exfalso. apply X, (pr_fid _ _ P). }
    destruct (C12_write_succeeds _ _ _ _ _ _ _ _ _ R (iovec_readable _) L eq_refl ltac:(discriminate) E) as (v & -> & _).
    destruct (IH d1 (ops0 ++ [say (p_fid c) (said_of c)]) (outs0 ++ [OutVal v]) (l0 ++ [said_of c]) R1 F1 (td_msg _ _ _ _ _ _ T S)) as (d' & outs & F' & E' & T').
    rewrite E'. cbn [bind]. exists d', (OutVal v :: outs). split; [exact F'|]. split; [reflexivity|]. rewrite <- !app_assoc in T'. exact T'.
Qed.

Lemma add_ok d procs rfid all uid : reachable d -> d_files d = wfiles procs -> ~ In rfid procs ->
  exists node mark, add_ulog_device d rfid all uid = Ok (Some (node, mark)).
Proof.
  intros R F N. unfold add_ulog_device. cbn [step]. unfold ulogger_open. rewrite F, lookup_wfiles. destruct (in_dec Z.eq_dec rfid procs); [contradiction|].
  cbn [andb bind]. unfold ulogger_ioctl. cbn [d_files d_log].
  assert (L : forall x, lookup rfid (wfiles procs ++ [(rfid, x)]) = Some x).
  { intros x. clear F. induction procs as [|p procs IH]; cbn [wfiles map app lookup]; [now rewrite Z.eqb_refl|]. fold (wfiles procs).
    destruct (Z.eqb_spec p rfid) as [->|]; [exfalso; apply N; now left|]. apply IH; intros X; apply N; now right. }
  rewrite L. cbn [f_reader bind].
  destruct (reachable_R d R) as (a & m & (R1 & R2 & R3 & R4 & R5 & R6 & R7) & _).
  set (rd := mkReader (head (d_log d)) all 2 (dropped (d_log d))). set (ar := mkAReader (a_keep a) (a_gone a) all 2).
  assert (RR : R_reader (d_log d) rd ar) by (split; [exact R4|]; split; [exact R5|]; split; [exact R6|]; split; reflexivity).
  rewrite (get_log_len_R _ _ _ R1 RR). pose proof (total_nonneg (a_q ar)). unfold ret_out.
  destruct (Z.ltb_spec (RingSpec.total (a_q ar)) 0); [lia|]. eauto.
Qed.

(** ** One device *)
Lemma picks_one {A} (time : A -> Z) f q : picks time f q -> forall l, (forall d, f d = match d with O => l | _ => [] end) -> q = map (fun x => (0%nat, x)) l.
Proof.
  induction 1 as [f E|f g d x r q E _ G _ IH]; intros l F.
  - specialize (E 0%nat). rewrite F in E. now subst.
  - rewrite F in E. destruct d; [|discriminate]. subst l. cbn [map]. f_equal. apply IH. intros e. rewrite G, F. destruct e; reflexivity.
Qed.

(** ** The screen *)
Lemma lines_in_ok m : lines_of m (lines_in m).
Proof.
  assert (X : forall m, lines_in m <> []).
  { intros [|c r]; cbn [lines_in]; [discriminate|]. destruct (c =? 10); [destruct r; discriminate|]. destruct (lines_in r); discriminate. }
  induction m as [|c r IH].
  { split; [repeat constructor; intros []|]. right. exists [], []. auto. }
  cbn [lines_in]. destruct (Z.eqb_spec c 10) as [->|N].
  - destruct r as [|c' r'].
    + split; [repeat constructor; intros []|]. left. split; [discriminate|reflexivity].
    + remember (c' :: r') as r eqn:Er. destruct IH as [F [[Ne E]|(i & l & El & O & E)]]; (split; [constructor; [intros []|exact F]|]).
      * left. split; [discriminate|]. cbn [map concat app]. now rewrite <- E.
      * right. exists ([] :: i), l. rewrite El. split; [reflexivity|]. split; [|cbn [map concat app]; now rewrite <- E].
        left. destruct O as [|O]; [assumption|]. subst i. cbn in E. rewrite <- E, Er. discriminate.
  - destruct IH as [F D]. destruct (lines_in r) as [|l ls] eqn:EL; [exfalso; apply (X r EL)|]. split.
    { inversion F; subst. constructor; auto. intros [Y|Y]; auto. }
    destruct D as [[Ne E]|(i & l' & El & O & E)].
    + left. split; [discriminate|]. rewrite E. reflexivity.
    + destruct i as [|i0 i]; cbn [app] in El; injection El as -> ->.
      * right. exists [], (c :: l'). split; [reflexivity|]. split; [now left; discriminate|]. rewrite E. reflexivity.
      * right. exists ((c :: i0) :: i), l'. split; [reflexivity|]. split; [destruct O; [auto|discriminate]|]. rewrite E. reflexivity.
Qed.
Lemma letter_ok p : 0 <= p < 8 -> znth p priotab = nth (Z.to_nat p) (bytes_of_string "  CEWNID") 0.
Proof.
  intros H. assert (C : p = 0 \/ p = 1 \/ p = 2 \/ p = 3 \/ p = 4 \/ p = 5 \/ p = 6 \/ p = 7) by lia.
  repeat (destruct C as [C|C]; [subst p; reflexivity|]). subst p. reflexivity.
Qed.
Lemma padr_ok tag : padr 12 tag = tag ++ repeat 32 (12 - length tag).
Proof. unfold padr, zrepeat, zlen. do 2 f_equal. lia. Qed.
Definition plain : opts := mkO FShort false [] false [].
Lemma shows_block u : u_bin u = false -> 0 <= u_prio u < 8 -> zlen (block (u_prio u) (u_tag u) (u_msg u)) < 5248 ->
  text_render false plain u = Ok (Some (map Some (block (u_prio u) (u_tag u) (u_msg u)))).
Proof.
  intros B P S. destruct (text_render_text false plain u ltac:(discriminate) B P) as (pre & post & ls & E & L & _ & ->).
  rewrite <- (PropsRender.C48_lines_unique _ _ _ (lines_in_ok _) L).
  assert (T : full_text pre post (lines_in (u_msg u)) = block (u_prio u) (u_tag u) (u_msg u)).
  { unfold parts, ulog_parts in E. destruct (Z.ltb_spec (u_prio u) 0); [lia|]. destruct (Z.leb_spec 8 (u_prio u)); [lia|]. cbn [orb plain o_color o_label o_fmt] in E.
    injection E as <- <-. unfold full_text, block. f_equal. apply map_ext. intros l. unfold label, letter. rewrite Z.mod_small by lia.
    rewrite padr_ok, letter_ok by auto. cbn [app]. now rewrite <- ?app_assoc. }
  rewrite T. unfold cut. change (text_render_size <=? 0) with false. cbv iota. destruct (Z.ltb_spec (zlen (block (u_prio u) (u_tag u) (u_msg u))) text_render_size) as [|X]; [reflexivity|].
  unfold text_render_size in X. lia.
Qed.

Lemma zlen_label p t : zlen (label p t) = Z.max 12 (zlen t) + 4.
Proof. unfold label. rewrite !zlen_app. unfold zlen. rewrite repeat_length. cbn [length]. lia. Qed.
Lemma lines_sum (pre m : list Z) :
  (length (concat (map (fun l => pre ++ l ++ [10%Z]) (lines_in m))) <= Nat.max 1 (length m) * (length pre + 1) + 1)%nat.
Proof.
  assert (X : forall m, (exists l ls, lines_in m = l :: ls)).
  { intros [|c r]; cbn [lines_in]; [eauto|]. destruct (c =? 10); [destruct r; eauto|]. destruct (lines_in r); eauto. }
  induction m as [|c r IH]; [cbn [lines_in map concat length Nat.max]; rewrite !app_length; cbn [length]; lia|]. cbn [lines_in]. destruct r as [|c' r'].
  { destruct (c =? 10); cbn [lines_in map concat length Nat.max]; rewrite !app_length; cbn [length]; lia. }
  remember (c' :: r') as r eqn:Er. assert (Lr : (1 <= length r)%nat) by (subst r; cbn [length]; lia). destruct (c =? 10).
  - replace (match r with [] => [[]] | _ :: _ => [] :: lines_in r end) with ([] :: lines_in r) by (now subst r).
    cbn [map concat]. rewrite app_length. cbn [app]. rewrite app_length. cbn [length]. rewrite !Nat.max_r in * by lia. nia.
  - destruct (X r) as (l & ls & E). rewrite E in *. cbn [map concat length] in *. rewrite !app_length in *. cbn [length] in *. rewrite !Nat.max_r in * by lia. nia.
Qed.
(** A tag of 15 bytes is short enough, whatever the text. *)
Theorem C130_fits : forall c, zlen (p_tag c) <= 15 -> zlen (screen c) < 5248.
Proof.
  intros c T. unfold screen, block. set (m := firstn 255 (p_text c)). assert (M : (length m <= 255)%nat) by (unfold m; rewrite firstn_length; lia).
  pose proof (lines_sum (label (p_prio c) (p_tag c)) m) as L. pose proof (zlen_label (p_prio c) (p_tag c)) as LL. unfold zlen in *.
  assert (LB : (length (label (p_prio c) (p_tag c)) <= 19)%nat) by lia. clearbody m.
  assert (Nat.max 1 (length m) * (length (label (p_prio c) (p_tag c)) + 1) <= 255 * 20)%nat by (apply Nat.mul_le_mono; lia). lia.
Qed.
(** A longer tag can be too long: 255 empty lines, each with the tag. *)
Example C130_fits_sharp : exists c, zlen (p_tag c) = 16 /\ 5248 <= zlen (screen c).
Proof. exists (mkCall 1 (mkTask 1 1 [] [] 0) 0 0 [] (repeat 97 16) 7 6 (repeat 10 255)). split; [reflexivity|]. vm_compute. discriminate. Qed.

(** ** C130 *)
Lemma dec_bound l : forall a, 1 <= a -> Forall (fun c => 48 <= c <= 57) l ->
  10 ^ zlen l <= fold_left (fun a c => 10 * a + (c - 48)) l a.
Proof.
  intros a A F. enough (a * 10 ^ zlen l <= fold_left (fun a c => 10 * a + (c - 48)) l a) by (pose proof (Z.pow_pos_nonneg 10 (zlen l) ltac:(lia) (zlen_nonneg l)); nia).
  revert a A. induction F as [|c l C F IH]; intros a A; [change (zlen (@nil Z)) with 0; cbn [fold_left]; rewrite Z.pow_0_r; lia|]. cbn [fold_left]. rewrite zlen_cons, Z.pow_add_r by (pose proof (zlen_nonneg l); lia).
  specialize (IH (10 * a + (c - 48)) ltac:(lia)). pose proof (Z.pow_pos_nonneg 10 (zlen l) ltac:(lia) (zlen_nonneg l)). nia.
Qed.
Lemma digits_short digits n : Forall (fun c => 48 <= c <= 57) digits -> fold_left (fun a c => 10 * a + (c - 48)) digits 0 = n ->
  (forall r, digits = 48 :: r -> r = []) -> n < 2 ^ 31 -> zlen digits <= 10.
Proof.
  intros F V Z0 N. destruct digits as [|c r]; [change (zlen (@nil Z)) with 0; lia|]. inversion F as [|? ? C F']; subst. destruct (Z.eq_dec c 48) as [->|NC]; [rewrite (Z0 r eq_refl); change (zlen [48]) with 1; lia|].
  rewrite zlen_cons. cbn [fold_left] in N. pose proof (dec_bound r (10 * 0 + (c - 48)) ltac:(lia) F') as B.
  destruct (Z.le_gt_cases (zlen r) 9); [lia|]. pose proof (Z.pow_le_mono_r 10 10 (zlen r) ltac:(lia) ltac:(lia)) as P.
  change (10 ^ 10) with 10000000000 in P. change (2 ^ 31) with 2147483648 in N. eapply Z.le_lt_trans in N; [|exact B]. lia.
Qed.
Lemma lines_single l : ~ In 10 l -> lines_in (l ++ [10]) = [l].
Proof.
  induction l as [|c l IH]; intros N; cbn [app lines_in]; [reflexivity|]. rewrite IH by (intros X; apply N; now right).
  destruct (Z.eqb_spec c 10) as [->|]; [exfalso; apply N; now left|reflexivity].
Qed.
Lemma notice_shown nm n next r : zlen nm <= 15 -> warning nm n next r ->
  exists note, notice nm n note /\ text_render false plain r = Ok (Some (map Some note)).
Proof.
  intros HL (text & -> & W). destruct (Z.ltb_spec n (2 ^ 31)) as [B|B].
  - destruct (W B) as (digits & -> & F & V & Z0). clear W. pose proof (digits_short digits n F V Z0 B) as HD.
    set (tx := digits ++ bytes_of_string " log entries dropped").
    assert (TX : digits ++ bytes_of_string " log entries dropped" ++ [10] = tx ++ [10]) by (unfold tx; now rewrite <- app_assoc).
    rewrite TX. assert (N10 : ~ In 10 tx).
    { unfold tx. rewrite in_app_iff. intros [X|X]; [rewrite Forall_forall in F; specialize (F 10 X); lia|]. vm_compute in X. intuition discriminate. }
    assert (LT : zlen tx <= 30) by (unfold tx; rewrite zlen_app; change (zlen (bytes_of_string " log entries dropped")) with 20; lia).
    assert (BK : block 4 nm (tx ++ [10]) = label 4 nm ++ tx ++ [10]).
    { unfold block. rewrite lines_single by exact N10. cbn [map concat]. apply app_nil_r. }
    exists (block 4 nm (tx ++ [10])). split.
    + intros _. exists digits. split; [|auto]. rewrite BK, <- TX. unfold label, letter. change (nth (Z.to_nat (4 mod 8)) (bytes_of_string "  CEWNID") 0) with 87.
      change (bytes_of_string "W ") with [87; 32]. change (bytes_of_string ": ") with [58; 32]. cbn [app]. now rewrite <- !app_assoc.
    + apply (shows_block (mkU (s_sec next) (s_nsec next) 4 (-1) [] (-1) [] nm (tx ++ [10]) false 0)); [reflexivity|cbn; lia|]. cbn [u_prio u_tag u_msg].
      rewrite BK, !zlen_app, zlen_label. change (zlen [10]) with 1. lia.
  - destruct (text_render_text false plain (mkU (s_sec next) (s_nsec next) 4 (-1) [] (-1) [] nm text false 0) ltac:(discriminate) eq_refl ltac:(cbn; lia)) as (pre & post & ls & _ & _ & _ & E).
    eexists. split; [|exact E]. intros X. lia.
Qed.
Lemma some_inj {A} (l : list A) : forall l', map Some l = map Some l' -> l = l'.
Proof. induction l as [|x l IH]; intros [|y l'] E; try discriminate; [reflexivity|]. injection E as <- E. f_equal. auto. Qed.

(** Programs log through the library to one device, which is then dumped: the calls that pass the
    level of their tag are on the screen, in order, each with its letter, its tag and at most 255
    bytes of its text line by line; if the buffer was too small, the oldest are missing and a line
    says how many. *)
Theorem C130_screen : forall nm mem pow2 procs calls rfid all uid paths,
  init_ok nm mem pow2 -> ~ In 0 nm -> NoDup procs -> ~ In rfid procs -> Forall (proper procs) calls ->
  exists ops d outs node mark, program calls = Ok ops /\
    run (init_dev nm mem pow2) (opens procs ++ ops) = Ok (d, outs) /\
    add_ulog_device d rfid all uid = Ok (Some (node, mark)) /\
  exists lost kept, filter visible calls = lost ++ kept /\ (lost = [] \/ 2 ^ pow2 - 12300 < costs kept) /\
    let mine := if all then kept else filter (fun c => user c =? uid mod 2 ^ 32) kept in
  exists note, ((lost = [] \/ mine = []) /\ note = [] \/ lost <> [] /\ mine <> [] /\ notice nm (zlen lost) note) /\
    forall fuel, (2 * (length mine + 1) < fuel)%nat ->
      exists ns' c', process_logs fuel (live_env false uid) true 0 [node] (open_ctx 0 [mark]) 0 = Ok (Some (ns', c', 0)) /\
        output (mkO FShort false [] false []) paths (c_out c') = Ok (map Some (note ++ concat (map screen mine))).
Proof.
  intros nm mem pow2 procs calls rfid all uid paths HI HN ND NR HP.
  set (cs := filter visible calls). set (ops := map (fun c => say (p_fid c) (said_of c)) cs).
  assert (HPc : Forall (proper procs) cs).
  { apply Forall_forall. intros c Hc. apply filter_In in Hc as [Hc _]. rewrite Forall_forall in HP. auto. }
  set (d0 := init_dev nm mem pow2). set (d1 := Ring.mkDev (d_log d0) (wfiles procs)).
  assert (E1 : run d0 (opens procs) = Ok (d1, map (fun _ => OutVal 0) procs)) by apply (run_opens (d_log d0) [] procs ND).
  assert (UO : Forall user_op (opens procs)) by (apply Forall_map, Forall_forall; intros; exact Logic.I).
  assert (R1 : reachable d1) by (exists nm, mem, pow2, (opens procs); eauto).
  assert (T1 : told (opens procs) (map (fun _ => OutVal 0) procs) []).
  { clear. unfold opens. induction procs as [|p procs IH] using rev_ind; [constructor|]. rewrite !map_app. cbn [map]. apply td_quiet; [exact IH|exact Logic.I]. }
  destruct (write_run procs cs HPc d1 _ _ _ R1 eq_refl T1) as (d & outs & F & E2 & T). cbn [app] in T. fold ops in E2, T.
  pose proof (run_app _ _ _ _ _ _ _ E1 E2) as E.
  assert (UW : Forall user_op ops) by (apply Forall_map, Forall_forall; intros c _; apply readable_user, iovec_readable).
  assert (UA : Forall user_op (opens procs ++ ops)) by (now apply Forall_app).
  assert (R : reachable d) by (exists nm, mem, pow2, (opens procs ++ ops); eauto).
  destruct (add_ok d procs rfid all uid R F NR) as (node & mark & A).
  exists ops, d, (map (fun _ => OutVal 0) procs ++ outs), node, mark. split; [apply (program_says procs calls HP)|]. split; [exact E|]. split; [exact A|].
  set (g := mkLog nm mem pow2 (opens procs ++ ops) rfid all node mark).
  destruct (C105_any_times false uid [g] [map said_of cs]) as (us & RM & q & PK & D).
  { constructor; [|constructor]. split; [exact HI|]. split; [exact UA|]. exists d, (map (fun _ => OutVal 0) procs ++ outs). split; [exact E|exact A]. }
  { constructor; [|constructor]. exists d, (map (fun _ => OutVal 0) procs ++ outs). split; [exact E|exact T]. }
  { repeat constructor. exact HN. }
  { constructor; [|constructor]. apply Forall_map. eapply Forall_impl; [|exact HPc]. intros c P. destruct (pr_time _ _ P). unfold said_of. cbn [s_sec s_nsec]. lia. }
  inversion RM as [|? u ? us' RM1 RM2]; subst. inversion RM2; subst. clear RM RM2. cbn [fst snd] in RM1.
  destruct RM1 as (lost' & kept' & EL & RT & RM). cbn [g g_all g_pow2 g_nm] in *.
  apply map_eq_app in EL as (lost & kept & EL & <- & <-). exists lost, kept. fold cs. split; [exact EL|].
  assert (HPk : Forall (proper procs) kept) by (rewrite EL in HPc; now apply Forall_app in HPc).
  split; [destruct RT as [RT|RT]; [left; now destruct lost|right; now rewrite <- (costs_weights procs kept HPk)]|].
  cbv zeta. set (mine := if all then kept else _).
  assert (MI : (if all then map said_of kept else filter (fun m => t_euid (s_task m) mod 2 ^ 32 =? uid mod 2 ^ 32) (map said_of kept)) = map said_of mine).
  { unfold mine. destruct all; [reflexivity|]. clear. induction kept as [|c l IH]; cbn [map filter]; [reflexivity|]. unfold user at 1. cbn [said_of s_task].
    destruct (_ =? _); cbn [map]; now rewrite IH. }
  rewrite MI in RM. assert (HPm : Forall (proper procs) mine).
  { apply Forall_forall. intros c Hc. rewrite Forall_forall in HPk. apply HPk. unfold mine in Hc. destruct all; [exact Hc|now apply filter_In in Hc]. }
  clearbody mine.
  assert (TX : forall seen text, text_of plain paths false seen (map (fun x => (0%nat, x)) (map shown (map said_of mine))) text -> text = concat (map screen mine)).
  { clear - HPm. induction HPm as [|c l P _ IH]; intros seen text X; cbn [map concat] in *; [now inversion X|]. inversion X as [|? ? ? ? ba li re B L X' E1 E2 E3]; subst.
    cbn [andb] in B. subst ba. rewrite (IH _ _ X'). cbn [app]. f_equal.
    pose proof (shows_block (shown (said_of c))) as Q. unfold shown in Q. cbn [u_bin u_prio u_tag u_msg] in Q. rewrite (fits procs c P) in Q.
    cbn [said_of s_prio s_tag] in Q. rewrite (no_bit _ (proj2 (pr_prio _ _ P))) in Q. specialize (Q eq_refl).
    assert (LV : level_of (p_prio c) = p_prio c mod 8) by reflexivity. rewrite LV in Q. specialize (Q ltac:(apply Z.mod_pos_bound; lia)).
    assert (BK : block (p_prio c mod 8) (p_tag c) (ztake 255 (p_text c)) = screen c).
    { unfold screen, block. rewrite firstn_ztake. f_equal. apply map_ext. intros x. unfold label, letter. now rewrite Z.mod_mod. }
    rewrite BK in Q. specialize (Q (pr_room _ _ P)). fold (fitting (said_of c)) in Q. unfold shown in L. rewrite (fits procs c P) in L. cbn [said_of s_prio s_tag] in L. rewrite LV in L.
    rewrite (no_bit _ (proj2 (pr_prio _ _ P))) in L. rewrite Q in L. destruct L as [L|[L _]]; [|discriminate]. injection L as L.
    symmetry. exact (some_inj _ _ L). }
  assert (WA : filter (wanted false) (map shown (map said_of mine)) = map shown (map said_of mine)).
  { clear - HPm. induction HPm as [|c l P _ IH]; cbn [map filter]; [reflexivity|]. rewrite IH. unfold wanted, shown at 1. cbn [u_bin said_of s_prio].
    now rewrite (no_bit _ (proj2 (pr_prio _ _ P))). }
  assert (PF : forall d, filter (wanted false) (nth d [u] []) = match d with O => filter (wanted false) u | _ => [] end) by (intros [|[|k]]; reflexivity).
  pose proof (picks_one _ _ _ PK _ PF) as EQ. clear PK PF.
  assert (CO : (count [u] <= length mine + 1)%nat /\ exists note,
     ((lost = [] \/ mine = []) /\ note = [] \/ lost <> [] /\ mine <> [] /\ notice nm (zlen lost) note) /\
     forall text, text_of plain paths false [] q text -> text = note ++ concat (map screen mine)).
  { destruct mine as [|c0 mine0] eqn:EM; cbn [map] in RM.
    - subst u. split; [cbn; lia|]. exists []. split; [auto|]. intros text X. rewrite EQ in X. cbn in X. inversion X. reflexivity.
    - rewrite <- EM in *. fold (map said_of mine0) in RM. assert (RM' : (map said_of lost = [] /\ u = map shown (map said_of mine)) \/
        (map said_of lost <> [] /\ exists r, warning nm (zlen (map said_of lost)) (said_of c0) r /\ u = r :: map shown (map said_of mine))) by (rewrite EM; exact RM). clear RM.
      destruct RM' as [[L ->]|[L (r & W & ->)]].
      + split; [unfold count; cbn; rewrite ?app_length, ?map_length; cbn; lia|]. exists []. split; [left; split; [left; now destruct lost|reflexivity]|].
        intros text X. rewrite EQ, WA in X. apply (TX _ _ X).
      + split; [unfold count; cbn; rewrite ?app_length, ?map_length; cbn; lia|].
        rewrite zlen_map in W. destruct (notice_shown _ _ _ _ (proj2 (proj2 HI)) W) as (note & NO & RE). exists note. split.
        * right. split; [intros ->; apply L; reflexivity|]. split; [congruence|exact NO].
        * intros tx X. assert (wanted false r = true) as WR by (destruct W as (? & -> & _); reflexivity).
          rewrite EQ in X. cbn [filter] in X. rewrite WR, WA in X. cbn [map] in X. inversion X as [|? ? ? ? ba li re Bn Ln X' Y1 Y2 Y3]; subst tx.
          cbn [andb] in Bn. subst ba. rewrite (TX _ _ X'). cbn [app]. rewrite RE in Ln. destruct Ln as [Ln|[Ln _]]; [|discriminate]. injection Ln as Ln. now rewrite (some_inj _ _ Ln). }
  destruct CO as (CO & note & NO & TT). exists note. split; [exact NO|]. intros fuel HF.
  destruct (D fuel ltac:(lia) 0 ltac:(lia)) as (ns' & c' & PL & EN). cbn [Z.eqb] in EN. change (map g_node [g]) with [node] in PL. change (map g_mark [g]) with [mark] in PL.
  exists ns', c'. split; [exact PL|]. destruct (C103_text plain paths false uid 0 [mark] fuel true 0 [node] ns' c' 0 ltac:(lia) PL) as (text & O & TO).
  rewrite EN in TO. change (1 <? zlen [mark]) with false in TO. rewrite <- (TT _ TO). exact O.
Qed.

(** A program with a main thread and another one, three calls; the second is below the level of the tag. *)
Definition ex_call (sec tid level prio : Z) (s : string) : call :=
  mkCall 7 (mkTask 100 tid (bytes_of_string "prog") (bytes_of_string "worker") 5) sec 0 (repeat 170 256) (bytes_of_string "net") level prio
         (bytes_of_string s).
Definition ex_calls : list call :=
  [ex_call 1 100 6 6 "link up"; ex_call 2 101 6 7 "detail"; ex_call 3 101 6 3 (String.append "lost" (String (Ascii.ascii_of_nat 10) "retry"))].
Example C130_ex : init_ok (bytes_of_string "ulog_main") (zrepeat 170 16384) 14 /\ ~ In 0 (bytes_of_string "ulog_main") /\ NoDup [7] /\ ~ In 8 [7] /\
  Forall (proper [7]) ex_calls /\ zlen (filter visible ex_calls) = 2 /\
  concat (map screen (filter visible ex_calls)) =
    bytes_of_string "I net         : link up" ++ [10] ++ bytes_of_string "E net         : lost" ++ [10] ++
    bytes_of_string "E net         : retry" ++ [10].
Proof.
  split. { split; [lia|]. split; [rewrite zlen_zrepeat; reflexivity|vm_compute; discriminate]. }
  split; [vm_compute; intuition discriminate|]. split; [repeat constructor; intros []|]. split; [intros [X|[]]; lia|].
  split; [|split; [reflexivity|vm_compute; reflexivity]].
  unfold ex_calls, ex_call. repeat constructor; cbn [p_fid p_task p_sec p_nsec p_stack p_tag p_prio p_text t_tgid t_pid]; unfold ProgramSpec.int32;
    try lia; try reflexivity; try (vm_compute; intuition discriminate); try (apply C130_fits; vm_compute; discriminate).
Qed.
Print Assumptions C130_fits.
Print Assumptions C130_screen.
