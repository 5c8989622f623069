(** Property C139: from log statements with the C++ streams to the bytes that ulogcat prints.

    Vocabulary: StreamRunSpec.v ([interleaves], [stat_says], [of_thread]), SaidRunSpec.v ([dumped]). *)
From Coq Require Import ZArith String List Bool Lia ZifyBool ZifyNat Arith.
From Verif Require Import Bytes BytesProofs Ring RingSpec RingLemmas RingObs RingRefine Parse ParseSpec Iov SaidSpec PropsSaid Program ProgramSpec
  SaidRunSpec PropsProgram SaidScreen PropsSyslogRun Stream StreamThreads PropsStream PropsStreamThreads StreamRun StreamRunSpec.
From Verif Require Macros Writer RedirectProofs.
Import ListNotations.
Open Scope Z_scope.

(** ** No stream goes bad *)
Fixpoint sumto (n : nat) (f : nat -> Z) : Z := match n with O => 0 | Datatypes.S n => sumto n f + f n end.
Lemma sumto_change n f g t : (t < n)%nat -> (forall i, i <> t -> f i = g i) -> sumto n g = sumto n f - f t + g t.
Proof.
  intros T E. induction n as [|n IH]; [lia|]. cbn [sumto]. destruct (Nat.eq_dec t n) as [->|N].
  - assert (X : sumto n g = sumto n f); [|lia]. assert (E' : forall i, (i < n)%nat -> f i = g i) by (intros; apply E; lia). clear - E'. induction n as [|n IH]; [reflexivity|]. cbn [sumto]. rewrite IH, E' by (intros; try apply E'; lia). reflexivity.
  - rewrite IH by lia. rewrite (E n) by lia. lia.
Qed.
Lemma sumto_same n f g : (forall i, f i = g i) -> sumto n g = sumto n f.
Proof. intros E. induction n as [|n IH]; [reflexivity|]. cbn [sumto]. now rewrite IH, E. Qed.
Lemma sumto_bound n f : (forall i, 0 <= f i <= 1) -> 0 <= sumto n f <= Z.of_nat n.
Proof. intros B. induction n as [|n IH]; cbn [sumto]; [lia|]. specialize (B n). lia. Qed.

(** The last thing done is to put a character in stream [j]. *)
Fixpoint pend (h : list op) (j : Z) : Z :=
  match h with
  | [] => 0
  | [Put l _] => if l =? j then 1 else 0
  | _ :: h => pend h j
  end.
Lemma pend_snoc h o j : pend (h ++ [o]) j = match o with Put l _ => if l =? j then 1 else 0 | _ => 0 end.
Proof. induction h as [|x h IH]; [destruct o; reflexivity|]. cbn [app]. rewrite <- IH. destruct h; destruct x; reflexivity. Qed.
Lemma pend_01 h j : 0 <= pend h j <= 1.
Proof. induction h as [|x h IH] using rev_ind; [cbn; lia|]. rewrite pend_snoc. destruct x; try lia. destruct (l =? j); lia. Qed.
(** After a character comes a flush of the same stream. *)
Definition tidy (h : list op) : Prop := forall a j c o b, h = a ++ Put j c :: o :: b -> o = Flush j.
Lemma stat_tidy l r : tidy r -> (forall o r', r = o :: r' -> exists t, o = Tag t) -> tidy (stat_ops l ++ r).
Proof.
  intros TR HR a j c o b E. unfold stat_ops in E. cbn [app] in E.
  destruct a as [|x a]; [discriminate|]. injection E as _ E. rewrite <- app_assoc in E.
  assert (G : forall ps a, map (Write (sx_level l)) ps ++ ((if sx_endl l then [Put (sx_level l) 10] else []) ++ [Flush (sx_level l)]) ++ r = a ++ Put j c :: o :: b -> o = Flush j).
  2: { apply (G _ _ E). }
  clear a E. induction ps as [|p ps IH]; intros a E.
  - cbn [map app] in E. destruct (sx_endl l).
    + cbn [app] in E. destruct a as [|y a]; [injection E as <- _ <- _; reflexivity|]. injection E as _ E. destruct a as [|z a]; [discriminate|]. injection E as _ E. eapply TR. exact E.
    + cbn [app] in E. destruct a as [|y a]; [discriminate|]. injection E as _ E. eapply TR. exact E.
  - cbn [map app] in E. destruct a as [|y a]; [discriminate|]. injection E as _ E. eapply IH. exact E.
Qed.
Lemma stats_tidy ms : tidy (concat (map stat_ops ms)).
Proof.
  induction ms as [|m ms IH]; [intros a j c o b E; destruct a; discriminate|]. cbn [map concat]. apply stat_tidy; [exact IH|].
  intros o r' E. destruct ms as [|m' ms]; [discriminate|]. cbn in E. injection E as <- _. eauto.
Qed.
Lemma done_app t a b : done_by t (a ++ b) = done_by t a ++ done_by t b.
Proof. apply flat_map_app. Qed.
Lemma tidy_pend h o r j : tidy (h ++ o :: r) -> pend h j <> 0 -> o = Flush j.
Proof.
  intros T P. destruct (exists_last (l := h)) as (a & x & ->); [intros ->; now apply P|]. rewrite pend_snoc in P.
  destruct x as [tg|l s|l c|l]; try (now exfalso). destruct (Z.eqb_spec l j) as [->|]; [|now exfalso]. rewrite <- app_assoc in T. cbn [app] in T. eapply T. reflexivity.
Qed.
Record good (past : list top) (w : world) : Prop := {
  gd_bad : forall j, w_bad w j = false;
  gd_fill : forall j, w_fill w j <= sumto 512 (fun t => pend (done_by t past) j) }.
Lemma good_step cap past w x rest : good past w -> (forall t, tidy (done_by t (past ++ x :: rest))) -> (forall t o, x = Do t o -> (t < 512)%nat) -> good (past ++ [x]) (fst (wstep cap w x)).
Proof.
  intros G T N. destruct x as [t o|t].
  2: { cbn [wstep fst]. constructor; cbn [w_bad w_fill]; [apply G|]. intros j. erewrite sumto_same; [apply (gd_fill _ _ G)|]. intros i. cbn beta. rewrite done_app. cbn [done_by flat_map app]. now rewrite app_nil_r. }
  specialize (N t o eq_refl).
  assert (DT : forall i, done_by i (past ++ [Do t o]) = done_by i past ++ (if Nat.eqb t i then [o] else [])).
  { intros i. rewrite done_app. cbn [done_by flat_map app]. now rewrite app_nil_r. }
  assert (SUM : forall j, sumto 512 (fun i => pend (done_by i (past ++ [Do t o])) j) =
    sumto 512 (fun i => pend (done_by i past) j) - pend (done_by t past) j + match o with Put l _ => if l =? j then 1 else 0 | _ => 0 end).
  { intros j. rewrite (sumto_change 512 (fun i => pend (done_by i past) j) _ t N).
    - rewrite DT, Nat.eqb_refl, pend_snoc. reflexivity.
    - intros i Hi. rewrite DT. destruct (Nat.eqb_spec t i); [congruence|]. now rewrite app_nil_r. }
  assert (PE : forall j, pend (done_by t past) j <> 0 -> o = Flush j).
  { intros j. specialize (T t). rewrite done_app in T. cbn [done_by flat_map] in T. rewrite Nat.eqb_refl in T. cbn [app] in T. now apply (tidy_pend _ _ _ j T). }
  assert (LT : forall j, pend (done_by t past) j = 0 -> sumto 512 (fun i => pend (done_by i past) j) <= 511).
  { intros j Z0. pose proof (sumto_change 512 (fun i => pend (done_by i past) j) (fun i => if Nat.eqb i t then 1 else pend (done_by i past) j) t N) as SC.
    cbv beta in SC. rewrite Nat.eqb_refl, Z0 in SC. pose proof (sumto_bound 512 (fun i => if Nat.eqb i t then 1 else pend (done_by i past) j)) as B.
    specialize (SC ltac:(intros i Hi; cbv beta; destruct (Nat.eqb_spec i t); congruence)). specialize (B ltac:(intros i; cbv beta; destruct (Nat.eqb i t); [lia|apply pend_01])). lia. }
  cbn [wstep]. destruct o as [tg|l s|l c|l]; cbn [step st_str st_tag st_fill st_bad]; rewrite ?(gd_bad _ _ G).
  - constructor; cbn [fst w_bad w_fill]; [apply G|]. intros j. rewrite SUM. cbv iota. destruct (Z.eq_dec (pend (done_by t past) j) 0) as [E|E]; [|apply PE in E; discriminate]. pose proof (gd_fill _ _ G j). lia.
  - constructor; cbn [w_bad w_fill fst st_bad st_fill]; [apply G|]. intros j. rewrite SUM. cbv iota. destruct (Z.eq_dec (pend (done_by t past) j) 0) as [E|E]; [|apply PE in E; discriminate]. pose proof (gd_fill _ _ G j). lia.
  - assert (E0 : forall j, pend (done_by t past) j = 0). { intros j. destruct (Z.eq_dec (pend (done_by t past) j) 0) as [E|E]; [exact E|apply PE in E; discriminate]. }
    pose proof (gd_fill _ _ G l) as F1. pose proof (LT l (E0 l)) as F2. unfold CPP_BUF_SIZE. destruct (Z.ltb_spec (w_fill w l) 512); [|lia].
    constructor; cbn [w_bad w_fill fst st_bad st_fill]; [apply G|]. intros j. rewrite SUM, E0. cbv iota. unfold upd. rewrite (Z.eqb_sym l j). pose proof (gd_fill _ _ G j). destruct (Z.eqb_spec j l) as [->|]; lia.
  - unfold sync. cbn [st_str st_tag st_fill st_bad]. assert (X : good (past ++ [Do t (Flush l)]) (mkWorld (w_key w) (upd (w_fill w) l 0) (w_bad w))).
    { constructor; cbn [w_bad w_fill]; [apply G|]. intros j. rewrite SUM. cbv iota. unfold upd. pose proof (sumto_bound 512 (fun i => pend (done_by i (past ++ [Do t (Flush l)])) j) ltac:(intros; apply pend_01)) as B. rewrite SUM in B. cbv iota in B.
      destruct (Z.eqb_spec j l) as [->|NJ]; [lia|]. destruct (Z.eq_dec (pend (done_by t past) j) 0) as [E|E]; [|apply PE in E; congruence]. pose proof (gd_fill _ _ G j). lia. }
    destruct (fst (w_key w t)) as [[|c cs]|]; cbn [fst]; constructor; cbn [w_bad w_fill st_bad st_fill]; apply X.
Qed.
Lemma good_run cap : forall l past w, good past w -> (forall t, tidy (done_by t (past ++ l))) -> (forall t o, In (Do t o) l -> (t < 512)%nat) -> good (past ++ l) (fst (wrun cap w l)).
Proof.
  induction l as [|x l IH]; intros past w G T N; [now rewrite app_nil_r|]. cbn [wrun].
  assert (G1 : good (past ++ [x]) (fst (wstep cap w x))). { eapply good_step; [exact G|exact T|]. intros t o ->. eapply N. now left. }
  destruct (wstep cap w x) as [w1 e1]. cbn [fst] in G1. specialize (IH (past ++ [x]) w1 G1). rewrite <- app_assoc in IH. cbn [app] in IH.
  specialize (IH T (fun t o H => N t o (or_intror H))). destruct (wrun cap w1 l) as [w2 e2]. exact IH.
Qed.

(** ** What the threads log *)
Definition no_put (o : op) : bool := match o with Put _ _ => false | _ => true end.
Lemma doings_done t : forall l, ends_last t l -> doings t l = filter no_put (done_by t l).
Proof.
  induction l as [|x l IH]; intros E; [reflexivity|]. destruct x as [i o|i]; cbn [doings ends_last done_by flat_map] in *.
  - destruct (Nat.eqb i t); [|apply IH, E]. cbn [app filter]. change (flat_map _ l) with (done_by t l). rewrite <- (IH E). destruct o; reflexivity.
  - destruct E as (E1 & E2). destruct (Nat.eqb_spec i t) as [EQ|]; [|apply IH, E2]. specialize (E1 EQ). cbn [app]. clear - E1. induction E1 as [|x l X _ IH]; [reflexivity|].
    cbn [flat_map]. destruct x as [j o|j]; [|exact IH]. destruct (Nat.eqb_spec j t); [contradiction|exact IH].
Qed.
Lemma ends_orderly t : forall l, ends_last t l -> orderly t l.
Proof.
  induction l as [|x l IH]; intros E; [constructor|]. destruct x as [i o|i]; cbn [orderly ends_last] in *; [auto|]. destruct E as (E1 & E2).
  destruct (Nat.eqb_spec i t); auto.
Qed.
Definition plain_stmt (m : statement) : stmt := mkStmt (sx_level m) (sx_tag m) (sx_pieces m) false.
Lemma stats_plain ms : filter no_put (concat (map stat_ops ms)) = concat (map stmt_ops (map plain_stmt ms)).
Proof.
  induction ms as [|m ms IH]; [reflexivity|]. cbn [map concat]. rewrite filter_app, IH. f_equal. unfold stat_ops, stmt_ops, plain_stmt. cbn [sm_level sm_tag sm_pieces sm_endl app filter no_put].
  f_equal. rewrite filter_app. f_equal; [induction (sx_pieces m) as [|p ps IH2]; [reflexivity|]; cbn [map filter no_put]; now rewrite IH2|]. destruct (sx_endl m); reflexivity.
Qed.
Lemma threads_log cap threads l : 512 <= cap -> interleaves threads l -> (forall t, Forall stat_fine (threads t)) ->
  forall t, logs_of t (snd (wrun cap winit l)) = concat (map stmt_msg (map plain_stmt (threads t))).
Proof.
  intros HC HI HF t. rewrite C121_apart_partial; [|apply ends_orderly, (HI t)|].
  - rewrite doings_done by apply (HI t). rewrite (proj1 (HI t)), stats_plain. apply C57_statements_partial; [exact HC|]. rewrite Forall_map. eapply Forall_impl; [|apply HF].
    intros m Hm. cbn [plain_stmt sm_pieces]. destruct (sf_text _ Hm). auto.
  - enough (G : good l (fst (wrun cap winit l))) by apply G. change l with ([] ++ l) at 1. apply good_run.
    + constructor; [reflexivity|]. intros j. cbn [winit w_fill]. apply sumto_bound. intros; apply pend_01.
    + intros i. cbn [app]. rewrite (proj1 (HI i)). apply stats_tidy.
    + intros i o Hi. destruct (Nat.lt_ge_cases i 512) as [|GE]; [assumption|]. exfalso. destruct (HI i) as (D & _ & N0). rewrite (N0 GE) in D. cbn in D.
      assert (X : In o (done_by i l)). { unfold done_by. apply in_flat_map. exists (Do i o). split; [exact Hi|]. rewrite Nat.eqb_refl. now left. } rewrite D in X. destruct X.
Qed.

(** ** The writes *)
Fixpoint traced (cap : Z) (w : world) (l : list use) : list (use * (nat * event)) :=
  match l with
  | [] => []
  | u :: l => let '(w, ev) := wstep cap w (us_top u) in map (fun e => (u, e)) ev ++ traced cap w l
  end.
Lemma traced_events cap : forall l w, map snd (traced cap w l) = snd (wrun cap w (map us_top l)).
Proof.
  induction l as [|u l IH]; intros w; [reflexivity|]. cbn [traced map wrun]. destruct (wstep cap w (us_top u)) as [w1 ev]. rewrite map_app, map_map, map_id, IH.
  now destruct (wrun cap w1 (map us_top l)).
Qed.
Definition becomes (g : cprog) (x : use * (nat * event)) : list (nat * (Z * said)) :=
  let '(u, (t, Log level tag text)) := x in
  if level <=? cp_level g (tag_name tag) then [(t, (cp_fid g, mkSaid (cp_task g t) (us_sec u) (us_nsec u) level (tag_name tag) text))] else [].
(** A message as the statements make it. *)
Definition sane (e : event) : Prop := match e with Log level tag text => exists m, stat_fine m /\ level = sx_level m /\ tag = Some (sx_tag m) /\ text = concat (sx_pieces m) end.
Lemma becomes_ok g u x : sane (snd x) -> sync_write g u x = Ok (map (fun y => say (fst (snd y)) (snd (snd y))) (becomes g (u, x))).
Proof.
  destruct x as [t [level tag text]]. intros (m & F & -> & -> & ->). unfold sync_write, becomes. cbn [tag_name]. unfold Macros.ulog_log_str.
  assert (HN : Writer.has_nul (concat (sx_pieces m) ++ [0]) = true) by (unfold Writer.has_nul; rewrite existsb_app; cbn; now rewrite orb_true_r).
  rewrite HN. cbn [bind]. unfold Macros.enabled. rewrite land7, Z.mod_small by apply (sf_level _ F).
  rewrite (RedirectProofs.cstr_nul _ []) by apply (sf_text _ F). destruct (sx_level m <=? cp_level g (sx_tag m)); [|reflexivity].
  cbn [map fst snd]. unfold say. cbn [s_task s_sec s_nsec s_prio s_tag s_msg]. now rewrite (small_text _ (sf_level _ F)).
Qed.
Lemma sperform_says g : forall l w, Forall (fun x => sane (snd (snd x))) (traced (cp_cap g) w l) ->
  sperform g w l = Ok (map (fun y => say (fst (snd y)) (snd (snd y))) (flat_map (becomes g) (traced (cp_cap g) w l))).
Proof.
  induction l as [|u l IH]; intros w F; [reflexivity|]. cbn [sperform traced] in *. destruct (wstep (cp_cap g) w (us_top u)) as [w1 ev]. apply Forall_app in F. destruct F as (F1 & F2).
  rewrite flat_map_app, map_app. rewrite (IH w1 F2).
  assert (W : sync_writes g u ev = Ok (map (fun y => say (fst (snd y)) (snd (snd y))) (flat_map (becomes g) (map (fun e => (u, e)) ev)))).
  { clear - F1. induction ev as [|e ev IH]; [reflexivity|]. inversion F1 as [|? ? A B]; subst. cbn [sync_writes map flat_map]. rewrite (becomes_ok g u e A). cbn [bind]. rewrite (IH B). cbn [bind]. now rewrite map_app. }
  rewrite W. reflexivity.
Qed.
Definition passes (g : cprog) (e : event) : list (Z * list Z * list Z) :=
  match e with Log level tag text => if level <=? cp_level g (tag_name tag) then [(level, tag_name tag, text)] else [] end.
Lemma of_thread_events g t l : of_thread t (flat_map (becomes g) l) = flat_map (passes g) (logs_of t (map snd l)).
Proof.
  unfold of_thread, logs_of. induction l as [|[u [i [level tag text]]] l IH]; [reflexivity|]. cbn [map flat_map snd filter fst]. rewrite filter_app, map_app, IH. unfold becomes.
  destruct (Nat.eqb_spec i t) as [->|N]; cbn [map flat_map snd passes]; destruct (level <=? cp_level g (tag_name tag)); cbn [filter fst map app snd s_prio s_tag s_msg]; try reflexivity.
  - now rewrite Nat.eqb_refl. - destruct (Nat.eqb_spec i t); [contradiction|reflexivity].
Qed.
Lemma passes_stats g ms : flat_map (passes g) (concat (map stmt_msg (map plain_stmt ms))) = concat (map (stat_says g) ms).
Proof.
  induction ms as [|m ms IH]; [reflexivity|]. cbn [map concat]. rewrite flat_map_app, IH. f_equal. unfold stmt_msg, stat_says. cbn [plain_stmt sm_level sm_tag sm_pieces].
  destruct (concat (sx_pieces m)); [reflexivity|]. cbn [flat_map passes tag_name]. apply app_nil_r.
Qed.

(** The threads of a program log with UlogX << ... << std::endl, interleaved in any way, and the device is
    then dumped: the messages on the screen are the statements that say something and pass the level
    of their tag, those of each thread in order; if the buffer was too small, the oldest are missing and a line says
    how many. *)
Theorem C139_screen : forall nm mem pow2 g threads l rfid all uid paths,
  init_ok nm mem pow2 -> ~ In 0 nm -> rfid <> cp_fid g -> prog_fine g -> (forall t, Forall stat_fine (threads t)) ->
  Forall (fun u => 0 <= us_sec u < 2 ^ 31 /\ 0 <= us_nsec u < 2 ^ 31) l -> interleaves threads (map us_top l) ->
  exists ops out, sperform g winit l = Ok ops /\ dumped nm mem pow2 (opens [cp_fid g] ++ ops) (map snd out) rfid all uid paths /\
    (forall t, of_thread t out = concat (map (stat_says g) (threads t))) /\
    Forall (fun x => fst (snd x) = cp_fid g /\ s_task (snd (snd x)) = cp_task g (fst x)) out.
Proof.
  intros nm mem pow2 g threads l rfid all uid paths HI HN NR PF SF HT IL. set (tr := traced (cp_cap g) winit l).
  assert (LG : forall t, logs_of t (map snd tr) = concat (map stmt_msg (map plain_stmt (threads t)))).
  { intros t. unfold tr. rewrite traced_events. apply threads_log; auto. apply (cf_cap _ PF). }
  assert (SN : Forall (fun x => sane (snd (snd x))) tr).
  { rewrite Forall_forall. intros [u [t e]] Hx. cbn [snd]. assert (IE : In e (logs_of t (map snd tr))).
    { unfold logs_of. apply in_map_iff. exists (t, e). split; [reflexivity|]. apply filter_In. split; [|cbn; apply Nat.eqb_refl]. apply in_map_iff. exists (u, (t, e)). auto. }
    rewrite LG in IE. apply in_concat in IE. destruct IE as (y & Hy & IE). rewrite map_map in Hy. apply in_map_iff in Hy. destruct Hy as (m & <- & Hm).
    specialize (SF t). rewrite Forall_forall in SF. specialize (SF m Hm). unfold stmt_msg, plain_stmt in IE. cbn [sm_level sm_tag sm_pieces] in IE.
    destruct (concat (sx_pieces m)) as [|c r] eqn:EC; [destruct IE|]. destruct IE as [<-|[]]. cbn. exists m. auto. }
  set (out := flat_map (becomes g) tr). assert (US : Forall (fun x => In (fst x) l) tr).
  { unfold tr. clear. generalize winit. induction l as [|u l IH]; intros w; [constructor|]. cbn [traced]. destruct (wstep (cp_cap g) w (us_top u)) as [w1 ev]. apply Forall_app. split.
    - rewrite Forall_map, Forall_forall. intros e _. now left.
    - eapply Forall_impl; [|apply IH]. intros x Hx. now right. }
  exists (map (fun y => say (fst (snd y)) (snd (snd y))) out), out. split; [now apply sperform_says|].
  assert (OUT : Forall (fun y => exists u t m, In u l /\ stat_fine m /\ y = (t, (cp_fid g, mkSaid (cp_task g t) (us_sec u) (us_nsec u) (sx_level m) (sx_tag m) (concat (sx_pieces m))))) out).
  { unfold out. rewrite Forall_forall. intros y Hy. apply in_flat_map in Hy. destruct Hy as ([u [t [level tag text]]] & Hx & Hy). rewrite Forall_forall in SN, US. specialize (US _ Hx). destruct (SN _ Hx) as (m & F & -> & -> & ->). cbn [fst] in US.
    unfold becomes in Hy. cbn [tag_name] in Hy. destruct (sx_level m <=? cp_level g (sx_tag m)); [|destruct Hy]. destruct Hy as [<-|[]]. exists u, t, m. auto. }
  split; [|split].
  - replace (map (fun y => say (fst (snd y)) (snd (snd y))) out) with (map (fun x => say (fst x) (snd x)) (map snd out)) by (now rewrite map_map).
    apply said_screen; auto.
    + repeat constructor. intros [].
    + intros [X|[]]. congruence.
    + rewrite Forall_map. eapply Forall_impl; [|exact OUT]. intros y (u & t & m & _ & _ & ->). now left.
    + rewrite Forall_map. eapply Forall_impl; [|exact OUT]. intros y (u & t & m & Hu & F & ->). rewrite Forall_forall in HT. destruct (HT u Hu) as (T1 & T2). destruct (cf_ids _ PF t) as (I1 & I2).
      destruct (sf_tag _ F) as (G1 & G2), (sf_text _ F) as (X1 & X2). pose proof (sf_level _ F) as LV. pose proof (zlen_names (cp_task g t)) as NN.
      constructor; cbn [snd s_task s_sec s_nsec s_prio s_tag s_msg]; auto; [|now apply small_text|].
      * unfold sayable. cbn [s_task s_sec s_nsec s_prio s_tag s_msg]. unfold ParseSpec.int32, int32, uint32, c_string in *. repeat split; try lia; auto.
      * unfold roomy, text_line. cbn [snd s_prio s_tag]. replace (fitting _) with (concat (sx_pieces m)); [apply (sf_room _ F)|]. unfold fitting. cbn [s_task s_prio s_tag s_msg]. rewrite (small_text _ LV).
        symmetry. apply ztake_all. lia.
  - intros t. unfold out. rewrite of_thread_events, LG. apply passes_stats.
  - eapply Forall_impl; [|exact OUT]. intros y (u & t & m & _ & _ & ->). auto.
Qed.

(** Two threads, interleaved in the middle of their statements; the second message of the first one does not
    pass, nor does an empty one. *)
Definition ex_g : cprog := mkProg 7 (fun t => mkTask 100 (100 + Z.of_nat t mod 2) (bytes_of_string "prog") (bytes_of_string "worker") 5) (fun _ => 6) 512.
Definition ex_threads (t : nat) : list statement :=
  match t with
  | O => [mkStat 6 (bytes_of_string "net") [bytes_of_string "count "; bytes_of_string "42"] true; mkStat 7 (bytes_of_string "net") [bytes_of_string "detail"] true]
  | 1%nat => [mkStat 3 (bytes_of_string "io") [bytes_of_string "lost"] true; mkStat 3 (bytes_of_string "io") [] true]
  | _ => []
  end.
Definition ex_uses : list use :=
  map (fun x => mkUse x 1 0)
    [Do 0 (Tag (bytes_of_string "net")); Do 1 (Tag (bytes_of_string "io")); Do 0 (Write 6 (bytes_of_string "count ")); Do 1 (Write 3 (bytes_of_string "lost"));
     Do 0 (Write 6 (bytes_of_string "42")); Do 1 (Put 3 10); Do 0 (Put 6 10); Do 1 (Flush 3); Do 0 (Flush 6);
     Do 1 (Tag (bytes_of_string "io")); Do 1 (Put 3 10); Do 1 (Flush 3); End 1;
     Do 0 (Tag (bytes_of_string "net")); Do 0 (Write 7 (bytes_of_string "detail")); Do 0 (Put 7 10); Do 0 (Flush 7)].
Example C139_ex : init_ok (bytes_of_string "ulog_main") (zrepeat 170 16384) 14 /\ ~ In 0 (bytes_of_string "ulog_main") /\ prog_fine ex_g /\ (forall t, Forall stat_fine (ex_threads t)) /\
  Forall (fun u => 0 <= us_sec u < 2 ^ 31 /\ 0 <= us_nsec u < 2 ^ 31) ex_uses /\ interleaves ex_threads (map us_top ex_uses) /\
  concat (map (stat_says ex_g) (ex_threads 0)) = [(6, bytes_of_string "net", bytes_of_string "count 42")] /\
  exists ops, sperform ex_g winit ex_uses = Ok ops /\ length ops = 2%nat.
Proof.
  split. { split; [lia|]. split; [rewrite zlen_zrepeat; reflexivity|vm_compute; discriminate]. }
  split; [vm_compute; intuition discriminate|]. split.
  { constructor; [vm_compute; discriminate|]. intros t. cbn [ex_g cp_task t_tgid t_pid]. unfold ParseSpec.int32, int32. pose proof (Z.mod_pos_bound (Z.of_nat t) 2 ltac:(lia)). lia. }
  assert (NZ : forall l, forallb (fun c => negb (c =? 0)) l = true -> ~ In 0 l).
  { intros l F I. rewrite forallb_forall in F. specialize (F 0 I). discriminate. }
  split.
  { assert (X : forall lv tag ps e, 0 <= lv < 8 -> forallb (fun c => negb (c =? 0)) tag = true -> zlen tag <= 1000 -> forallb (fun c => negb (c =? 0)) (concat ps) = true -> zlen (concat ps) <= 512 ->
      zlen (block lv tag (concat ps)) < 5248 -> stat_fine (mkStat lv tag ps e)) by (intros; constructor; cbn [sx_level sx_tag sx_pieces]; auto).
    intros [|[|t]]; [| |constructor]; cbn [ex_threads]; (repeat (apply Forall_cons; [apply X; first [lia|reflexivity|vm_compute; discriminate]|])); apply Forall_nil. }
  split; [unfold ex_uses; repeat (apply Forall_cons; [cbn [us_sec us_nsec]; lia|]); apply Forall_nil|]. split.
  { intros [|[|t]].
    - split; [reflexivity|]. split; [cbn; repeat split; try discriminate|lia].
    - split; [reflexivity|]. split; [cbn; repeat split; intros _; repeat constructor; discriminate|lia].
    - split; [reflexivity|]. split; [cbn; repeat split; discriminate|reflexivity]. }
  split; [reflexivity|]. eexists. split; [vm_compute; reflexivity|reflexivity].
Qed.
Print Assumptions C139_screen.
