(** C161: what a python program logs with a ULogDeviceHandler is on the screen of ulogcat.

    Vocabulary: PyRunSpec.v; PyDevSpec.v, PySpec.v; ProgramSpec.v ([block]), SaidSpec.v, LiveSpec.v ([notice]). *)
From Coq Require Import ZArith String List Bool Permutation Sorted Lia ZifyBool ZifyNat Arith.
From Verif Require Import Registry Devopen PropsDevopen.
From Verif Require Import Bytes BytesProofs Ring RingSpec RingHistory RingRefine RingLemmas RingObs Parse ParseSpec ParseProofs ParseE2E PropsParse Iov
  Cat CatSpec Render Live LiveSpec PropsRing SaidSpec PropsSaid Program ProgramSpec SaidRunSpec PropsProgram ScreenProofs MixedProofs SaidScreen.
From Verif Require Import Py PySpec PyProofs PropsPy PyDev PyDevSpec PropsPyDev PyRun PyRunSpec.
From Verif Require PropsFrontRun.
Import ListNotations.
Open Scope Z_scope.

Definition ent (a : pline * (Z * Z)) : entry :=
  let '(x, (sec, nsec)) := a in
  mkEntry (meta (l_pid x) (l_tid x) sec nsec 0) (payload (l_pid x) (l_tid x) (l_pname x) (l_tname x) (l_prio x) (l_tag x) (l_text x ++ [0])).
Definition view (a : pline * (Z * Z)) : uentry :=
  let '(x, (sec, nsec)) := a in
  mkU sec nsec (l_prio x) (l_pid x) (l_pname x) (l_tid x) (if l_pid x =? l_tid x then l_pname x else l_tname x) (l_tag x) (l_text x) false 0.
(** A line with a time that an entry can have. *)
Definition sane (a : pline * (Z * Z)) : Prop :=
  let '(x, (sec, nsec)) := a in
  fits x /\ c_string (l_tag x) /\ c_string (l_text x) /\ 0 <= l_prio x < 8 /\ 0 <= sec < 2 ^ 31 /\ 0 <= nsec < 1000000000.

Lemma zlen_pay x : zlen (payload (l_pid x) (l_tid x) (l_pname x) (l_tname x) (l_prio x) (l_tag x) (l_text x ++ [0])) = cost_of x - 24.
Proof. unfold payload, cost_of. destruct (_ =? _); rewrite !zlen_app, zlen_le; change (zlen [0]) with 1; change (zlen []) with 0; lia. Qed.
Lemma cost_range x : fits x -> 24 < cost_of x <= 24 + 4076.
Proof.
  intros F. pose proof (ft_size _ F). unfold cost_of. pose proof (zlen_nonneg (l_pname x)). pose proof (zlen_nonneg (l_tname x)). pose proof (zlen_nonneg (l_tag x)). pose proof (zlen_nonneg (l_text x)).
  destruct (_ =? _); lia.
Qed.
Lemma plain_prio p : 0 <= p < 8 -> level_of p = p /\ color_of p = 0 /\ binary_of p = false /\ uint32 p.
Proof.
  intros H. assert (Q : p = 0 \/ p = 1 \/ p = 2 \/ p = 3 \/ p = 4 \/ p = 5 \/ p = 6 \/ p = 7) by lia.
  repeat (destruct Q as [->|Q]; [vm_compute; intuition (discriminate || reflexivity)|]). subst p. vm_compute. intuition (discriminate || reflexivity).
Qed.
Lemma line_looks a : sane a -> looks ent view (fun _ => 0) a /\ shows_as (view a) = block (l_prio (fst a)) (l_tag (fst a)) (l_text (fst a)) /\ esize (ent a) = cost_of (fst a).
Proof.
  destruct a as [x [sec nsec]]. intros (F & T1 & T2 & P & S & N). destruct (plain_prio _ P) as (W1 & W2 & W3 & W4). pose proof (cost_range x F) as C. pose proof (zlen_pay x) as ZP.
  destruct (ft_ids _ F) as (I1 & I2 & _). destruct (ft_names _ F) as (N1 & N2). change (2 ^ 31) with 2147483648 in *. cbn [fst].
  split; [|split].
  - constructor; cbn [view u_sec u_nsec u_prio u_tag u_msg u_bin ent]; auto; try lia.
    + eexists _, _, _. reflexivity.
    + eexists. split.
      * apply enc_parsed; try (unfold ParseSpec.int32 in *; lia). apply payload_shows; try assumption.
        rewrite W3. pose proof (text_body (l_text x) (zlen (l_text x) + 1) T2 ltac:(pose proof (zlen_nonneg (l_text x)); lia)) as B.
        rewrite ztake_all in B by (rewrite zlen_app; change (zlen [0]) with 1; lia). rewrite ztake_all in B by lia. exact B.
      * unfold entry_of. cbn [v_sec v_nsec v_level v_pid v_pname v_tid v_tname v_tag v_message v_binary v_color]. rewrite W1, W2, W3. reflexivity.
    + apply (ft_room _ F).
  - reflexivity.
  - unfold esize. cbn [ent e_payload]. lia.
Qed.

(** A handler that gives the ids and the names of the line. *)
Definition tname_is (n : tname) (tn : list Z) : Prop := n = Bytes_name tn \/ n = Text_name tn /\ Forall (fun c => 0 < c < 128) tn.
Lemma line_goes h x sec nsec d fid t ks kn : h_raw h = true -> 0 <= h_fd h -> h_pid h = l_pid x -> h_tid h = l_tid x -> h_pname h = l_pname x ->
  tname_is (h_tname h) (l_tname x) -> sane (x, (sec, nsec)) -> reachable d -> d_files d = mfiles [(fid, true)] ->
  exists p d', device_line h sec nsec (l_prio x) (l_tag x) (l_text x) = inr p /\ goes d [(fid, true)] (line_ops fid t ks kn p) d' [(fid, true)] [ent (x, (sec, nsec))].
Proof.
  intros HR HF K1 K2 K3 K4 SA R F. pose proof SA as (FT & T1 & T2 & P & _). destruct (ft_ids _ FT) as (_ & _ & NM). pose proof (cost_range x FT) as C. pose proof (zlen_pay x) as ZP.
  unfold device_line, format_raw_entry. rewrite HR, K1, K2, K3.
  assert (ET : name_bytes (h_tname h) = Some (l_tname x) /\ name_len (h_tname h) = zlen (l_tname x)).
  { destruct K4 as [->|(-> & HA)]; cbn [name_bytes name_len]; [auto|]. split; [now apply utf8_ascii|reflexivity]. }
  destruct ET as (-> & ->). rewrite ztake_all by (rewrite zlen_app; change (zlen [0]) with 1; lia).
  match goal with |- context [ulog_raw_log ?a ?b] => destruct (ulog_raw_log a b) as [e|v] eqn:EV end.
  { exfalso. unfold ulog_raw_log, ulog_raw_logv in EV. cbn [rw_pid rw_tid rw_message] in EV. destruct (Z.ltb_spec (h_fd h) 0); [lia|]. cbn [orb] in EV.
    destruct (Z.eqb_spec (l_pid x) (-1)); destruct (Z.eqb_spec (l_tid x) (-1)); cbn [andb] in EV; try discriminate EV. tauto. }
  unfold ulog_raw_log in EV. destruct (raw_logv_writev _ _ _ _ EV) as (_ & _ & _ & CV). cbn [rw_pid rw_tid rw_sec rw_nsec rw_euid rw_prio rw_pname rw_tname rw_tag rw_message concat] in CV.
  rewrite app_nil_r in CV. set (M := meta _ _ _ _ _) in CV. set (PA := payload (l_pid x) (l_tid x) (l_pname x) (l_tname x) (l_prio x) (l_tag x) (l_text x ++ [0])) in *.
  assert (C' : concat v = M ++ PA).
  { rewrite CV. f_equal. unfold PA, payload. destruct (_ =? _); rewrite <- !app_assoc; reflexivity. }
  assert (RQ : requested true t ks kn (iovec v) = ent (x, (sec, nsec))).
  { unfold requested. rewrite iovec_bytes, C'. rewrite ztake_app_exact by (unfold M; rewrite zlen_meta; reflexivity). rewrite zdrop_app_exact by (unfold M; rewrite zlen_meta; reflexivity).
    rewrite ztake_all by lia. reflexivity. }
  exists (Writev v). destruct (goes_write d [(fid, true)] fid true t ks kn v R F) as (d' & G).
  - constructor; [intros []|constructor].
  - now left.
  - intros _. rewrite C', zlen_app. unfold M. rewrite zlen_meta. pose proof (zlen_nonneg PA). lia.
  - rewrite RQ. cbn [ent e_payload]. change (zlen PA <> 0). lia.
  - rewrite RQ in G. exists d'. split; [reflexivity|exact G].
Qed.
Lemma lines_goes h pid tid pn tn prio tag fid t ks kn : h_raw h = true -> 0 <= h_fd h -> h_pid h = pid -> h_tid h = tid -> h_pname h = pn -> tname_is (h_tname h) tn ->
  forall texts times d, length times = length texts -> Forall sane (combine (map (mkLine pid tid pn tn prio tag) texts) times) -> reachable d -> d_files d = mfiles [(fid, true)] ->
  exists ps d', device_lines h prio tag times texts = inr ps /\
    goes d [(fid, true)] (concat (map (line_ops fid t ks kn) ps)) d' [(fid, true)] (map ent (combine (map (mkLine pid tid pn tn prio tag) texts) times)).
Proof.
  intros HR HF K1 K2 K3 K4. assert (ND : NoDup (map fst [(fid, true)])) by (constructor; [intros []|constructor]).
  induction texts as [|x texts IH]; intros [|[s n] times] d L SA R F; try discriminate.
  - exists [], d. split; [reflexivity|]. now apply goes_nil.
  - cbn [map combine] in SA. inversion SA as [|? ? S0 S1]; subst. injection L as L.
    destruct (line_goes h (mkLine (h_pid h) (h_tid h) (h_pname h) tn prio tag x) s n d fid t ks kn HR HF eq_refl eq_refl eq_refl K4 S0 R F) as (p & d1 & E & G). cbn [l_prio l_tag l_text] in E.
    destruct (goes_reach _ _ _ _ _ _ G) as (R1 & F1 & _). destruct (IH times d1 L S1 R1 F1) as (ps & d2 & E2 & G2).
    exists (p :: ps), d2. split; [cbn [device_lines]; rewrite E, E2; reflexivity|]. cbn [map concat combine]. exact (goes_app _ _ _ _ _ _ _ _ _ _ G G2).
Qed.

Lemma level_prio level prio : In (level, prio) device_prio -> logging_prio level = Some prio /\ 0 <= prio < 8.
Proof. unfold device_prio. intros H. repeat (destruct H as [H|H]; [injection H as <- <-; split; [reflexivity|lia]|]). destruct H. Qed.
(** The times of the lines. *)
Fixpoint times_of (l : list happening) : list (Z * Z) :=
  match l with [] => [] | Sets _ :: l => times_of l | Logs _ _ _ _ ticks _ :: l => map (fun q => stamp (fst q) (snd q)) ticks ++ times_of l end.
Lemma combine_app {A B} (a1 a2 : list A) : forall (b1 b2 : list B), length a1 = length b1 -> combine (a1 ++ a2) (b1 ++ b2) = combine a1 b1 ++ combine a2 b2.
Proof. induction a1 as [|x a1 IH]; intros [|y b1] b2 L; try discriminate; [reflexivity|]. cbn [app combine]. f_equal. apply IH. now injection L. Qed.
Lemma tells_times comm before l lines : tells comm before l lines -> length (times_of l) = length lines.
Proof. induction 1; cbn [times_of]; auto. rewrite !app_length, !map_length. lia. Qed.
Lemma in_combine_left {A B} (a : list A) (b : list B) x y : In (x, y) (combine a b) -> In x a /\ In y b.
Proof. intros H. split; [exact (in_combine_l _ _ _ _ H)|exact (in_combine_r _ _ _ _ H)]. Qed.
Lemma tells_sane comm sys186 pid before l lines : tells comm before l lines -> Forall (orderly sys186 pid) l -> Forall fits lines -> Forall sane (combine lines (times_of l)).
Proof.
  induction 1 as [|before o l lines _ IH|before w t sec nsec ticks level name text tag message prio texts l lines En Et HL HP LT _ IH]; intros HO HF.
  - constructor.
  - inversion HO; subst. cbn [times_of]. auto.
  - inversion HO as [|? ? O1 O2]; subst. apply Forall_app in HF as [F1 F2]. cbn [times_of]. rewrite combine_app by (rewrite !map_length; congruence). apply Forall_app. split; [|auto].
    destruct O1 as (_ & _ & _ & Sn & St & TK). cbn [r_name r_text] in Sn, St. destruct (level_prio _ _ HP) as [_ PR]. apply encoding_utf8 in En, Et.
    assert (CT : c_string tag). { destruct (utf8_ok name Sn) as (b & Eb & Nb). rewrite En in Eb. injection Eb as <-. exact Nb. }
    apply Forall_forall. intros [x [s n]] Hx. apply in_combine_left in Hx as [Hx Hs]. apply in_map_iff in Hs as ([k m] & ES & Hk). rewrite Forall_forall in TK. specialize (TK _ Hk). cbn [fst snd] in *.
    destruct (stamp_eq k m TK) as (E & B & _ & _ & D). rewrite E in ES. injection ES as <- <-. rewrite Forall_forall in F1. pose proof (F1 _ Hx) as FX.
    apply in_map_iff in Hx as (tx & <- & Htx). cbn [sane l_tag l_text l_prio]. split; [exact FX|]. split; [exact CT|]. split; [|auto].
    destruct (utf8_ok text St) as (b & Eb & Nb). rewrite Et in Eb. injection Eb as <-. intros H0. apply Nb. eapply lines_in; [exact HL|exact Htx|exact H0].
Qed.

Lemma fold_hset_fd l : forall st, x_fd (fold_left hset l st) = x_fd st.
Proof. induction l as [|o l IH]; intros st; [reflexivity|]. cbn [fold_left]. rewrite IH. destruct o; reflexivity. Qed.
Lemma perform_goes sys186 comm pid fid st before l lines : tells comm before l lines -> x_raw st = true -> 0 <= x_fd st -> x_pid st = pid -> x_tid st = None -> x_tname st = None -> x_pname st = Some comm ->
  Forall meant before -> Forall (orderly sys186 pid) l -> Forall fits lines -> forall d, reachable d -> d_files d = mfiles [(fid, true)] ->
  exists ops d', perform sys186 fid (fold_left hset before st) l = inr ops /\ goes d [(fid, true)] ops d' [(fid, true)] (map ent (combine lines (times_of l))).
Proof.
  intros T HR HF HP HT HN HC. assert (ND : NoDup (map fst [(fid, true)])) by (constructor; [intros []|constructor]).
  induction T as [before|before o l lines _ IH|before w t sec nsec ticks level name text tag message prio texts l lines En Et HL HPR LT TT IH]; intros MB HO FT d R F.
  - exists [], d. split; [reflexivity|]. now apply goes_nil.
  - inversion HO; subst. cbn [perform times_of]. replace (hset (fold_left hset before st) o) with (fold_left hset (before ++ [o]) st) by (rewrite fold_left_app; reflexivity).
    apply IH; auto. apply Forall_app. split; [exact MB|]. constructor; [assumption|constructor].
  - pose proof (tells_sane comm sys186 pid before _ _ (t_log comm before w t sec nsec ticks level name text tag message prio texts l lines En Et HL HPR LT TT) HO FT) as SA.
    inversion HO as [|? ? O1 O2]; subst. apply Forall_app in FT as [_ F2]. destruct O1 as (W1 & W2 & A & Sn & St & TK). destruct (level_prio _ _ HPR) as [LP PR].
    cbn [times_of] in *. rewrite combine_app in * by (rewrite !map_length; congruence). apply Forall_app in SA as [SA _].
    destruct (hset_last before st w sys186 MB) as (Q1 & Q2 & Q3 & Q4 & Q5 & Q6); [rewrite HT; discriminate|rewrite HN; discriminate|].
    set (st' := fold_left hset before st) in *.
    assert (Y3 : thread_id sys186 st w = i_tid w) by (unfold thread_id; rewrite HT; exact W2). rewrite Y3 in Q3.
    assert (Y5 : thread_name st w = Text_name (i_name w)) by (unfold thread_name; rewrite HN; reflexivity). rewrite Y5 in Q5. rewrite HC in Q4. rewrite <- W1 in Q2.
    assert (TN : tname_is (thread_name st' w) (last_tname (i_name w) before)).
    { destruct (thread_name st' w) as [b|b]; [left; congruence|]. specialize (Q6 b eq_refl). right. split; congruence. }
    destruct (lines_goes (handler_for sys186 st' w) (last_pid (i_pid w) before) (last_tid (i_tid w) before) (last_pname comm before) (last_tname (i_name w) before) prio tag fid t sec nsec) with (texts := texts)
      (times := map (fun q => stamp (fst q) (snd q)) ticks) (d := d) as (ps & d1 & E & G); auto.
    { cbn [handler_for h_raw]. congruence. } { cbn [handler_for h_fd]. unfold st'. rewrite fold_hset_fd. exact HF. } { now rewrite map_length. }
    destruct (goes_reach _ _ _ _ _ _ G) as (R1 & F1 & _). destruct (IH MB O2 F2 d1 R1 F1) as (ops & d2 & E2 & G2).
    eexists _, d2. split.
    + cbn [perform]. unfold device_emit. cbn [r_level r_name r_text]. apply encoding_utf8 in En, Et. rewrite LP, En, Et. rewrite <- (PropsFrontRun.lines_one _ _ HL). rewrite E, E2. reflexivity.
    + rewrite map_app. exact (goes_app _ _ _ _ _ _ _ _ _ _ G G2).
Qed.

Lemma init_fd p name raw pid s s' t st : PyDev.init p name raw pid s = Ok (s', t, Some st) -> 0 <= x_fd st.
Proof.
  unfold PyDev.init. destruct (resolve name) as [n path]. destruct (ensure _ _ _ _) as [[s1 ok]|]; [|discriminate]. cbn [bind]. destruct ok; cbn [negb]; [|discriminate].
  assert (PL : forall t0 pn, (let (t, fd) := open_plain p t0 path in Ok (s1, t, match fd with Some fd => Some (mkDh false pid pn None None fd) | None => None end)) = Ok (s', t, Some st) -> 0 <= x_fd st).
  { intros t0 pn. unfold open_plain. destruct (Z.ltb_spec (y_open (p_sys p) t0 path) 0); [discriminate|]. intros E. assert (Some st = Some (mkDh false pid pn None None (y_open (p_sys p) t0 path))) as E1 by congruence. injection E1 as ->. assumption. }
  destruct raw; [|apply PL]. unfold open_raw. destruct (p_comm p) as [c|]; [|apply PL].
  destruct (ulog_raw_open _ _ _) as [t0 fd]. destruct (Z.ltb_spec fd 0); [apply PL|]. intros E.
  assert (Some st = Some (mkDh true pid (Some (strip_white c)) None None fd)) as E1 by congruence. injection E1 as ->. assumption.
Qed.

(** A program makes a ULogDeviceHandler in raw mode (the mode is granted), sets ids and names and logs
    records, in any order; ulogcat then dumps the device: every line of every record is on the screen, in
    order, with the letter of its level, its tag and its text, except the oldest if the buffer was too small,
    counted exactly. A viewer who may read only their own messages sees all if they are root and none
    otherwise, whoever logged: entries in raw mode belong to user 0. *)
Theorem C161_screen_partial : forall p dname s s' t0 st comm sys186 pid nm mem pow2 fid strict capable euid l lines rfid all uid paths,
  PyDev.init p dname true pid s = Ok (s', t0, Some st) -> x_raw st = true -> p_comm p = Some (comm ++ [10]) -> unspaced comm ->
  init_ok nm mem pow2 -> ~ In 0 nm -> (strict = true -> capable = true) ->
  tells comm [] l lines -> Forall (orderly sys186 pid) l -> Forall fits lines -> rfid <> fid ->
  exists ops d outs node mark, session sys186 fid strict capable euid st l = inr ops /\ run (init_dev nm mem pow2) ops = Ok (d, outs) /\
    Live.add_ulog_device d rfid all uid = Ok (Some (node, mark)) /\
  exists lost kept, lines = lost ++ kept /\ (lost = [] \/ 2 ^ pow2 - 12300 < costs_of kept) /\
    let mine := if all || (uid mod 2 ^ 32 =? 0) then kept else [] in
  exists note, ((lost = [] \/ mine = []) /\ note = [] \/ lost <> [] /\ mine <> [] /\ notice nm (zlen lost) note) /\
    forall fuel, (2 * (length mine + 1) < fuel)%nat ->
      exists ns' c', process_logs fuel (live_env false uid) true 0 [node] (open_ctx 0 [mark]) 0 = Ok (Some (ns', c', 0)) /\
        output (mkO FShort false [] false []) paths (c_out c') = Ok (map Some (note ++ concat (map (fun x => block (l_prio x) (l_tag x) (l_text x)) mine))).
Proof.
  intros p dname s s' t0 st comm sys186 pid nm mem pow2 fid strict capable euid l lines rfid all uid paths HD HX PC NW HI HN SC T HO FT NF.
  pose proof (init_fd _ _ _ _ _ _ _ _ HD) as FD. destruct (init_raw _ _ _ _ _ _ _ _ HD HX) as (_ & P1 & P2 & P3 & c & P4 & P5). rewrite PC in P4. assert (c = comm ++ [10]) by congruence. subst c.
  assert (WH : forall a, a <> 32 /\ ~ (9 <= a <= 13) -> white a = false) by (intros a; unfold white; lia).
  rewrite strip_name in P5 by (intros a r E; apply WH; eapply NW; eauto).
  set (d0 := init_dev nm mem pow2). assert (R0 : reachable d0) by (exists nm, mem, pow2, [], []; split; [exact HI|split; [constructor|reflexivity]]).
  destruct (goes_open d0 [] fid R0 eq_refl) as (d1 & G1); [constructor|intros []|]. destruct (goes_reach _ _ _ _ _ _ G1) as (R1 & F1 & N1).
  destruct (goes_raw d1 [] fid strict capable euid R1 F1 N1 SC) as (d2 & G2). destruct (goes_reach _ _ _ _ _ _ G2) as (R2 & F2 & N2). cbn [app] in *.
  destruct (perform_goes sys186 comm pid fid st [] l lines T HX FD P1 P2 P3 P5 (Forall_nil _) HO FT d2 R2 F2) as (ops & d & EP & G3). cbn [fold_left] in EP.
  pose proof (goes_app _ _ _ _ _ _ _ _ _ _ G1 (goes_app _ _ _ _ _ _ _ _ _ _ G2 G3)) as G. cbn [app] in G. destruct (goes_reach _ _ _ _ _ _ G) as (R & F & _).
  destruct (goes_ledger _ _ _ _ _ _ _ G) as (outs & ER & UA & HL). destruct (goes_added d [(fid, true)] rfid all uid R F) as (node & mark & AD). { intros [X|[]]. cbn in X. congruence. }
  eexists _, d, outs, node, mark. split; [unfold session; rewrite EP, HX; reflexivity|]. split; [exact ER|]. split; [exact AD|].
  set (xs := combine lines (times_of l)) in *. pose proof (tells_sane _ _ _ _ _ _ T HO FT) as SA. fold xs in SA.
  assert (EX : map fst xs = lines).
  { unfold xs. pose proof (tells_times _ _ _ _ T) as L. clear - L. revert L. generalize (times_of l). induction lines as [|x lines IH]; intros [|y ys] L; try discriminate; [reflexivity|]. cbn. f_equal. apply IH. now injection L. }
  assert (RT : Forall (fun a => looks ent view (fun _ => 0) a /\ shows_as (view a) = block (l_prio (fst a)) (l_tag (fst a)) (l_text (fst a)) /\ esize (ent a) = cost_of (fst a)) xs) by (eapply Forall_impl; [exact line_looks|exact SA]).
  clearbody xs. destruct (entries_screen ent view (fun _ => 0) nm mem pow2 _ d outs rfid all uid node mark paths xs HI HN UA ER AD HL) as (lost & kept & EL & TT & SCR).
  { eapply Forall_impl; [|exact RT]. intros x Hx. apply Hx. }
  exists (map fst lost), (map fst kept). split; [now rewrite <- EX, EL, map_app|]. rewrite EL in RT. apply Forall_app in RT as [_ RT]. split.
  { destruct TT as [-> |TT]; [now left|right]. replace (costs_of (map fst kept)) with (RingSpec.total (map ent kept)); [exact TT|].
    clear - RT. induction RT as [|x k (_ & _ & H) _ IH]; [reflexivity|]. cbn [map]. rewrite total_cons, IH, H. reflexivity. }
  cbv zeta. set (mine := if all || (uid mod 2 ^ 32 =? 0) then map fst kept else []). cbv zeta in SCR. set (mk := if all then kept else _) in SCR.
  assert (EM : mine = map fst mk).
  { unfold mine, mk. destruct all; [reflexivity|]. cbn [orb]. change (0 mod 2 ^ 32) with 0. rewrite (Z.eqb_sym 0). destruct (uid mod 2 ^ 32 =? 0).
    - clear. induction kept as [|x k IH]; [reflexivity|]. cbn [map filter]. now rewrite <- IH.
    - clear. induction kept as [|x k IH]; [reflexivity|exact IH]. }
  clearbody mine. subst mine. assert (RM : Forall (fun a => shows_as (view a) = block (l_prio (fst a)) (l_tag (fst a)) (l_text (fst a))) mk).
  { apply Forall_forall. intros x Hx. rewrite Forall_forall in RT. apply (RT x). unfold mk in Hx. destruct all; [exact Hx|now apply filter_In in Hx]. }
  clearbody mk. destruct SCR as (note & NT & SCR). exists note. split.
  { destruct NT as [[[-> | ->] ->]|(L1 & L2 & NT)]; [left; split; [left; reflexivity|reflexivity]|left; split; [right; reflexivity|reflexivity]|right].
    split; [intros X; apply L1; now apply map_eq_nil in X|]. split; [intros X; apply L2; now apply map_eq_nil in X|]. now rewrite zlen_map. }
  intros fuel HFU. rewrite map_length in HFU. destruct (SCR fuel HFU) as (ns' & c' & Q1 & Q2). exists ns', c'. split; [exact Q1|]. rewrite Q2. do 3 f_equal.
  rewrite map_map. clear - RM. induction RM as [|x k H _ IH]; [reflexivity|]. cbn [map concat]. now rewrite H, IH.
Qed.

Lemma plain_lines h prio tag fid t ks kn : h_raw h = false -> 0 <= prio < 8 -> forall texts times, length times = length texts ->
  exists ps, device_lines h prio tag times texts = inr ps /\
    concat (map (line_ops fid t ks kn) ps) = map (fun x => say (fst x) (snd x)) (map (fun x => (fid, mkSaid t ks kn prio tag x)) texts).
Proof.
  intros HR HP. destruct (plain_prio _ HP) as (_ & _ & B & _). induction texts as [|x texts IH]; intros [|[s n] times] L; try discriminate; [exists []; auto|].
  injection L as L. destruct (IH times L) as (ps & E & C). cbn [device_lines]. unfold device_line. rewrite HR, E. eexists. split; [reflexivity|].
  cbn [map concat line_ops app fst snd]. rewrite C. unfold say at 2. cbn [s_task s_sec s_nsec s_prio s_tag s_msg]. rewrite B. reflexivity.
Qed.
Lemma perform_plain sys186 fid l lines : tells_plain fid l lines -> forall st, x_raw st = false -> perform sys186 fid st l = inr (map (fun x => say (fst x) (snd x)) lines).
Proof.
  induction 1 as [|o l lines _ IH|w t sec nsec ticks level name text tag message prio texts l lines En Et HL HPR LT Sn St _ IH]; intros st HR; cbn [perform].
  - reflexivity.
  - apply IH. destruct o; exact HR.
  - destruct (level_prio _ _ HPR) as [LP PR]. unfold device_emit. cbn [r_level r_name r_text]. apply encoding_utf8 in En, Et. rewrite LP, En, Et. rewrite <- (PropsFrontRun.lines_one _ _ HL).
    destruct (plain_lines (handler_for sys186 st w) prio tag fid t sec nsec) with (texts := texts) (times := map (fun q => stamp (fst q) (snd q)) ticks) as (ps & E & C); auto; [now rewrite map_length|].
    rewrite E, (IH st HR), C, map_app. reflexivity.
Qed.
Lemma plain_texted fid l lines : tells_plain fid l lines -> Forall ordinary lines -> Forall (fun x => fst x = fid) lines /\ Forall texted lines.
Proof.
  induction 1 as [|o l lines _ IH|w t sec nsec ticks level name text tag message prio texts l lines En Et HL HPR LT Sn St _ IH]; intros O.
  - split; constructor.
  - auto.
  - apply Forall_app in O as [O1 O2]. destruct (IH O2) as [I1 I2]. split; (apply Forall_app; split; [|assumption]).
    + rewrite Forall_map. apply Forall_forall. reflexivity.
    + apply encoding_utf8 in En, Et. destruct (level_prio _ _ HPR) as [_ PR]. destruct (plain_prio _ PR) as (_ & _ & B & U).
      assert (CT : c_string tag). { destruct (utf8_ok name Sn) as (b & Eb & Nb). rewrite En in Eb. injection Eb as <-. exact Nb. }
      rewrite Forall_map in O1 |- *. rewrite Forall_forall in O1 |- *. intros x Hx. pose proof (O1 x Hx) as OX.
      assert (CX : c_string x). { destruct (utf8_ok text St) as (b & Eb & Nb). rewrite Et in Eb. injection Eb as <-. intros H0. apply Nb. eapply lines_in; [exact HL|exact Hx|exact H0]. }
      destruct (or_ids _ OX) as [D1 D2]. destruct (or_time _ OX) as [T1 T2]. pose proof (or_size _ OX) as SZ. cbn [snd s_task s_sec s_nsec s_tag] in *.
      constructor; [|exact B|exact T1|exact T2|apply (or_room _ OX)]. unfold sayable. cbn [snd s_task s_sec s_nsec s_prio s_tag s_msg]. unfold ParseSpec.int32 in *. repeat (split; [solve [auto|lia]|]). exact SZ.
Qed.
(** A handler without raw mode: the lines are on the screen, as those of the task that writes them; a viewer
    who may read only their own messages sees exactly those that they logged. *)
Theorem C161_plain : forall sys186 fid strict capable euid st nm mem pow2 l lines rfid all uid paths, x_raw st = false ->
  init_ok nm mem pow2 -> ~ In 0 nm -> tells_plain fid l lines -> Forall ordinary lines -> rfid <> fid ->
  exists ops, session sys186 fid strict capable euid st l = inr ops /\ dumped nm mem pow2 ops lines rfid all uid paths.
Proof.
  intros sys186 fid strict capable euid st nm mem pow2 l lines rfid all uid paths HR HI HN T O NF. eexists. split.
  { unfold session. rewrite (perform_plain _ _ _ _ T _ HR), HR. reflexivity. }
  destruct (plain_texted _ _ _ T O) as [I X]. apply (said_screen nm mem pow2 [fid] lines rfid all uid paths HI HN); auto.
  - constructor; [intros []|constructor].
  - intros [E|[]]. congruence.
  - eapply Forall_impl; [|exact I]. intros x E. left. symmetry. exact E.
Qed.

Lemma encoding_ascii s : Forall (fun c => 0 <= c < 128) s -> encoding s s.
Proof. induction 1 as [|c s Hc _ IH]; [constructor|]. change (c :: s) with ([c] ++ s) at 2. constructor; [constructor; lia|exact IH]. Qed.
Definition ex_who : who := mkWho 77 78 (u "MainThread").
Definition ex_run : list happening :=
  [Logs ex_who (mkTask 77 78 (u "python3") (u "python3") 1000) 5 6 [(22, 2 ^ 52); (22, 2 ^ 52 + 9)] (mkRec 30 (u "net") (u "up" ++ [10] ++ u "ok"));
   Sets (SetTname (u "rx")); Sets (SetTid 77);
   Logs ex_who (mkTask 77 78 (u "python3") (u "python3") 1000) 5 7 [(22, 2 ^ 52 + 10)] (mkRec 20 (u "net") (u "down"))].
Definition ex_lines : list pline :=
  [mkLine 77 78 (u "python3") (u "MainThread") 4 (u "net") (u "up"); mkLine 77 78 (u "python3") (u "MainThread") 4 (u "net") (u "ok");
   mkLine 77 77 (u "python3") (u "rx") 6 (u "net") (u "down")].
Definition ex_handler : dh := mkDh true 77 (Some (u "python3")) None None 3.
Lemma ascii_dec s : forallb (fun c => (0 <? c) && (c <? 128)) s = true -> Forall (fun c => 0 < c < 128) s.
Proof. rewrite forallb_forall, Forall_forall. intros H c Hc. specialize (H c Hc). lia. Qed.
Lemma no_nul s : forallb (fun c => (0 <? c) && (c <? 128)) s = true -> c_string s.
Proof. rewrite forallb_forall. intros H I. specialize (H 0 I). discriminate. Qed.
Lemma ex_tells : tells (u "python3") [] ex_run ex_lines.
Proof.
  assert (A : forall s, forallb (fun c => (0 <? c) && (c <? 128)) s = true -> encoding s s).
  { intros s H. apply encoding_ascii. eapply Forall_impl; [|exact (ascii_dec s H)]. cbn. intros; lia. }
  unfold ex_run, ex_lines. eapply (t_log (u "python3") [] ex_who _ _ _ _ 30 _ _ _ _ 4 [u "up"; u "ok"]).
  - apply A. reflexivity.
  - apply A. reflexivity.
  - apply (a_line (u "up") [10] (u "ok")); [vm_compute; intuition discriminate|auto|]. constructor; [discriminate|vm_compute; intuition discriminate].
  - cbn. auto.
  - reflexivity.
  - apply t_set, t_set. refine (t_log (u "python3") _ ex_who _ _ _ _ 20 _ _ (u "net") (u "down") 6 [u "down"] [] [] _ _ _ _ _ _).
    + apply A. reflexivity.
    + apply A. reflexivity.
    + constructor; [discriminate|vm_compute; intuition discriminate].
    + cbn. auto.
    + reflexivity.
    + constructor.
Qed.
Lemma ex_orderly : Forall (orderly i_tid 77) ex_run.
Proof.
  assert (SC : forall s, forallb (fun c => (0 <? c) && (c <? 128)) s = true -> Forall scalar s).
  { intros s H. eapply Forall_impl; [|exact (ascii_dec s H)]. unfold scalar. cbn. intros; lia. }
  unfold ex_run. repeat apply Forall_cons; cbn [orderly meant r_name r_text]; try discriminate; try apply Forall_nil;
    (split; [reflexivity|]; split; [reflexivity|]; split; [apply ascii_dec; reflexivity|]; split; [apply SC; reflexivity|]; split; [apply SC; reflexivity|];
     repeat apply Forall_cons; try apply Forall_nil; unfold reading; cbn [fst snd]; vm_compute; intuition discriminate).
Qed.
Lemma ex_fits : Forall fits ex_lines.
Proof.
  unfold ex_lines. repeat apply Forall_cons; try apply Forall_nil; constructor; cbn [l_pid l_tid l_pname l_tname l_tag l_text l_prio];
    try (split; apply no_nul; reflexivity); try (unfold ParseSpec.int32; lia); vm_compute; (discriminate || reflexivity).
Qed.
Example C161_ex : PyDev.init ex_py (u "main") true 77 ex_reg = Ok (ex_reg, [Open (bytes_of_string "/dev/ulog_main") 3; Stat 3; RawMode 3 1 0], Some ex_handler) /\
  p_comm ex_py = Some (u "python3" ++ [10]) /\ unspaced (u "python3") /\ init_ok (u "ulog_main") (zrepeat 170 16384) 14 /\
  tells (u "python3") [] ex_run ex_lines /\ Forall (orderly i_tid 77) ex_run /\ Forall fits ex_lines /\
  concat (map (fun x => block (l_prio x) (l_tag x) (l_text x)) ex_lines) =
    u "W net         : up" ++ [10] ++ u "W net         : ok" ++ [10] ++ u "I net         : down" ++ [10].
Proof.
  split; [vm_compute; reflexivity|]. split; [reflexivity|]. split.
  { intros a r [H|H]; [change (u "python3") with (112 :: u "ython3") in H; assert (a = 112) by congruence; lia|]. change (u "python3") with (u "python" ++ [51]) in H. apply app_inj_tail in H as [_ H]. lia. }
  split; [unfold init_ok; rewrite zlen_zrepeat by lia; vm_compute; repeat split; discriminate|]. split; [exact ex_tells|]. split; [exact ex_orderly|]. split; [exact ex_fits|]. vm_compute. reflexivity.
Qed.
Example C161_plain_ex : exists lines, tells_plain 1 ex_run lines /\ Forall ordinary lines /\
  concat (map text_line lines) = u "W net         : up" ++ [10] ++ u "W net         : ok" ++ [10] ++ u "I net         : down" ++ [10].
Proof.
  assert (A : forall s, forallb (fun c => (0 <? c) && (c <? 128)) s = true -> encoding s s).
  { intros s H. apply encoding_ascii. eapply Forall_impl; [|exact (ascii_dec s H)]. cbn. intros; lia. }
  assert (SC : forall s, forallb (fun c => (0 <? c) && (c <? 128)) s = true -> Forall scalar s).
  { intros s H. eapply Forall_impl; [|exact (ascii_dec s H)]. unfold scalar. cbn. intros; lia. }
  eexists. split; [|split].
  - unfold ex_run. eapply (p_log 1 ex_who _ _ _ _ 30 _ _ _ _ 4 [u "up"; u "ok"]); try (apply A; reflexivity); try (apply SC; reflexivity); try reflexivity; [|cbn; auto|].
    + apply (a_line (u "up") [10] (u "ok")); [vm_compute; intuition discriminate|auto|]. constructor; [discriminate|vm_compute; intuition discriminate].
    + apply p_set, p_set. eapply (p_log 1 ex_who _ _ _ _ 20 _ _ _ _ 6 [u "down"]); try (apply A; reflexivity); try (apply SC; reflexivity); try reflexivity; [|cbn; auto|constructor].
      constructor; [discriminate|vm_compute; intuition discriminate].
  - cbn [map app]. repeat apply Forall_cons; try apply Forall_nil; constructor; cbn [snd s_task s_sec s_nsec s_tag t_tgid t_pid]; unfold ParseSpec.int32; try lia; vm_compute; (discriminate || reflexivity).
  - vm_compute. reflexivity.
Qed.
(** A user who logs in raw mode does not see their messages if they may read only their own. *)
Theorem C161_own_refuted : exists l lines ops d outs node mark fuel ns' c', Forall (fun x => match x with Logs _ t _ _ _ _ => t_euid t = 1000 | Sets _ => True end) l /\
  tells (u "python3") [] l lines /\ lines <> [] /\ session i_tid 1 true true 1000 ex_handler l = inr ops /\ run (init_dev (u "ulog_main") (zrepeat 170 16384) 14) ops = Ok (d, outs) /\
  Live.add_ulog_device d 2 false 1000 = Ok (Some (node, mark)) /\
  process_logs fuel (live_env false 1000) true 0 [node] (open_ctx 0 [mark]) 0 = Ok (Some (ns', c', 0)) /\ output (mkO FShort false [] false []) [] (c_out c') = Ok [].
Proof.
  destruct C161_ex as (H1 & H2 & H3 & H4 & H5 & H6 & H7 & _).
  destruct (C161_screen_partial ex_py (u "main") ex_reg ex_reg _ ex_handler (u "python3") i_tid 77 (u "ulog_main") (zrepeat 170 16384) 14 1 true true 1000 ex_run ex_lines 2 false 1000 [] H1 eq_refl H2 H3 H4)
    as (ops & d & outs & node & mark & E1 & E2 & E3 & lost & kept & E4 & _ & S); auto; [vm_compute; intuition discriminate|lia|].
  change (1000 mod 2 ^ 32 =? 0) with false in S. cbn [orb] in S. destruct S as (note & N & S). destruct (S 3%nat ltac:(cbn; lia)) as (ns' & c' & P1 & P2).
  assert (note = []) as -> by (destruct N as [[_ N]|(_ & N & _)]; [exact N|congruence]).
  exists ex_run, ex_lines, ops, d, outs, node, mark, 3%nat, ns', c'. repeat (split; [first [assumption|discriminate|repeat constructor]|]). exact P2.
Qed.
Print Assumptions C161_screen_partial.
Print Assumptions C161_plain.
Print Assumptions C161_own_refuted.
