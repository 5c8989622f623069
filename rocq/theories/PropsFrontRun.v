(** Property C138: from messages of python programs and of libraries that are redirected (GLib, OBus, GStreamer)
    to the bytes that ulogcat prints.

    Vocabulary: FrontRunSpec.v ([gives], [says], [fproper]), SaidRunSpec.v ([dumped]). *)
From Coq Require Import ZArith String List Bool Lia ZifyBool ZifyNat Arith.
From Verif Require Import Bytes BytesProofs Ring RingSpec RingLemmas RingObs RingRefine Parse ParseSpec Iov SaidSpec PropsSaid Program ProgramSpec
  SaidRunSpec PropsProgram SaidScreen FrontRun FrontRunSpec PySpec PyProofs PropsPy PropsSyslogRun.
From Verif Require Macros PropsMacros Redirect RedirectProofs PropsRedirect Py.
Import ListNotations.
Open Scope Z_scope.

(** ** Encoded text *)
Lemma encoded_ex c : scalar c -> exists b, encoded c b /\ zlen b <= 4.
Proof.
  intros S. assert (C : 0 < c < 0x110000) by (destruct S; lia).
  pose proof (Z.div_mod c 64 ltac:(lia)) as D1. pose proof (Z.mod_pos_bound c 64 ltac:(lia)) as M1.
  pose proof (Z.div_mod (c / 64) 64 ltac:(lia)) as D2. pose proof (Z.mod_pos_bound (c / 64) 64 ltac:(lia)) as M2.
  pose proof (Z.div_mod (c / 64 / 64) 64 ltac:(lia)) as D3. pose proof (Z.mod_pos_bound (c / 64 / 64) 64 ltac:(lia)) as M3.
  set (a1 := c mod 64) in *. set (q1 := c / 64) in *. set (a2 := q1 mod 64) in *. set (q2 := q1 / 64) in *. set (a3 := q2 mod 64) in *. set (q3 := q2 / 64) in *. clearbody a1 q1 a2 q2 a3 q3.
  destruct (Z.ltb_spec c 0x80); [exists [c]; split; [constructor; lia|unfold zlen; cbn [length]; lia]|].
  destruct (Z.ltb_spec c 0x800).
  { exists [0xc0 + q1; 0x80 + a1]. split; [|unfold zlen; cbn [length]; lia]. replace c with (64 * q1 + a1) by lia. constructor; unfold tail; lia. }
  destruct (Z.ltb_spec c 0x10000).
  { exists [0xe0 + q2; 0x80 + a2; 0x80 + a1]. split; [|unfold zlen; cbn [length]; lia]. replace c with (4096 * q2 + 64 * a2 + a1) by lia. constructor; unfold tail; destruct S; lia. }
  exists [0xf0 + q3; 0x80 + a3; 0x80 + a2; 0x80 + a1]. split; [|unfold zlen; cbn [length]; lia]. replace c with (262144 * q3 + 4096 * a3 + 64 * a2 + a1) by lia. constructor; unfold tail; lia.
Qed.
Lemma encoding_ex s : Forall scalar s -> exists b, encoding s b /\ zlen b <= 4 * zlen s.
Proof.
  induction 1 as [|c s C _ (b & IH & L)]; [exists []; split; [constructor|reflexivity]|]. destruct (encoded_ex c C) as (a & A & LA).
  exists (a ++ b). split; [now constructor|]. rewrite zlen_app, zlen_cons. lia.
Qed.
Lemma encoding_nul s b : Forall scalar s -> encoding s b -> ~ In 0 b.
Proof. intros F E. destruct (utf8_ok s F) as (b' & E1 & N). apply encoding_utf8 in E. congruence. Qed.

(** ** What a message gives *)
Definition lines_out (level prio : Z) (tag : list Z) (lines : list (list Z)) : list (Z * list Z * list Z) :=
  if prio <=? level then map (fun x => (prio, tag, x ++ [0])) lines else [].
Record answers (level : Z) (f : front) (prio : Z) (tag : list Z) (lines : list (list Z)) : Prop := {
  an_gives : gives f prio tag lines;
  an_out : outputs level f = Ok (lines_out level prio tag lines);
  an_prio : 0 <= prio < 8;
  an_tag : short tag;
  an_lines : Forall (fun x => ~ In 0 x) lines }.
Lemma lines_logged level prio tag lines : (forall x, In x lines -> Macros.ulog_log_str prio level (x ++ [0]) = Ok (if prio <=? level then Some (x ++ [0]) else None)) ->
  log_lines level (map (fun x => (prio, tag, x ++ [0])) lines) = Ok (lines_out level prio tag lines).
Proof.
  unfold lines_out. induction lines as [|x l IH]; intros H; cbn [map log_lines]; [now destruct (prio <=? level)|]. rewrite (H x (or_introl eq_refl)). cbn [bind].
  rewrite IH by (intros y Hy; apply H; now right). cbn [bind]. now destruct (prio <=? level).
Qed.
Lemma str_given level u tag text : 0 <= u <= 7 ->
  map (fun x => match x with Redirect.Log prio tag text => (prio, tag, text ++ [0]) end) (Redirect.log_str u level tag text) = lines_out level u tag [text].
Proof.
  intros U. unfold Redirect.log_str, lines_out. rewrite land7, Z.mod_small by lia. now destruct (u <=? level).
Qed.
Lemma python_table l : (exists p, In (l, p) python_prio) -> exists p, In (l, p) python_prio /\ Py.logging_prio l = Some p.
Proof.
  intros (p & H). exists p. split; [exact H|]. cbn [python_prio In] in H.
  destruct H as [H|[H|[H|[H|[H|[]]]]]]; injection H as <- <-; reflexivity.
Qed.
Lemma python_answers level r : 0 <= level -> fit (Python r) -> exists prio tag lines, answers level (Python r) prio tag lines.
Proof.
  intros HL (S1 & S2 & LN & HP). destruct r as [lv name text]. cbn [Py.r_name Py.r_text Py.r_level] in *.
  destruct (python_table lv HP) as (p & I & EP). destruct (encoding_ex name S1) as (tag & E1 & L1). destruct (encoding_ex text S2) as (message & E2 & _).
  destruct (C88_lines_partial lv name text tag message) as (prio & lines & LO & EM & A1 & A2 & ST); auto; [rewrite EP; discriminate|].
  assert (ON : (exists rest, message = bytes_of_string "EVT:" ++ rest) \/ forall rest, message <> bytes_of_string "EVT:" ++ rest).
  { destruct (list_eq_dec Z.eq_dec (firstn 4 message) (bytes_of_string "EVT:")) as [E|N].
    - left. exists (skipn 4 message). rewrite <- E. symmetry. apply firstn_skipn.
    - right. intros rest E. apply N. rewrite E. reflexivity. }
  exists prio, tag, lines. constructor.
  - destruct ON as [(rest & E)|N].
    + rewrite (A1 (ex_intro _ rest E)). eapply g_event; eauto.
    + specialize (A2 N). rewrite EP in A2. injection A2 as <-. eapply g_python; eauto.
  - cbn [outputs]. rewrite EM. apply lines_logged. intros x Hx. apply ST; auto.
  - destruct ON as [X|N]; [rewrite (A1 X); lia|]. specialize (A2 N). rewrite EP in A2. injection A2 as <-. cbn [python_prio In] in I.
    destruct I as [H|[H|[H|[H|[H|[]]]]]]; injection H as _ <-; lia.
  - split; [now apply (encoding_nul name)|]. lia.
  - rewrite Forall_forall. intros x Hx H0. apply (encoding_nul text message S2 E2). eapply lines_in; eauto.
Qed.
Lemma glib_answers level d fl text : 0 <= level -> fit (Glib d fl text) -> exists prio tag lines, answers level (Glib d fl text) prio tag lines.
Proof.
  intros HL (ST & NT).
  assert (DEC : (exists i, first_flag fl i) \/ (forall j, 2 <= j <= 7 -> Z.testbit fl j = false)).
  { destruct (Z.testbit fl 2) eqn:B2; [left; exists 2; split; [lia|]; split; [exact B2|intros; lia]|].
    destruct (Z.testbit fl 3) eqn:B3; [left; exists 3; split; [lia|]; split; [exact B3|intros j J; assert (j = 2) as -> by lia; exact B2]|].
    destruct (Z.testbit fl 4) eqn:B4; [left; exists 4; split; [lia|]; split; [exact B4|intros j J; assert (j = 2 \/ j = 3) as [-> | ->] by lia; assumption]|].
    destruct (Z.testbit fl 5) eqn:B5; [left; exists 5; split; [lia|]; split; [exact B5|intros j J; assert (j = 2 \/ j = 3 \/ j = 4) as [-> |[-> | ->]] by lia; assumption]|].
    destruct (Z.testbit fl 6) eqn:B6; [left; exists 6; split; [lia|]; split; [exact B6|intros j J; assert (j = 2 \/ j = 3 \/ j = 4 \/ j = 5) as [-> |[-> |[-> | ->]]] by lia; assumption]|].
    destruct (Z.testbit fl 7) eqn:B7; [left; exists 7; split; [lia|]; split; [exact B7|intros j J; assert (j = 2 \/ j = 3 \/ j = 4 \/ j = 5 \/ j = 6) as [-> |[-> |[-> |[-> | ->]]]] by lia; assumption]|].
    right. intros j J. assert (j = 2 \/ j = 3 \/ j = 4 \/ j = 5 \/ j = 6 \/ j = 7) as [-> |[-> |[-> |[-> |[-> | ->]]]]] by lia; assumption. }
  assert (MG : (level >=? 0) = true) by lia.
  destruct DEC as [(i & FF)|NF].
  - pose proof (PropsRedirect.glib_level_spec fl i FF) as GL. set (u := if i =? 5 then 6 else if i =? 6 then 6 else i) in *.
    assert (IU : In (i, u) glib_prio /\ 2 <= u <= 7).
    { destruct FF as (R & _). unfold u. assert (i = 2 \/ i = 3 \/ i = 4 \/ i = 5 \/ i = 6 \/ i = 7) as [-> |[-> |[-> |[-> |[-> | ->]]]]] by lia; cbn; split; try lia; tauto. }
    destruct IU as (IU & RU). exists u, (named d), [text]. constructor; [eapply g_glib; eauto| |lia|exact ST|constructor; [exact NT|constructor]].
    cbn [outputs]. unfold Redirect.glog_func. rewrite GL, MG. destruct (Z.eqb_spec u (-1)); [lia|]. cbn [negb andb]. f_equal. apply str_given. lia.
  - exists 0, [], []. constructor; [constructor; intros i (R & B & _); rewrite NF in B by lia; discriminate| |lia|split; [intros []|vm_compute; discriminate]|constructor].
    cbn [outputs]. unfold Redirect.glog_func, Redirect.glib_level.
    rewrite (PropsRedirect.land_bit fl 2 4), (PropsRedirect.land_bit fl 3 8), (PropsRedirect.land_bit fl 4 16), (PropsRedirect.land_bit fl 5 32), (PropsRedirect.land_bit fl 6 64), (PropsRedirect.land_bit fl 7 128) by (try lia; reflexivity).
    rewrite !NF by lia. unfold lines_out. now destruct (0 <=? level).
Qed.
Lemma obus_answers level st lv text : 0 <= level -> fit (Obus st lv text) -> exists prio tag lines, answers level (Obus st lv text) prio tag lines.
Proof.
  intros HL (LS & LV & NT & LT). exists (lv + 2), (bytes_of_string "obus"), [firstn 255 text].
  constructor; [constructor| |lia|split; [vm_compute; intuition discriminate|vm_compute; discriminate]|constructor; [intros X; apply NT, (ztake_in 255), X|constructor]].
  cbn [outputs]. replace (u32 (lv - 0 + 2)) with (lv + 2) by (unfold u32; rewrite Z.mod_small; lia). unfold Macros.ulog_log, Macros.enabled.
  rewrite land7, Z.mod_small by lia. unfold lines_out. destruct (lv + 2 <=? level); [|reflexivity].
  rewrite PropsMacros.vlog; [reflexivity|unfold zlen; rewrite LS; reflexivity|lia].
Qed.
Lemma gst_answers level th cat st lv loc obj text : 0 <= level -> fit (Gst th cat st lv loc obj text) -> exists prio tag lines, answers level (Gst th cat st lv loc obj text) prio tag lines.
Proof.
  intros HL (LS & SC & LV & LL & LO & N1 & N2 & N3). assert (ZS : zlen st = 2048) by (unfold zlen; rewrite LS; lia).
  destruct (Z.leb_spec lv th) as [B|B].
  - assert (GP : exists u, In (lv, u) gst_prio /\ Redirect.gst_level lv = u /\ 3 <= u <= 7).
    { assert (lv = 1 \/ lv = 2 \/ lv = 3 \/ lv = 4 \/ lv = 5 \/ lv = 6 \/ lv = 7) as [-> |[-> |[-> |[-> |[-> |[-> | ->]]]]]] by lia;
        eexists; (split; [|split; [reflexivity|cbv; split; discriminate]]); cbn; tauto. }
    destruct GP as (u & IU & GU & RU). exists u, (named cat), [firstn 2047 (loc ++ obj ++ [58] ++ text)].
    assert (NZ : ~ In 0 (firstn 2047 (loc ++ obj ++ [58] ++ text))).
    { intros X. apply (ztake_in 2047) in X. rewrite !in_app_iff in X. cbn in X. intuition discriminate. }
    constructor; [now constructor| |lia|exact SC|constructor; [exact NZ|constructor]].
    destruct (RedirectProofs.gst_format_ok st loc obj text) as (q & E); [lia|lia|lia|].
    cbn [outputs]. unfold Redirect.gst_log_func. destruct (Z.gtb_spec lv th); [lia|]. cbn zeta. rewrite GU. destruct (Z.eqb_spec u (-1)); [lia|]. destruct (Z.geb_spec level 0); [|lia]. cbn [negb andb].
    rewrite E. cbn [bind]. rewrite ZS. f_equal. change (ztake (2048 - 1) (RedirectProofs.whole loc obj text)) with (firstn (Z.to_nat 2047) (loc ++ obj ++ [58] ++ text)).
    change (Z.to_nat 2047) with 2047%nat. rewrite RedirectProofs.cstr_nul by exact NZ. apply str_given. lia.
  - exists 0, [], []. constructor; [now constructor| |lia|split; [intros []|vm_compute; discriminate]|constructor].
    cbn [outputs]. unfold Redirect.gst_log_func. destruct (Z.gtb_spec lv th); [|lia]. unfold lines_out. now destruct (0 <=? level).
Qed.
Lemma front_answers procs c : fproper procs c -> exists prio tag lines, answers (f_level c) (f_front c) prio tag lines.
Proof.
  intros P. pose proof (pf_level _ _ P) as HL. pose proof (pf_fit _ _ P) as HF. destruct (f_front c) as [r|d fl text|st lv text|th cat st lv loc obj text].
  - now apply python_answers. - now apply glib_answers. - now apply obus_answers. - now apply gst_answers.
Qed.

(** ** The calls *)
Definition before_room (procs : list Z) (x : Z * said) : Prop :=
  In (fst x) procs /\ sayable (snd x) /\ binary_of (s_prio (snd x)) = false /\ 0 <= s_sec (snd x) < 2 ^ 31 /\ 0 <= s_nsec (snd x) < 2 ^ 31.
Lemma front_says procs c : fproper procs c -> exists l out, says c l /\ outputs (f_level c) (f_front c) = Ok out /\
  fwrites c out = map (fun x => say (fst x) (snd x)) l /\ Forall (before_room procs) l.
Proof.
  intros P. destruct (front_answers procs c P) as (prio & tag & lines & A). do 2 eexists. split; [exists prio, tag, lines; split; [apply (an_gives _ _ _ _ _ A)|reflexivity]|].
  split; [apply (an_out _ _ _ _ _ A)|]. pose proof (an_prio _ _ _ _ _ A) as HP. pose proof (an_lines _ _ _ _ _ A) as HN. destruct (an_tag _ _ _ _ _ A) as (T1 & T2). unfold lines_out.
  destruct (prio <=? f_level c); [|split; [reflexivity|constructor]]. split.
  - unfold fwrites. rewrite !map_map. apply map_ext. intros x. cbn [fst snd]. unfold say. cbn [s_task s_sec s_nsec s_prio s_tag s_msg]. now rewrite (small_text prio HP).
  - rewrite Forall_map. eapply Forall_impl; [|exact HN]. intros x Hx. destruct (pf_ids _ _ P), (pf_time _ _ P). unfold before_room, sayable. cbn [fst snd s_task s_sec s_nsec s_prio s_tag s_msg].
    split; [apply (pf_fid _ _ P)|]. split; [|split; [now apply small_text|auto]]. pose proof (zlen_names (f_task c)). unfold ParseSpec.int32, uint32, c_string in *. repeat split; try lia; auto.
Qed.
Lemma fronts_say procs calls : Forall (fproper procs) calls -> exists ls, Forall2 says calls ls /\
  fperform calls = Ok (map (fun x => say (fst x) (snd x)) (concat ls)) /\ Forall (before_room procs) (concat ls).
Proof.
  induction 1 as [|c l P _ (ls & F & E & B)]; [exists []; repeat split; constructor|]. destruct (front_says procs c P) as (m & out & S1 & E1 & W & B1).
  exists (m :: ls). split; [now constructor|]. cbn [fperform concat]. rewrite E1. cbn [bind]. rewrite E. cbn [bind]. rewrite W, map_app. split; [reflexivity|]. apply Forall_app. auto.
Qed.

(** A call says one thing only. *)
Lemma split_run l : no_eol l -> forall cur m, Py.split cur (l ++ m) = Py.split (rev l ++ cur) m.
Proof.
  intros (N1 & N2). induction l as [|c l IH]; intros cur m; [reflexivity|]. cbn [app Py.split rev].
  destruct (Z.eqb_spec c 10) as [->|]; [exfalso; apply N1; now left|]. destruct (Z.eqb_spec c 13) as [->|]; [exfalso; apply N2; now left|].
  rewrite IH; [now rewrite <- app_assoc|intros X; apply N1; now right|intros X; apply N2; now right].
Qed.
Lemma lines_one m ls : lines_of m ls -> ls = Py.splitlines m.
Proof.
  unfold Py.splitlines. induction 1 as [|l NE N|l t m ls N T _ IH]; [reflexivity| |].
  - rewrite <- (app_nil_r l) at 2. rewrite split_run by exact N. cbn [Py.split]. rewrite app_nil_r. destruct (rev l) as [|c r] eqn:E.
    + exfalso. apply NE. rewrite <- (rev_involutive l), E. reflexivity.
    + rewrite <- E, rev_involutive. reflexivity.
  - rewrite split_run by exact N. rewrite app_nil_r. destruct T as [-> |[-> |(-> & H)]]; cbn [app Py.split]; rewrite rev_involutive, IH; [reflexivity|reflexivity|].
    destruct m as [|d m]; [reflexivity|]. cbn [hd] in H. cbn [Z.eqb Pos.eqb]. destruct (Z.eqb_spec d 10); [contradiction|reflexivity].
Qed.
Lemma table_one (l : list (Z * Z)) a b c : NoDup (map fst l) -> In (a, b) l -> In (a, c) l -> b = c.
Proof.
  induction l as [|(x, y) l IH]; intros N I J; [destruct I|]. cbn [map fst] in N. inversion N as [|? ? N0 N1]; subst.
  destruct I as [I|I], J as [J|J]; auto; try congruence; exfalso; apply N0.
  - injection I as -> ->. change a with (fst (a, c)). now apply in_map. - injection J as -> ->. change a with (fst (a, b)). now apply in_map.
Qed.
Lemma flag_one f i j : first_flag f i -> first_flag f j -> i = j.
Proof.
  intros (R1 & B1 & L1) (R2 & B2 & L2). destruct (Z.lt_trichotomy i j) as [X|[X|X]]; [|exact X|].
  - rewrite L2 in B1 by lia. discriminate. - rewrite L1 in B2 by lia. discriminate.
Qed.
Lemma gives_one f p t l p' t' l' : gives f p t l -> gives f p' t' l' -> p = p' /\ t = t' /\ l = l' \/ l = [] /\ l' = [].
Proof.
  assert (TP : NoDup (map fst python_prio)) by (cbn; repeat constructor; cbn; lia).
  assert (TG : NoDup (map fst glib_prio)) by (cbn; repeat constructor; cbn; lia).
  assert (TS : NoDup (map fst gst_prio)) by (cbn; repeat constructor; cbn; lia).
  assert (ENC : forall s a b, encoding s a -> encoding s b -> a = b) by (intros s a b A B; apply encoding_utf8 in A, B; congruence).
  intros A B. destruct A as [lv name text tag message lines rest E1 E2 LO EV|lv name text tag message lines prio E1 E2 LO EV I|d fl text i prio FF I|d fl text NF|st lv text|th cat st lv loc obj text prio LE I|th cat st lv loc obj text LT];
    inversion B as [lv' name' text' tag' message' lines' rest' E1' E2' LO' EV'|lv' name' text' tag' message' lines' prio' E1' E2' LO' EV' I'|d' fl' text' i' prio' FF' I'|d' fl' text' NF'|st' lv' text'|th' cat' st' lv' loc' obj' text' prio' LE' I'|th' cat' st' lv' loc' obj' text' LT']; subst;
    try (pose proof (ENC _ _ _ E1 E1'); pose proof (ENC _ _ _ E2 E2'); subst; apply lines_one in LO, LO'; subst); try (now left); try (now right); try lia;
    try solve [exfalso; match goal with H : forall rest, _ <> _ |- _ => eapply H; first [eassumption|reflexivity] end];
    try solve [exfalso; match goal with H : forall i, ~ _ |- _ => eapply H; eassumption end];
    try solve [left; repeat split; first [eapply (table_one _ _ _ _ TP); eassumption|eapply (table_one _ _ _ _ TS); eassumption]].
  - left. match goal with H : bytes_of_string "EVT:" ++ _ = _ |- _ => rewrite H end. auto.
  - left. repeat split. match goal with H : first_flag _ _, H' : first_flag _ _ |- _ => pose proof (flag_one _ _ _ H H') end. subst. eapply (table_one _ _ _ _ TG); eassumption.
Qed.
Lemma says_one c l l' : says c l -> says c l' -> l = l'.
Proof.
  intros (p & t & x & G & ->) (p' & t' & x' & G' & ->). destruct (gives_one _ _ _ _ _ _ _ G G') as [(-> & -> & ->)|(-> & ->)]; [reflexivity|].
  cbn [map]. now destruct (p <=? f_level c), (p' <=? f_level c).
Qed.

(** Python programs log with ULogHandler, other programs through GLib, OBus or GStreamer; the device is then
    dumped: the lines of each message that passes the level of its tag are on the screen, in order;
    if the buffer was too small, the oldest are missing and a line says how many. *)
Theorem C138_screen : forall nm mem pow2 procs calls ls rfid all uid paths,
  init_ok nm mem pow2 -> ~ In 0 nm -> NoDup procs -> ~ In rfid procs -> Forall (fproper procs) calls -> Forall2 says calls ls -> Forall roomy (concat ls) ->
  exists ops, fperform calls = Ok ops /\ dumped nm mem pow2 (opens procs ++ ops) (concat ls) rfid all uid paths.
Proof.
  intros nm mem pow2 procs calls ls rfid all uid paths HI HN ND NR P F R. destruct (fronts_say procs calls P) as (ls' & F' & E & B).
  assert (ls' = ls) as -> . { clear - F F'. revert ls' F'. induction F as [|c l cs ls S _ IH]; intros ls' F'; inversion F'; subst; [reflexivity|]. f_equal; [eapply says_one; eauto|auto]. }
  eexists. split; [exact E|]. apply said_screen; auto.
  - eapply Forall_impl; [|exact B]. intros x Hx. apply Hx.
  - rewrite Forall_forall in *. intros x Hx. destruct (B x Hx) as (_ & B1 & B2 & B3 & B4). constructor; auto.
Qed.
(** Every such message says something. *)
Theorem C138_all : forall procs c, fproper procs c -> exists l, says c l.
Proof. intros procs c P. destruct (front_says procs c P) as (l & _ & S & _). eauto. Qed.

(** Ada logs two lines in python, then a program through GLib, OBus and GStreamer; the debug message of
    OBus is below its level. *)
Definition ex_f (level : Z) (f : front) : fcall := mkF 7 (mkTask 100 100 (bytes_of_string "prog") [] 5) 1 0 level f.
Definition ex_fcalls : list fcall :=
  [ex_f 6 (Python (Py.mkRec 40 (bytes_of_string "net") ([233; 10] ++ bytes_of_string "down")));
   ex_f 6 (Python (Py.mkRec 40 (bytes_of_string "net") (bytes_of_string "EVT:UP")));
   ex_f 6 (Glib None 0x24 (bytes_of_string "fatal")); ex_f 6 (Glib None 1 (bytes_of_string "none"));
   ex_f 6 (Obus (repeat 0 256) 5 (bytes_of_string "hidden"));
   ex_f 6 (Gst 4 (Some (bytes_of_string "pad")) (zrepeat 0 2048) 4 (bytes_of_string "a.c:12:f") (bytes_of_string "<q>") (bytes_of_string "flow"))].
Definition ex_out : list (list (Z * said)) :=
  let m prio tag text := (7, mkSaid (mkTask 100 100 (bytes_of_string "prog") [] 5) 1 0 prio (bytes_of_string tag) text) in
  [[m 3 "net"%string [195; 169]; m 3 "net"%string (bytes_of_string "down")]; [m 5 "net"%string (bytes_of_string "EVT:UP")];
   [m 2 "APP"%string (bytes_of_string "fatal")]; []; []; [m 6 "pad"%string (bytes_of_string "a.c:12:f<q>:flow")]].
Lemma ascii_encoding s : Forall (fun c => 0 <= c < 128) s -> encoding s s.
Proof. induction 1 as [|c s C _ IH]; [constructor|]. change (encoding (c :: s) ([c] ++ s)). constructor; [now constructor|exact IH]. Qed.
Example C138_ex : init_ok (bytes_of_string "ulog_main") (zrepeat 170 16384) 14 /\ ~ In 0 (bytes_of_string "ulog_main") /\ NoDup [7] /\ ~ In 8 [7] /\
  Forall (fproper [7]) ex_fcalls /\ Forall2 says ex_fcalls ex_out /\ Forall roomy (concat ex_out) /\
  concat (map text_line (concat ex_out)) =
    bytes_of_string "E net         : " ++ [195; 169; 10] ++ bytes_of_string "E net         : down" ++ [10] ++ bytes_of_string "N net         : EVT:UP" ++ [10] ++
    bytes_of_string "C APP         : fatal" ++ [10] ++ bytes_of_string "I pad         : a.c:12:f<q>:flow" ++ [10].
Proof.
  split. { split; [lia|]. split; [rewrite zlen_zrepeat; reflexivity|vm_compute; discriminate]. }
  split; [vm_compute; intuition discriminate|]. split; [repeat constructor; intros []|]. split; [cbn; lia|].
  assert (NZ : forall s, forallb (fun c => negb (c =? 0)) (bytes_of_string s) = true -> ~ In 0 (bytes_of_string s)).
  { intros s F I. rewrite forallb_forall in F. specialize (F 0 I). discriminate. }
  assert (SC : forall l, forallb (fun c => (0 <? c) && (c <? 256)) l = true -> Forall scalar l).
  { intros l F. rewrite Forall_forall. intros c I. rewrite forallb_forall in F. specialize (F c I). left. lia. }
  assert (AS : forall l, forallb (fun c => (0 <=? c) && (c <? 128)) l = true -> encoding l l).
  { intros l F. apply ascii_encoding. rewrite Forall_forall. intros c I. rewrite forallb_forall in F. specialize (F c I). lia. }
  split; [|split; [|split; [|vm_compute; reflexivity]]].
  - unfold ex_fcalls, ex_f. repeat (apply Forall_cons; [constructor|]); try apply Forall_nil; cbn [f_fid f_task f_sec f_nsec f_level f_front t_tgid t_pid];
      unfold ParseSpec.int32; try lia; try (cbn [In]; lia); cbn [fit Py.r_name Py.r_text Py.r_level named]; unfold short.
    + split; [apply SC; reflexivity|]. split; [apply SC; reflexivity|]. split; [vm_compute; discriminate|exists 3; cbn; tauto].
    + split; [apply SC; reflexivity|]. split; [apply SC; reflexivity|]. split; [vm_compute; discriminate|exists 3; cbn; tauto].
    + split; [split; [apply NZ; reflexivity|vm_compute; discriminate]|apply NZ; reflexivity].
    + split; [split; [apply NZ; reflexivity|vm_compute; discriminate]|apply NZ; reflexivity].
    + split; [reflexivity|]. split; [lia|]. split; [apply NZ; reflexivity|vm_compute; reflexivity].
    + split; [apply repeat_length|]. split; [split; [apply NZ; reflexivity|vm_compute; discriminate]|]. split; [lia|]. split; [vm_compute; discriminate|]. split; [vm_compute; reflexivity|].
      repeat split; apply NZ; reflexivity.
  - unfold ex_fcalls, ex_out, ex_f. repeat (apply Forall2_cons; [unfold says; cbn [f_fid f_task f_sec f_nsec f_level f_front]|]); try apply Forall2_nil.
    + exists 3, (bytes_of_string "net"), [[195; 169]; bytes_of_string "down"]. split; [|reflexivity]. eapply (g_python _ _ _ _ ([195; 169; 10] ++ bytes_of_string "down")).
      * apply AS; reflexivity.
      * change ([233; 10] ++ bytes_of_string "down") with (64 * 3 + 41 :: 10 :: bytes_of_string "down"). change ([195; 169; 10] ++ bytes_of_string "down") with ([0xc0 + 3; 0x80 + 41] ++ [10] ++ bytes_of_string "down").
        constructor; [constructor; unfold tail; lia|]. constructor; [constructor; lia|]. apply AS. reflexivity.
      * change ([195; 169; 10] ++ bytes_of_string "down") with ([195; 169] ++ [10] ++ bytes_of_string "down"). constructor; [split; vm_compute; intuition discriminate|now left|].
        constructor; [discriminate|split; vm_compute; intuition discriminate].
      * discriminate.
      * cbn; tauto.
    + exists 5, (bytes_of_string "net"), [bytes_of_string "EVT:UP"]. split; [|reflexivity]. eapply (g_event _ _ _ _ (bytes_of_string "EVT:UP") _ (bytes_of_string "UP")); [apply AS; reflexivity|apply AS; reflexivity| |reflexivity].
      constructor; [discriminate|split; vm_compute; intuition discriminate].
    + exists 2, (bytes_of_string "APP"), [bytes_of_string "fatal"]. split; [|reflexivity]. apply (g_glib None _ _ 2); [split; [lia|]; split; [reflexivity|intros; lia]|cbn; tauto].
    + exists 0, [], []. split; [|reflexivity]. constructor. intros i (R & B & _). change 1 with (2 ^ 0) in B. rewrite Z.pow2_bits_false in B by lia. discriminate.
    + exists 7, (bytes_of_string "obus"), [bytes_of_string "hidden"]. split; [|reflexivity]. apply (g_obus _ 5).
    + exists 6, (bytes_of_string "pad"), [bytes_of_string "a.c:12:f<q>:flow"]. split; [|reflexivity]. apply (g_gst 4 (Some (bytes_of_string "pad"))); [lia|cbn; tauto].
  - unfold roomy. repeat constructor.
Qed.
Print Assumptions C138_screen.
Print Assumptions C138_all.
