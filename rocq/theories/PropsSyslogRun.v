(** Property C137: from calls of the syslog functions to the bytes that ulogcat prints.

    Vocabulary: SyslogRunSpec.v ([messages], [tag_of], [limit], [proper]), SaidRunSpec.v ([dumped]). *)
From Coq Require Import ZArith String List Bool Lia ZifyBool ZifyNat Arith.
From Verif Require Import Bytes BytesProofs Ring RingSpec RingLemmas RingObs RingRefine Parse ParseSpec Iov SaidSpec PropsSaid Program ProgramSpec
  SaidRunSpec PropsProgram SaidScreen Syslog SyslogProofs PropsSyslog SyslogRun SyslogRunSpec.
Import ListNotations.
Open Scope Z_scope.

(** ** The static variables of a process *)
Definition is_close (o : op) : bool := match o with OClose => true | _ => false end.
Definition started (h : list op) : bool := existsb (fun o => negb (is_close o)) h.
Lemma started_app h o : started (h ++ [o]) = started h || negb (is_close o).
Proof. unfold started. rewrite existsb_app. cbn [existsb]. now rewrite orb_false_r. Qed.
Lemma tag_started h x : started h = true -> tag_of (h ++ x) = tag_of h.
Proof.
  induction h as [|o h IH]; [discriminate|]. unfold started. cbn [existsb]. destruct o as [[i|] k|st p f a|m|]; cbn [is_close negb orb app tag_of]; auto.
Qed.
Lemma tag_fresh h x : started h = false -> tag_of (h ++ x) = tag_of x.
Proof.
  induction h as [|o h IH]; [reflexivity|]. unfold started. cbn [existsb]. destruct o as [[i|] k|st p f a|m|]; cbn [is_close negb orb app tag_of]; auto; discriminate.
Qed.
Lemma limit_app h o : forall st, limit st (h ++ [o]) = match o with OMask m => limit_of m | _ => limit st h end.
Proof. induction h as [|x h IH]; intros st; [destruct o; reflexivity|]. cbn [app limit]. destruct x; rewrite IH; destruct o; reflexivity. Qed.

Lemma limit_or h : forall st, limit st h = st \/ 2 <= limit st h.
Proof.
  induction h as [|o h IH]; intros st; [now left|]. cbn [limit]. destruct o; auto. right. destruct (IH (limit_of mask)) as [-> |X]; [|exact X].
  unfold limit_of. destruct (mask =? 0); lia.
Qed.

Definition level_ok (e : env) (h : list op) (s : state) : Prop :=
  y_level s = limit (e_level e) h \/ y_level s < 0 /\ limit (e_level e) h = e_level e.
Record follows (e : env) (h : list op) (s : state) : Prop := {
  fo_init : y_init s = started h;
  fo_name : y_name s = tag_of h;
  fo_long : y_long s = started h && e_long e;
  fo_level : level_ok e h s }.

Definition ident_of (o : op) : option (list Z) := match o with OOpen i _ => i | _ => None end.
Lemma init_follows e h s o : follows e h s -> is_close o = false ->
  let D := do_init e s (ident_of o) in
  y_init D = true /\ y_name D = tag_of (h ++ [o]) /\ y_long D = e_long e /\ y_level D = y_level s.
Proof.
  intros F NC D. unfold D, do_init. rewrite (fo_init _ _ _ F). destruct (started h) eqn:ST.
  - rewrite tag_started by exact ST. rewrite (fo_init _ _ _ F), (fo_name _ _ _ F), (fo_long _ _ _ F), ST. auto.
  - rewrite tag_fresh by exact ST. cbn [y_init y_name y_long y_level]. rewrite (fo_name _ _ _ F), (fo_long _ _ _ F), ST. cbn [andb orb].
    assert (T0 : tag_of h = []) by (rewrite <- (app_nil_r h), tag_fresh by exact ST; reflexivity). rewrite T0.
    repeat split. destruct o as [[i|] k|st p f a|m|]; try reflexivity; discriminate.
Qed.
Lemma buf_follows e h s p data : level_ok e h s -> 0 <= p < 8 ->
  exists s', log_buf e s p data = (s', if p <=? limit (e_level e) h then [Emit p (y_name s) data] else []) /\
    y_init s' = y_init s /\ y_name s' = y_name s /\ y_long s' = y_long s /\ level_ok e h s'.
Proof.
  intros L P. unfold log_buf. replace (Z.land p 7) with p by (change 7 with (Z.ones 3); rewrite Z.land_ones by lia; change (2 ^ 3) with 8; rewrite Z.mod_small; lia).
  destruct (Z.ltb_spec (y_level s) 0) as [N|N]; cbn [y_level y_name].
  - assert (E : limit (e_level e) h = e_level e). { destruct L as [L|[_ L]]; [|exact L]. destruct (limit_or h (e_level e)); [assumption|lia]. }
    eexists. split; [rewrite E; reflexivity|]. cbn [y_init y_name y_long]. repeat split. left. cbn [y_level]. congruence.
  - destruct L as [L|[X _]]; [|lia]. eexists. split; [rewrite L; reflexivity|]. repeat split. left. exact L.
Qed.

(** ** The text *)
Lemma prints_text fmt : forall ap, conversions fmt = length ap -> prints fmt ap (text_of fmt ap).
Proof.
  unfold conversions. induction fmt as [|[s|] fmt IH]; intros ap E; cbn [filter length text_of] in *.
  - destruct ap; [constructor|discriminate].
  - constructor. now apply IH.
  - destruct ap as [|a ap]; [discriminate|]. constructor. apply IH. cbn [length] in E. lia.
Qed.
Lemma text_given e stack fmt ap : fine e (OLog stack 0 fmt ap) ->
  vlog_notruncate e (e_long e) stack fmt ap = Ok (Some ((if e_long e then text_of fmt ap else firstn 255 (text_of fmt ap)) ++ [0])).
Proof.
  intros (HS & HC & HZ & HL & HG). pose proof (prints_text fmt ap HC) as HP.
  destruct (C70_text_partial e stack fmt ap (text_of fmt ap) HP) as (A & B & C); [unfold zlen; rewrite HS; reflexivity|lia|].
  destruct (e_long e) eqn:EL; [|exact A]. destruct (Z.leb_spec (zlen (text_of fmt ap)) 255) as [S|S]; [now apply B|]. destruct (HG eq_refl S) as (A1 & A2). now apply C.
Qed.

(** ** A call *)
Lemma land7 p : Z.land p 7 = p mod 8.
Proof. change 7 with (Z.ones 3). now rewrite Z.land_ones by lia. Qed.
Lemma land8 k : (Z.land k 8 =? 0) = negb (Z.testbit k 3).
Proof.
  assert (H : Z.land k 8 = if Z.testbit k 3 then 8 else 0).
  { apply Z.bits_inj'. intros n Hn. rewrite Z.land_spec. change 8 with (2 ^ 3). rewrite Z.pow2_bits_eqb by lia. destruct (Z.eqb_spec 3 n) as [<-|N].
    - rewrite andb_true_r. destruct (Z.testbit k 3); [reflexivity|now rewrite Z.bits_0].
    - rewrite andb_false_r. destruct (Z.testbit k 3); [symmetry; apply Z.pow2_bits_false; lia|now rewrite Z.bits_0]. }
  rewrite H. now destruct (Z.testbit k 3).
Qed.
Lemma small_text p : 0 <= p < 8 -> binary_of p = false.
Proof.
  intros P. apply no_bit. apply Z.bits_above_log2; [lia|]. destruct (Z.eq_dec p 0) as [->|]; [reflexivity|]. apply Z.log2_lt_pow2; lia.
Qed.
Lemma buf_written e h s o c p text : is_close o = false -> w_op c = o -> follows e h s -> 0 <= p < 8 -> asked e o = Some (p, text) -> (forall m, o <> OMask m) ->
  exists s' evs, log_buf e (do_init e s (ident_of o)) p (text ++ [0]) = (s', evs) /\ follows e (h ++ [o]) s' /\
    concat (map (written c) evs) = map (fun x => say (fst x) (snd x)) (message e h c).
Proof.
  intros NC EO F P A NM. destruct (init_follows e h s o F NC) as (D1 & D2 & D3 & D4). set (D := do_init e s (ident_of o)) in *.
  assert (LD : level_ok e h D) by (unfold level_ok; rewrite D4; exact (fo_level _ _ _ F)).
  destruct (buf_follows e h D p (text ++ [0]) LD P) as (s' & E & I1 & I2 & I3 & I4). exists s', (if p <=? limit (e_level e) h then [Emit p (y_name D) (text ++ [0])] else []).
  split; [exact E|]. split.
  - constructor; rewrite ?started_app, ?NC, ?orb_true_r; cbn [negb andb]; rewrite ?orb_true_r; try congruence.
    unfold level_ok in *. rewrite limit_app. destruct o; try exact I4. exfalso. eapply NM. reflexivity.
  - unfold message. rewrite EO, A. destruct (p <=? limit (e_level e) h); [|reflexivity]. cbn [map concat written app fst snd]. unfold say. cbn [s_task s_sec s_nsec s_prio s_tag s_msg].
    rewrite (small_text p P), D2. reflexivity.
Qed.
Lemma step_says e h s c : follows e h s -> fine e (w_op c) ->
  exists s' evs, step e s (w_op c) = Ok (s', evs) /\ follows e (h ++ [w_op c]) s' /\
    concat (map (written c) evs) = map (fun x => say (fst x) (snd x)) (message e h c).
Proof.
  intros F G. destruct (w_op c) as [i k|st p f a|m|] eqn:EO; cbn [step].
  - unfold openlog. rewrite land8. destruct (Z.testbit k 3) eqn:B; cbn [negb].
    + destruct (buf_written e h s (OOpen i k) c 6 (bytes_of_string "redirecting syslog to ulog") eq_refl EO F) as (s' & evs & E & R); [lia|cbn [asked]; now rewrite B|discriminate|].
      exists s', evs. split; [|exact R]. cbn [ident_of] in E. now rewrite E.
    + destruct (init_follows e h s (OOpen i k) F eq_refl) as (D1 & D2 & D3 & D4). cbn [ident_of] in *. do 2 eexists. split; [reflexivity|]. split.
      * constructor; rewrite ?started_app; cbn [is_close negb]; rewrite ?orb_true_r; auto. unfold level_ok. rewrite D4, limit_app. exact (fo_level _ _ _ F).
      * unfold message. rewrite EO. cbn [asked]. rewrite B. reflexivity.
  - unfold syslog. destruct (init_follows e h s (OLog st p f a) F eq_refl) as (D1 & D2 & D3 & D4). cbn [ident_of] in *. rewrite D3, text_given by exact G. cbn [bind]. rewrite land7.
    destruct (buf_written e h s (OLog st p f a) c (p mod 8) (if e_long e then text_of f a else firstn 255 (text_of f a)) eq_refl EO F) as (s' & evs & E & R);
      [apply Z.mod_pos_bound; lia|reflexivity|discriminate|]. exists s', evs. split; [|exact R]. cbn [ident_of] in E. now rewrite E.
  - unfold setlogmask. destruct (init_follows e h s (OMask m) F eq_refl) as (D1 & D2 & D3 & D4). cbn [ident_of] in *. rewrite mask_loop_int by exact G. cbn [bind].
    do 2 eexists. split; [reflexivity|]. split; [|unfold message; rewrite EO; reflexivity].
    constructor; rewrite ?started_app; cbn [is_close negb]; rewrite ?orb_true_r; unfold set_level; cbn [y_init y_name y_long]; auto.
    left. rewrite limit_app. cbn [y_level]. unfold limit_of, u32. change (2 ^ 32) with 4294967296. destruct (m =? 0); [reflexivity|]. generalize (Z.log2 (m mod 4294967296)). intros L.
    destruct (Z.ltb_spec L 2); [cbn; lia|]. destruct (Z.gtb_spec L 7); [cbn; lia|]. destruct (Z.ltb_spec L 0); [lia|]. destruct (Z.gtb_spec L 7); lia.
  - do 2 eexists. split; [reflexivity|]. split; [|unfold message; rewrite EO; reflexivity].
    constructor; rewrite ?started_app; cbn [is_close negb]; rewrite ?orb_false_r; try apply F.
    + rewrite (fo_name _ _ _ F). destruct (started h) eqn:ST; [now rewrite tag_started|]. rewrite tag_fresh by exact ST. rewrite <- (app_nil_r h), tag_fresh by exact ST. reflexivity.
    + unfold level_ok. rewrite limit_app. apply (fo_level _ _ _ F).
Qed.

(** ** The calls of the processes *)
Lemma before_app f l c : before f (l ++ [c]) = before f l ++ (if w_fid c =? f then [w_op c] else []).
Proof. unfold before. rewrite filter_app, map_app. cbn [filter]. now destruct (w_fid c =? f). Qed.
Lemma perform_says procs es : forall l past ss, (forall f, follows (es f) (before f past) (ss f)) -> Forall (proper procs es) l ->
  perform es ss l = Ok (map (fun x => say (fst x) (snd x)) (messages es past l)).
Proof.
  induction l as [|c l IH]; intros past ss F P; cbn [perform messages]; [reflexivity|]. inversion P as [|? ? P0 P1]; subst.
  destruct (step_says (es (w_fid c)) (before (w_fid c) past) (ss (w_fid c)) c (F _) (pw_op _ _ _ P0)) as (s' & evs & E & F' & W). rewrite E. cbn [bind].
  rewrite (IH (past ++ [c])); [|intros f|exact P1].
  - cbn [bind]. rewrite map_app, W. reflexivity.
  - rewrite before_app. destruct (Z.eqb_spec f (w_fid c)) as [->|N]; [rewrite Z.eqb_refl; exact F'|]. destruct (Z.eqb_spec (w_fid c) f); [congruence|]. rewrite app_nil_r. apply F.
Qed.
Lemma in_text e o p text : asked e o = Some (p, text) -> fine e o -> 0 <= p < 8 /\ ~ In 0 text.
Proof.
  destruct o as [i k|st q f a|m|]; cbn [asked fine]; try discriminate; intros E G.
  - destruct (Z.testbit k 3); [|discriminate]. injection E as <- <-. split; [lia|]. vm_compute. intuition discriminate.
  - injection E as <- <-. split; [apply Z.mod_pos_bound; lia|]. destruct G as (_ & _ & G & _). destruct (e_long e); [exact G|]. intros X. apply G, (ztake_in 255), X.
Qed.
Lemma tag_fine e h : Forall (fine e) h -> ~ In 0 (tag_of h) /\ zlen (tag_of h) <= 1000.
Proof.
  assert (N0 : ~ In 0 (@nil Z) /\ zlen (@nil Z) <= 1000) by (split; [intros []|vm_compute; discriminate]).
  induction 1 as [|o h G _ IH]; cbn [tag_of]; [exact N0|]. destruct o as [[i|] k|st q f a|m|]; auto.
Qed.
Lemma messages_texted procs es : forall l past, Forall (proper procs es) past -> Forall (proper procs es) l -> Forall roomy (messages es past l) ->
  Forall texted (messages es past l) /\ Forall (fun x => In (fst x) procs) (messages es past l).
Proof.
  induction l as [|c l IH]; intros past PP P R; cbn [messages] in *; [split; constructor|]. inversion P as [|? ? P0 P1]; subst. apply Forall_app in R. destruct R as (R0 & R1).
  destruct (IH (past ++ [c])) as (A & B); [apply Forall_app; auto|exact P1|exact R1|]. rewrite !Forall_app. unfold message in *.
  destruct (asked (es (w_fid c)) (w_op c)) as [[p text]|] eqn:EA; [|auto]. destruct (p <=? limit (e_level (es (w_fid c))) (before (w_fid c) past)); [|auto].
  inversion R0 as [|? ? R2 _]; subst. destruct (in_text _ _ _ _ EA (pw_op _ _ _ P0)) as (Hp & HT).
  destruct (tag_fine (es (w_fid c)) (before (w_fid c) past ++ [w_op c])) as (T1 & T2).
  { apply Forall_app. split; [|constructor; [apply (pw_op _ _ _ P0)|constructor]]. unfold before. rewrite Forall_map, Forall_forall. intros x Hx. apply filter_In in Hx. destruct Hx as (Hx & EF).
    rewrite Forall_forall in PP. pose proof (pw_op _ _ _ (PP x Hx)) as G. apply Z.eqb_eq in EF. now rewrite EF in G. }
  split; (split; [|assumption]); (constructor; [|constructor]); [|apply (pw_fid _ _ _ P0)].
  destruct (pw_ids _ _ _ P0) as [I1 I2], (pw_time _ _ _ P0) as [H1 H2]. constructor; cbn [snd s_task s_sec s_nsec s_prio s_tag s_msg]; auto; [|now apply small_text].
  unfold sayable. cbn [s_task s_sec s_nsec s_prio s_tag s_msg]. pose proof (zlen_names (w_task c)). unfold ParseSpec.int32, uint32, c_string in *. repeat split; try lia; auto.
Qed.

(** Programs log with openlog, syslog and setlogmask of the wrapper, and the device is then dumped: the messages
    at most at the limit of their process are on the screen, in order, with the name given to openlog
    (if it was the first call) and at most 255 bytes of text, more with long messages; if the buffer
    was too small, the oldest are missing and a line says how many. *)
Theorem C137_screen : forall nm mem pow2 procs es calls rfid all uid paths,
  init_ok nm mem pow2 -> ~ In 0 nm -> NoDup procs -> ~ In rfid procs -> Forall (proper procs es) calls -> Forall roomy (messages es [] calls) ->
  exists ops, perform es (fun _ => init) calls = Ok ops /\ dumped nm mem pow2 (opens procs ++ ops) (messages es [] calls) rfid all uid paths.
Proof.
  intros nm mem pow2 procs es calls rfid all uid paths HI HN ND NR P R. eexists. split.
  - apply (perform_says procs es calls []); [|exact P]. intros f. constructor; cbn; auto. right. cbn. split; [lia|reflexivity].
  - destruct (messages_texted procs es calls [] (Forall_nil _) P R) as (A & B). now apply (said_screen nm mem pow2 procs).
Qed.

(** Two processes: the first names itself, hides notices, then shows them; the second has no name. *)
Definition ex_w (fid sec : Z) (o : op) : wcall := mkW fid (mkTask fid fid (bytes_of_string "prog") [] 5) sec 0 o.
Definition ex_say (prio : Z) (s : string) : op := OLog (repeat 170 256) prio [Lit (bytes_of_string s); Conv] [bytes_of_string " !"].
Definition ex_wcalls : list wcall :=
  [ex_w 7 1 (OOpen (Some (bytes_of_string "netd")) 8); ex_w 8 2 (ex_say 1 "help"); ex_w 7 3 (OMask 31); ex_w 7 4 (ex_say 5 "hidden");
   ex_w 7 5 (OOpen (Some (bytes_of_string "other")) 0); ex_w 7 6 (OMask 63); ex_w 7 7 (ex_say (8 * 16 + 5) "shown")].
Definition ex_es (f : Z) : env := mkEnv false 6 None.
Example C137_ex : init_ok (bytes_of_string "ulog_main") (zrepeat 170 16384) 14 /\ ~ In 0 (bytes_of_string "ulog_main") /\ NoDup [7; 8] /\ ~ In 9 [7; 8] /\
  Forall (proper [7; 8] ex_es) ex_wcalls /\ Forall roomy (messages ex_es [] ex_wcalls) /\
  concat (map text_line (messages ex_es [] ex_wcalls)) =
    bytes_of_string "I netd        : redirecting syslog to ulog" ++ [10] ++ bytes_of_string "              : help !" ++ [10] ++
    bytes_of_string "N netd        : shown !" ++ [10].
Proof.
  split. { split; [lia|]. split; [rewrite zlen_zrepeat; reflexivity|vm_compute; discriminate]. }
  split; [vm_compute; intuition discriminate|]. split; [repeat constructor; cbn; intuition lia|]. split; [cbn; lia|].
  split; [|split; [|vm_compute; reflexivity]].
  - unfold ex_wcalls, ex_w, ex_say. repeat (apply Forall_cons; [constructor|]); try apply Forall_nil; cbn [w_fid w_task w_sec w_nsec w_op t_tgid t_pid];
      unfold ParseSpec.int32; try lia; try (cbn [In]; lia); vm_compute; intuition discriminate.
  - unfold roomy. repeat constructor.
Qed.
Print Assumptions C137_screen.
