(** Property C123: setup of the python logging. *)
From Coq Require Import ZArith String List Bool Lia ZifyBool Arith.
From Verif Require Import Bytes BytesProofs Cookies CookiesSpec PropsCookies Py PySpec PyProofs PySetup.
Import ListNotations.
Open Scope Z_scope.

(** ** Specification *)

(** What a C program with the same environment writes of a message given at once at priority [prio] with tag [tag]. *)
Definition wanted (env : list Z -> option (list Z)) (tag : list Z) (prio : Z) : bool := prio <=? initial_level env tag (-1).
(** The name of the cookie of the python module. *)
Definition PY : list Z := bytes_of_string "ulog_py".
Definition event_text (m : list Z) : Prop := exists r, m = [69; 86; 84; 58] ++ r.

(** ** Lemmas *)

Lemma master_level_ok g : master_level g = initial_level (g_env g) PY (-1).
Proof. apply (env_level_spec (mkCfg (fun _ => PY) (g_env g)) 0 (-1)). vm_compute. discriminate. Qed.
Lemma not_event m : ~ event_text m -> startswith (bytes_of_string "EVT:") m = false.
Proof.
  intros N. unfold startswith. destruct (bytes_eqb _ _) eqn:E; [|reflexivity]. exfalso. apply N. apply bytes_eqb_eq in E.
  exists (skipn 4 m). change (length (bytes_of_string "EVT:")) with 4%nat in E. rewrite <- (firstn_skipn 4 m) at 1. rewrite E. reflexivity.
Qed.
Lemma logging_prio_cases l p : logging_prio l = Some p -> (l = 50 /\ p = 0) \/ (l = 40 /\ p = 3) \/ (l = 30 /\ p = 4) \/ (l = 20 /\ p = 6) \/ (l = 10 /\ p = 7).
Proof.
  unfold logging_prio, CRITICAL, ERROR, WARNING, INFO, DEBUG. intros H.
  repeat match type of H with context [?a =? ?b] => destruct (Z.eqb_spec a b); [injection H as <-; lia|] end. discriminate.
Qed.
Lemma filter_all {A} (f : A -> bool) (b : bool) l : (forall x, In x l -> f x = b) -> filter f l = if b then l else [].
Proof.
  induction l as [|x l IH]; intros H; [destruct b; reflexivity|]. cbn [filter]. rewrite (H x (or_introl eq_refl)), IH by (intros y I; apply H; now right). destruct b; reflexivity.
Qed.

Lemma setups_state g : forall l s, p_handlers (setups g s l) = (length l + p_handlers s)%nat /\
  (l <> [] -> p_hook (setups g s l) = true /\
     p_level (setups g s l) = match g_env g (bytes_of_string "ULOG_LEVEL") with Some v => if bytes_eqb v (bytes_of_string "D") then DEBUG else INFO | None => INFO end).
Proof.
  assert (ONE : forall s n, let s' := fst (fst (setup g s n)) in p_handlers s' = S (p_handlers s) /\ p_hook s' = true /\
     p_level s' = match g_env g (bytes_of_string "ULOG_LEVEL") with Some v => if bytes_eqb v (bytes_of_string "D") then DEBUG else INFO | None => INFO end).
  { intros s n. unfold setup. destruct (truthy n && g_linux g); [|repeat split]. destruct (match n with Str t => utf8 t | ByteStr b => Some b | NoName => None end) as [b|]; [|repeat split].
    destruct (zlen b >? 15); [|repeat split]. destruct (log _ _ _) as [o e]. repeat split. }
  induction l as [|n l IH]; intros s; [split; [reflexivity|congruence]|]. cbn [setups length]. destruct (ONE s n) as (A & B & C). specialize (IH (fst (fst (setup g s n)))). destruct IH as (I1 & I2).
  split; [rewrite I1, A; lia|]. intros _. destruct l as [|m l]; [cbn [setups]; auto|]. apply I2. discriminate.
Qed.
Lemma handle_ok g r l : emit r = inr l -> forall n, handle g n r = (concat (repeat (filter (passes g) l) n), None).
Proof. intros E. induction n as [|n IH]; [reflexivity|]. cbn [handle repeat concat]. rewrite E, IH. reflexivity. Qed.

(** ** C123 *)

(** What a logged message gives after any number of calls of setup_logging: the lines of its text, with the tag and the
    priority of the record, once per call, if a C program would write them with the tag "ulog_py". *)
Theorem C123_log : forall g names lv name text tag message prio, logging_prio lv = Some prio ->
  encoding name tag -> encoding text message -> ~ event_text message ->
  names <> [] -> (initial_level (g_env g) PY (-1) < 7 \/ g_env g (bytes_of_string "ULOG_LEVEL") = Some (bytes_of_string "D")) ->
  exists ls, lines_of message ls /\
  log g (setups g fresh names) (mkRec lv name text) =
    (concat (repeat (if wanted (g_env g) PY prio then map (fun line => (prio, tag, line ++ [0])) ls else []) (length names)), None).
Proof.
  intros g names lv name text tag message prio HP HN HT NE NN OK.
  destruct (setups_state g names fresh) as (A & B). destruct (B NN) as (_ & LV). unfold log. cbn [r_level]. rewrite LV, A. cbn [p_handlers fresh]. rewrite Nat.add_0_r.
  exists (splitlines message). split; [apply (splitlines_ok _ message (Nat.lt_succ_diag_r _))|].
  assert (EM : emit (mkRec lv name text) = inr (map (fun line => (prio, tag, line ++ [0])) (splitlines message))).
  { unfold emit. cbn [r_level r_name r_text]. rewrite HP, (encoding_utf8 _ _ HN), (encoding_utf8 _ _ HT), not_event by exact NE. reflexivity. }
  pose proof (logging_prio_cases _ _ HP) as CASES.
  assert (FL : filter (passes g) (map (fun line => (prio, tag, line ++ [0])) (splitlines message)) =
     if wanted (g_env g) PY prio then map (fun line => (prio, tag, line ++ [0])) (splitlines message) else []).
  { apply filter_all. intros x I. apply in_map_iff in I. destruct I as (l & <- & _). unfold passes, wanted. cbn [fst snd]. rewrite master_level_ok. f_equal.
    destruct CASES as [(-> & ->)|[(-> & ->)|[(-> & ->)|[(-> & ->)|(-> & ->)]]]]; reflexivity. }
  rewrite (handle_ok _ _ _ EM), FL. destruct (lv <? _) eqn:LO; [|reflexivity].
  assert (W : wanted (g_env g) PY prio = false).
  { unfold DEBUG, INFO in LO. destruct (g_env g (bytes_of_string "ULOG_LEVEL")) as [v|] eqn:V.
    - destruct (bytes_eqb v (bytes_of_string "D")) eqn:D; [lia|]. destruct OK as [OK|OK]; [|injection OK as ->; discriminate]. unfold wanted. lia.
    - destruct OK as [OK|OK]; [|discriminate]. unfold wanted. lia. }
  rewrite W. f_equal. clear. induction (length names); [reflexivity|assumption].
Qed.

(** So as a C program does with the tag of the message, if the environment says the same of both tags: for example
    nothing but the level of all. (Missing for the full C123: levels of tags, debug levels spelt otherwise, several calls.) *)
Theorem C123_log_partial : forall g lv n name text tag message prio, logging_prio lv = Some prio ->
  encoding name tag -> encoding text message -> ~ event_text message ->
  (initial_level (g_env g) tag (-1) < 7 \/ g_env g (bytes_of_string "ULOG_LEVEL") = Some (bytes_of_string "D")) ->
  (initial_level (g_env g) tag (-1) = initial_level (g_env g) PY (-1)) ->
  exists ls, lines_of message ls /\
  log g (setups g fresh [n]) (mkRec lv name text) =
    (if wanted (g_env g) tag prio then map (fun line => (prio, tag, line ++ [0])) ls else [], None).
Proof.
  intros g lv n name text tag message prio HP HN HT NE OK EQ. rewrite EQ in OK.
  destruct (C123_log g [n] lv name text tag message prio HP HN HT NE ltac:(discriminate) OK) as (ls & L & E). exists ls. split; [exact L|].
  rewrite E. cbn [length repeat concat]. rewrite app_nil_r. unfold wanted. rewrite EQ. reflexivity.
Qed.

(** The level "7" (or "Debug", or that of the tag) asks for the debug messages of C programs but not for those of python. *)
Theorem C123_level_refuted : exists g, initial_level (g_env g) (bytes_of_string "net") (-1) = 7 /\
  forall names name text, log g (setups g fresh names) (mkRec DEBUG name text) = ([], None).
Proof.
  exists (mkG (fun n => if bytes_eqb n (bytes_of_string "ULOG_LEVEL") then Some [55] else None) true (fun _ => [])). split; [reflexivity|].
  intros names name text. set (g := mkG _ _ _). destruct (setups_state g names fresh) as (A & B). unfold log. cbn [r_level].
  destruct names as [|n names]; [reflexivity|]. destruct B as (_ & ->); [discriminate|]. reflexivity.
Qed.
Theorem C123_tag_refuted : exists g, initial_level (g_env g) (bytes_of_string "net") (-1) = 7 /\ g_env g (bytes_of_string "ULOG_LEVEL") = None /\
  forall names text, log g (setups g fresh names) (mkRec DEBUG (bytes_of_string "net") text) = ([], None).
Proof.
  exists (mkG (fun n => if bytes_eqb n (bytes_of_string "ULOG_LEVEL_net") then Some [68] else None) true (fun _ => [])). split; [reflexivity|]. split; [reflexivity|].
  intros names text. set (g := mkG _ _ _). destruct (setups_state g names fresh) as (A & B). unfold log. cbn [r_level].
  destruct names as [|n names]; [reflexivity|]. destruct B as (_ & ->); [discriminate|]. reflexivity.
Qed.
(** A level given to a tag says nothing about the messages of python with that tag, neither to see more nor to see less. *)
Theorem C123_own_level_refuted : exists g m, initial_level (g_env g) (bytes_of_string "net") (-1) = 3 /\
  log g (setups g fresh [NoName]) (mkRec INFO (bytes_of_string "net") [97]) = ([m], None).
Proof.
  exists (mkG (fun n => if bytes_eqb n (bytes_of_string "ULOG_LEVEL_net") then Some [69] else None) true (fun _ => [])).
  eexists. split; reflexivity.
Qed.
Theorem C123_hidden_refuted : exists g, initial_level (g_env g) (bytes_of_string "net") (-1) = 6 /\
  forall names text message, encoding text message -> ~ event_text message -> names <> [] -> log g (setups g fresh names) (mkRec INFO (bytes_of_string "net") text) = ([], None).
Proof.
  exists (mkG (fun n => if bytes_eqb n (bytes_of_string "ULOG_LEVEL") then Some [69] else if bytes_eqb n (bytes_of_string "ULOG_LEVEL_net") then Some [73] else None) true (fun _ => [])).
  split; [reflexivity|]. intros names text message HT NE NN. set (g := mkG _ _ _).
  assert (EN : encoding (bytes_of_string "net") (bytes_of_string "net")).
  { change (bytes_of_string "net") with ([110] ++ [101] ++ [116] ++ []) at 2. repeat (constructor; [constructor; lia|]). constructor. }
  destruct (C123_log g names INFO (bytes_of_string "net") text (bytes_of_string "net") message 6 eq_refl EN HT NE NN) as (ls & _ & E); [left; vm_compute; reflexivity|].
  rewrite E. assert (W : wanted (g_env g) PY 6 = false) by (vm_compute; reflexivity). rewrite W. f_equal. clear. induction (length names); [reflexivity|assumption].
Qed.
(** Called twice, it makes every message appear twice. *)
Theorem C123_twice_refuted : exists g m, log g (setups g fresh [NoName]) (mkRec INFO (bytes_of_string "net") [97]) = ([m], None) /\
  log g (setups g fresh [NoName; NoName]) (mkRec INFO (bytes_of_string "net") [97]) = ([m; m], None).
Proof. exists (mkG (fun _ => None) true (fun _ => [])). eexists. split; reflexivity. Qed.

(** An uncaught exception is logged as an error of the tag root, and ends the program with status 1; not so a
    KeyboardInterrupt, nor before the setup. *)
Theorem C123_uncaught : forall g names text message, encoding text message -> ~ event_text message -> names <> [] ->
  (exists ls, lines_of message ls /\
   uncaught g (setups g fresh names) false text =
     Exits (concat (repeat (if wanted (g_env g) PY 3 then map (fun line => (3, bytes_of_string "root", line ++ [0])) ls else []) (length names))) 1) /\
  uncaught g (setups g fresh names) true text = Printed /\ uncaught g fresh false text = Printed.
Proof.
  intros g names text message HT NE NN. split; [|split].
  - destruct (setups_state g names fresh) as (A & B). destruct (B NN) as (H & LV). exists (splitlines message). split; [apply (splitlines_ok _ message (Nat.lt_succ_diag_r _))|].
    unfold uncaught. rewrite H. cbn [negb]. unfold log. cbn [r_level]. rewrite LV, A. cbn [p_handlers fresh]. rewrite Nat.add_0_r.
    assert (EM : emit (mkRec ERROR ROOT text) = inr (map (fun line => (3, bytes_of_string "root", line ++ [0])) (splitlines message))).
    { unfold emit. cbn [r_level r_name r_text]. change (logging_prio ERROR) with (Some 3). change (utf8 ROOT) with (Some (bytes_of_string "root")). cbv iota. rewrite (encoding_utf8 _ _ HT), not_event by exact NE. reflexivity. }
    rewrite (handle_ok _ _ _ EM).
    assert (L : ERROR <? match g_env g (bytes_of_string "ULOG_LEVEL") with Some v => if bytes_eqb v (bytes_of_string "D") then DEBUG else INFO | None => INFO end = false).
    { destruct (g_env g _) as [v|]; [destruct (bytes_eqb v _)|]; reflexivity. }
    rewrite L. do 3 f_equal. apply filter_all. intros x I. apply in_map_iff in I. destruct I as (l & <- & _). unfold passes, wanted. cbn [fst snd]. rewrite master_level_ok. reflexivity.
  - destruct (setups_state g names fresh) as (A & B). destruct (B NN) as (H & LV). unfold uncaught. rewrite H. reflexivity.
  - reflexivity.
Qed.

(** The process gets the first 15 bytes of the name; a longer one is told by a warning, a shorter one by nothing. *)
Theorem C123_name : forall g s b, b <> [] -> ~ In 0 b -> g_linux g = true ->
  (zlen b <= 15 -> setup g s (ByteStr b) = (mkP (S (p_handlers s)) (p_level (setups g s [NoName])) true b, [], None)) /\
  (15 < zlen b -> forall m, encoding (g_trunc g b) m -> ~ event_text m ->
     exists o, p_comm (fst (fst (setup g s (ByteStr b)))) = ztake 15 b /\ snd (fst (setup g s (ByteStr b))) = o /\ snd (setup g s (ByteStr b)) = None /\
       (wanted (g_env g) PY 4 = true -> exists ls, lines_of m ls /\ o = concat (repeat (map (fun line => (4, bytes_of_string "root", line ++ [0])) ls) (S (p_handlers s))))).
Proof.
  intros g s b NB NZ LX. assert (T : truthy (ByteStr b) = true) by (destruct b; [congruence|reflexivity]).
  assert (C : cstr b = b). { clear - NZ. induction b as [|c b IH]; [reflexivity|]. cbn [cstr]. destruct (Z.eqb_spec c 0); [subst; exfalso; apply NZ; now left|]. f_equal. apply IH. intros H. apply NZ. now right. }
  unfold setup. rewrite T, LX. cbn [andb p_handlers p_level p_hook]. unfold set_name. rewrite C. split.
  - intros L. destruct (Z.gtb_spec (zlen b) 15); [lia|]. rewrite ztake_all by lia. cbn [setups]. unfold setup. cbn [truthy andb fst p_level]. reflexivity.
  - intros L m E NE. destruct (Z.gtb_spec (zlen b) 15); [|lia]. unfold log. cbn [r_level p_handlers p_level].
    assert (W : WARNING <? match g_env g (bytes_of_string "ULOG_LEVEL") with Some v => if bytes_eqb v (bytes_of_string "D") then DEBUG else INFO | None => INFO end = false).
    { destruct (g_env g _) as [v|]; [destruct (bytes_eqb v _)|]; reflexivity. }
    rewrite W.
    assert (EM : emit (mkRec WARNING ROOT (g_trunc g b)) = inr (map (fun line => (4, bytes_of_string "root", line ++ [0])) (splitlines m))).
    { unfold emit. cbn [r_level r_name r_text]. change (logging_prio WARNING) with (Some 4). change (utf8 ROOT) with (Some (bytes_of_string "root")). cbv iota. rewrite (encoding_utf8 _ _ E), not_event by exact NE. reflexivity. }
    rewrite (handle_ok _ _ _ EM). eexists. cbn [fst snd p_comm]. split; [reflexivity|]. split; [reflexivity|]. split; [reflexivity|]. intros WA.
    exists (splitlines m). split; [apply (splitlines_ok _ m (Nat.lt_succ_diag_r _))|]. do 2 f_equal.
    rewrite (filter_all _ true); [reflexivity|]. intros x I. apply in_map_iff in I. destruct I as (l & <- & _). unfold passes. cbn [fst snd]. rewrite master_level_ok. exact WA.
Qed.
(** Without a name, with an empty one, or elsewhere than on Linux, the process keeps its name and nothing is said. *)
Theorem C123_no_name : forall g s n, n = NoName \/ n = Str [] \/ n = ByteStr [] \/ g_linux g = false ->
  setup g s n = (mkP (S (p_handlers s)) (p_level (setups g s [NoName])) true (p_comm s), [], None).
Proof.
  intros g s n H. assert (T : truthy n && g_linux g = false) by (destruct H as [->|[->|[->| ->]]]; try reflexivity; apply andb_false_r).
  unfold setup at 1. rewrite T. reflexivity.
Qed.
(** A name may be cut inside a character. *)
Theorem C123_cut_refuted : exists g name, let c := p_comm (setups g fresh [Str name]) in zlen name = 15 /\ zlen c = 15 /\ forall s, ~ encoding s c.
Proof.
  exists (mkG (fun _ => None) true (fun _ => [])), (zrepeat 97 14 ++ [233]). cbv zeta. split; [reflexivity|]. split; [reflexivity|].
  assert (G : forall s b, encoding s b -> forall p, b = p ++ [195] -> False).
  { intros s b E. induction E as [|c s b r Ec E IH]; intros p Q; [destruct p; discriminate|].
    destruct r as [|x r0].
    - rewrite app_nil_r in Q. clear IH E.
      assert (L : last b 0 = 195) by (rewrite Q; apply last_last). clear Q. inversion Ec; subst; unfold tail in *; cbn [last] in L; lia.
    - destruct (@exists_last _ (x :: r0)) as (r1 & l & RL); [discriminate|]. rewrite RL in *. rewrite app_assoc in Q. apply app_inj_tail in Q. destruct Q as (_ & ->).
      apply (IH r1). reflexivity. }
  intros s E. apply (G s _ E (zrepeat 97 14)). reflexivity.
Qed.

Example C123_ex : let g := mkG (fun n => if bytes_eqb n (bytes_of_string "ULOG_LEVEL") then Some [87] else None) true (fun _ => []) in
  initial_level (g_env g) (bytes_of_string "net") (-1) = 4 /\ initial_level (g_env g) PY (-1) = 4 /\ wanted (g_env g) (bytes_of_string "net") 3 = true /\ wanted (g_env g) (bytes_of_string "net") 6 = false /\
  log g (setups g fresh [ByteStr [97]]) (mkRec ERROR (bytes_of_string "net") [97; 10; 98]) = ([(3, bytes_of_string "net", [97; 0]); (3, bytes_of_string "net", [98; 0])], None) /\
  log g (setups g fresh [ByteStr [97]]) (mkRec INFO (bytes_of_string "net") [97]) = ([], None).
Proof. repeat split. Qed.
Example C123_enc_ex : encoding [97; 10; 98] [97; 10; 98] /\ ~ event_text [97; 10; 98].
Proof.
  split; [|intros (r & H); discriminate]. change [97; 10; 98] with ([97] ++ [10] ++ [98] ++ []) at 2. repeat (constructor; [constructor; lia|]). constructor.
Qed.
Example C123_name_ex : let g := mkG (fun _ => None) true (fun _ => [88]) in
  setup g fresh (ByteStr (zrepeat 97 16)) = (mkP 1 INFO true (zrepeat 97 15), [(4, bytes_of_string "root", [88; 0])], None).
Proof. reflexivity. Qed.

Print Assumptions C123_log.
Print Assumptions C123_log_partial.
Print Assumptions C123_own_level_refuted.
Print Assumptions C123_hidden_refuted.
Print Assumptions C123_level_refuted.
Print Assumptions C123_tag_refuted.
Print Assumptions C123_twice_refuted.
Print Assumptions C123_uncaught.
Print Assumptions C123_name.
Print Assumptions C123_no_name.
Print Assumptions C123_cut_refuted.
