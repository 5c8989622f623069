(** C88 to C91: the python binding. *)
From Coq Require Import ZArith String List Bool Lia ZifyBool ZifyNat Arith.
From Verif Require Import Bytes BytesProofs Ring RingSpec RingHistory PropsRing Parse Iov ParseSpec ParseProofs ParseE2E PropsParse Macros Py PySpec PyProofs.
Import ListNotations.
Open Scope Z_scope.

(** ** C88 *)

(** A record of a standard level gives one call of ulog_log_str per line of its message, in order, with
    the tag, the priority of its level (Notice for an event) and the line; the library writes the line
    when the priority is enabled. *)
Theorem C88_lines_partial : forall l name text tag message, logging_prio l <> None ->
  Forall scalar name -> Forall scalar text -> encoding name tag -> encoding text message ->
  exists prio lines, lines_of message lines /\
    emit (mkRec l name text) = inr (map (fun x => (prio, tag, x ++ [0])) lines) /\
    ((exists r, message = bytes_of_string "EVT:" ++ r) -> prio = 5) /\
    ((forall r, message <> bytes_of_string "EVT:" ++ r) -> logging_prio l = Some prio) /\
    (forall x level, In x lines -> 0 <= level -> ulog_log_str prio level (x ++ [0]) = Ok (if prio <=? level then Some (x ++ [0]) else None)).
Proof.
  intros l name text tag message HL Hn Ht En Et. apply encoding_utf8 in En, Et. unfold emit. cbn [r_level r_name r_text]. destruct (logging_prio l) as [p|] eqn:EL; [|congruence].
  rewrite En, Et.
  assert (HP : 0 <= p < 8).
  { unfold logging_prio in EL. repeat (destruct (_ =? _) in EL; [injection EL as <-; lia|]). discriminate. }
  assert (SW : startswith (bytes_of_string "EVT:") message = true <-> exists r, message = bytes_of_string "EVT:" ++ r).
  { unfold startswith. rewrite bytes_eqb_eq. split.
    - intros E. exists (skipn (length (bytes_of_string "EVT:")) message). rewrite <- E at 1. now rewrite firstn_skipn.
    - intros (r & ->). rewrite firstn_app, Nat.sub_diag, firstn_O, app_nil_r. apply firstn_all. }
  set (q := if startswith _ message then 5 else p).
  assert (HQ : 0 <= q < 8) by (unfold q; destruct (startswith _ message); lia).
  exists q, (splitlines message). pose proof (splitlines_ok _ message (Nat.lt_succ_diag_r _)) as LO.
  split; [exact LO|]. split; [reflexivity|]. split. { intros H. apply SW in H. unfold q. now rewrite H. }
  split. { intros H. unfold q. destruct (startswith _ message) eqn:E; [|reflexivity]. destruct (proj1 SW eq_refl) as (r & E'). now apply H in E'. }
  intros x level Hx Hv. unfold ulog_log_str.
  assert (NZ : ~ In 0 x).
  { intros H0. destruct (utf8_ok text Ht) as (b & Eb & Nb). rewrite Et in Eb. injection Eb as <-. apply Nb. eapply lines_in; eauto. }
  assert (HN : Writer.has_nul (x ++ [0]) = true). { unfold Writer.has_nul. rewrite existsb_app. cbn. now rewrite orb_true_r. }
  rewrite HN. unfold enabled. replace (Z.land q 7) with q by (change 7 with (Z.ones 3); rewrite Z.land_ones by lia; now rewrite Z.mod_small by lia).
  assert (EC : cstr (x ++ [0]) = x). { clear - NZ. induction x as [|c x IH]; [reflexivity|]. cbn [app cstr]. destruct (Z.eqb_spec c 0); [subst; exfalso; apply NZ; now left|]. f_equal. apply IH. intros H. apply NZ. now right. }
  rewrite EC. reflexivity.
Qed.
Definition u := bytes_of_string.
Example C88_lines_ex : logging_prio ERROR <> None /\ Forall scalar (u "net") /\ Forall scalar ([233; 10] ++ u "down" ++ [13; 10; 13]) /\
  emit (mkRec ERROR (u "net") ([233; 10] ++ u "down" ++ [13; 10; 13])) = inr [(3, u "net", [195; 169; 0]); (3, u "net", u "down" ++ [0]); (3, u "net", [0])].
Proof.
  split; [discriminate|]. split; [|split; [|vm_compute; reflexivity]]; repeat constructor; unfold scalar; left; lia.
Qed.

(** The two maps of levels agree on the standard levels, and keep the order of severities. *)
Theorem C88_levels : (forall l p, logging_prio l = Some p -> prio_logging p = Some l) /\
  (forall p q, 0 <= p <= q -> q <= 7 -> exists a b, prio_logging p = Some a /\ prio_logging q = Some b /\ b <= a).
Proof.
  split.
  - intros l p. unfold logging_prio. repeat match goal with |- context [l =? ?k] => destruct (Z.eqb_spec l k) as [->|_]; [intros H; injection H as <-; reflexivity|] end. intros; discriminate.
  - intros p q H1 H2.
    assert (HP : forall x, 0 <= x <= 7 -> x = 0 \/ x = 1 \/ x = 2 \/ x = 3 \/ x = 4 \/ x = 5 \/ x = 6 \/ x = 7) by lia.
    destruct (HP p ltac:(lia)) as [->|[->|[->|[->|[->|[->|[->| ->]]]]]]];
    destruct (HP q ltac:(lia)) as [->|[->|[->|[->|[->|[->|[->| ->]]]]]]]; try lia;
    (do 2 eexists; split; [reflexivity|]; split; [reflexivity|]; unfold CRITICAL, ERROR, WARNING, INFO, DEBUG; lia).
Qed.
Example C88_levels_ex : logging_prio WARNING = Some 4 /\ prio_logging 4 = Some WARNING /\ prio_logging 7 = Some DEBUG.
Proof. repeat split. Qed.

(** But not every priority survives: a Notice comes back as a Warning, a Critical as an Emergency. *)
Theorem C88_prio_refuted : exists p l q, 0 <= p <= 7 /\ prio_logging p = Some l /\ logging_prio l = Some q /\ q < p.
Proof. exists 5, WARNING, 4. split; [lia|]. repeat split. Qed.
(** A record of another level makes the logging call of the application raise. *)
Theorem C88_custom_level_refuted : exists r, 0 < r_level r /\ Forall scalar (r_text r) /\ emit r = inl KeyError.
Proof. exists (mkRec 25 (u "net") (u "hello")). split; [cbn; lia|]. split; [repeat constructor; unfold scalar; left; lia|reflexivity]. Qed.
(** So does text that is not valid UTF-8 once decoded the way the bridge decodes. *)
Theorem C88_surrogate_refuted : exists r, r_level r = INFO /\ emit r = inl UnicodeEncodeError.
Proof. exists (mkRec INFO (u "net") [0xdcff]). split; reflexivity. Qed.
(** An empty message is not logged, and a line is cut at a NUL. *)
Theorem C88_empty_refuted : exists r, r_level r = INFO /\ utf8 (r_text r) <> None /\ emit r = inr [].
Proof. exists (mkRec INFO (u "net") []). repeat split. discriminate. Qed.
Theorem C88_nul_refuted : exists r prio tag line, r_level r = INFO /\ emit r = inr [(prio, tag, line)] /\ r_text r = [97; 0; 98] /\
  ulog_log_str prio 7 line = Ok (Some [97; 0]).
Proof. exists (mkRec INFO (u "net") [97; 0; 98]). do 3 eexists. split; [reflexivity|]. split; [vm_compute; reflexivity|]. split; reflexivity. Qed.

(** ** C89 *)

(** The device handler hands over the lines of the message one by one, in order, each with its time. *)
Theorem C89_lines_partial : forall h l name text tag message prio times ps, logging_prio l = Some prio ->
  encoding name tag -> encoding text message -> (forall lines, lines_of message lines -> length times = length lines) ->
  device_emit h times (mkRec l name text) = inr ps ->
  exists lines, lines_of message lines /\
    Forall2 (fun q p => device_line h (fst (fst q)) (snd (fst q)) prio tag (snd q) = inr p) (combine times lines) ps.
Proof.
  intros h l name text tag message prio times ps EL En Et HT E. apply encoding_utf8 in En, Et. unfold device_emit in E. cbn [r_level r_name r_text] in E.
  rewrite EL, En, Et in E. pose proof (splitlines_ok _ message (Nat.lt_succ_diag_r _)) as LO. exists (splitlines message). split; [exact LO|].
  now apply device_lines_ok; [apply HT|].
Qed.

(** The device handler in standard mode: the line reaches every reader of the device. *)
Theorem C89_plain_partial : forall h l name text tag message prio lines line d fid t ksec knsec d' x f sec nsec v, h_raw h = false ->
  logging_prio l = Some prio -> encoding name tag -> encoding text message -> Forall scalar name -> Forall scalar text ->
  lines_of message lines -> In line lines -> device_line h sec nsec prio tag line = inr (Writev v) ->
  reachable d -> lookup fid (d_files d) = Some f -> f_write f = true -> f_raw f = false ->
  int32 (t_tgid t) -> int32 (t_pid t) -> int32 ksec -> int32 knsec ->
  zlen (names t) + 5 + zlen tag + zlen line < 4076 ->
  step d (OpWrite fid t ksec knsec (iovec v)) = Ok (d', x) ->
  exists e, delivers d d' e /\
    parsed_as (enc 2 e) (mkView ksec knsec (t_tgid t) (t_pid t) prio 0 false
       (comm_str (t_pcomm t)) (if t_tgid t =? t_pid t then comm_str (t_pcomm t) else comm_str (t_tcomm t)) tag line).
Proof.
  intros h l name text tag message prio lines line d fid t ksec knsec d' x f sec nsec v HR EL En Et Hn Ht HO HI HV Hr Hl Hw Hraw H1 H2 H3 H4 HF HS. apply encoding_utf8 in En, Et.
  unfold device_line in HV. rewrite HR in HV. injection HV as <-.
  assert (CT : c_string tag). { destruct (utf8_ok name Hn) as (b & Eb & Nb). rewrite En in Eb. injection Eb as <-. exact Nb. }
  assert (CM : c_string line). { destruct (utf8_ok text Ht) as (b & Eb & Nb). rewrite Et in Eb. injection Eb as <-. intros H0. apply Nb.
    eapply lines_in; [exact HO|exact HI|exact H0]. }
  assert (HP : 0 <= prio < 8).
  { unfold logging_prio in EL. repeat (destruct (_ =? _) in EL; [injection EL as <-; lia|]). discriminate. }
  pose proof (zlen_nonneg line).
  destruct (C21_text_read_back d fid t ksec knsec prio tag line d' x f) as (e & m & D & P & _ & EM); auto; try lia.
  { unfold uint32. lia. } { unfold binary_of. rewrite Z.div_small by lia. reflexivity. }
  exists e. split; [exact D|]. rewrite (EM ltac:(lia)) in P. unfold level_of, color_of in P. rewrite Z.mod_small in P by lia. rewrite (Z.div_small prio) in P by lia. exact P.
Qed.

(** In raw mode, with a name of the thread that is bytes or ASCII: the ids, names and time of the handler
    reach every reader. *)
Theorem C89_raw_partial : forall h l name text tag message prio lines line d fid t ksec knsec d' x f sec nsec v tn, h_raw h = true ->
  logging_prio l = Some prio -> encoding name tag -> encoding text message -> Forall scalar name -> Forall scalar text ->
  lines_of message lines -> In line lines -> device_line h sec nsec prio tag line = inr (Writev v) ->
  reachable d -> lookup fid (d_files d) = Some f -> f_write f = true -> f_raw f = true ->
  h_tname h = Bytes_name tn \/ h_tname h = Text_name tn /\ Forall (fun c => 0 < c < 128) tn ->
  c_string (h_pname h) -> c_string tn -> int32 (h_pid h) -> int32 (h_tid h) -> int32 sec -> int32 nsec ->
  zlen (h_pname h) + zlen tn + zlen tag + zlen line <= 4068 ->
  step d (OpWrite fid t ksec knsec (iovec v)) = Ok (d', x) ->
  exists e, delivers d d' e /\
    parsed_as (enc 2 e) (mkView sec nsec (h_pid h) (h_tid h) prio 0 false (h_pname h) (if h_pid h =? h_tid h then h_pname h else tn) tag line).
Proof.
  intros h l name text tag message prio lines line d fid t ksec knsec d' x f sec nsec v tn HR EL En Et Hn Ht HO HI HV Hr Hl Hw Hraw HT CP CN H1 H2 H3 H4 HF HS. apply encoding_utf8 in En, Et.
  assert (CT : c_string tag). { destruct (utf8_ok name Hn) as (b & Eb & Nb). rewrite En in Eb. injection Eb as <-. exact Nb. }
  assert (CM : c_string line). { destruct (utf8_ok text Ht) as (b & Eb & Nb). rewrite Et in Eb. injection Eb as <-. intros H0. apply Nb.
    eapply lines_in; [exact HO|exact HI|exact H0]. }
  assert (HP : 0 <= prio < 8).
  { unfold logging_prio in EL. repeat (destruct (_ =? _) in EL; [injection EL as <-; lia|]). discriminate. }
  unfold device_line in HV. rewrite HR in HV. unfold format_raw_entry in HV.
  assert (ET : name_bytes (h_tname h) = Some tn /\ name_len (h_tname h) = zlen tn).
  { destruct HT as [->|(-> & HA)]; cbn [name_bytes name_len]; [auto|]. split; [now apply utf8_ascii|reflexivity]. }
  destruct ET as (ET & EN). rewrite ET, EN in HV.
  assert (EZ : ztake (zlen tn + 1) (tn ++ [0]) = tn ++ [0]). { apply ztake_all. rewrite zlen_app. change (zlen [0]) with 1. lia. }
  rewrite EZ in HV. unfold ulog_raw_log in HV. cbn [rw_pid rw_tid rw_sec rw_nsec rw_euid rw_prio rw_pname rw_tname rw_tag rw_message] in HV.
  set (r0 := mkRaw (h_pid h) (h_tid h) sec nsec 0 prio (h_pname h ++ [0]) (tn ++ [0]) (tag ++ [0]) None) in HV.
  assert (HV' : ulog_raw_logv (h_fd h) (Some r0) [line ++ [0]] = Writev v) by congruence. clear HV.
  assert (BF : binary_of prio = false) by (unfold binary_of; rewrite Z.div_small by lia; reflexivity).
  destruct (C23_raw_read_back d fid t ksec knsec (h_fd h) r0 [line ++ [0]] v (h_pname h) tn tag line d' x f Hr Hl Hw Hraw HV')
    as (e & n & _ & _ & D & P & _); auto; cbn [rw_pid rw_tid rw_sec rw_nsec rw_euid rw_prio rw_pname rw_tname rw_tag rw_message r0].
  { unfold uint32. lia. } { unfold int32. lia. }
  { rewrite BF. cbn [concat]. rewrite app_nil_r. auto. }
  { cbn [concat]. rewrite app_nil_r, zlen_app. change (zlen [0]) with 1. pose proof (zlen_nonneg tn). destruct (h_pid h =? h_tid h); lia. }
  exists e. split; [exact D|]. unfold r0 in P. cbn [rw_pid rw_tid rw_sec rw_nsec rw_euid rw_prio rw_pname rw_tname rw_tag rw_message] in P.
  rewrite BF in P. unfold level_of, color_of in P. rewrite Z.mod_small in P by lia. rewrite (Z.div_small prio) in P by lia. exact P.
Qed.

Definition ex_h (raw : bool) : handler := mkHandler raw 77 78 (u "app") (Text_name (u "MainThread")) 3.
Example C89_lines_ex : encoding [0xe9; 10; 97] [0xc3; 0xa9; 10; 97] /\ device_emit (ex_h false) [(1, 2); (3, 4)] (mkRec INFO (u "net") [0xe9; 10; 97]) =
  inr [Writev [le 4 6; u "net" ++ [0]; [0xc3; 0xa9; 0]]; Writev [le 4 6; u "net" ++ [0]; [97; 0]]].
Proof.
  split; [|vm_compute; reflexivity]. change [0xc3; 0xa9; 10; 97] with ([0xc0 + 3; 0x80 + 41] ++ [10] ++ [97] ++ []).
  change 0xe9 with (64 * 3 + 41). constructor; [constructor; unfold tail; lia|]. repeat (constructor; [constructor; lia|]). constructor.
Qed.
Example C89_plain_ex : exists v d', lines_of (u "up") [u "up"] /\ device_line (ex_h false) 1 2 6 (u "net") (u "up") = inr (Writev v) /\
  reachable (ex_state ex_ops) /\ step (ex_state ex_ops) (OpWrite 1 ex_thread 12 34 (iovec v)) = Ok (d', OutVal 11).
Proof.
  do 2 eexists. split; [constructor; [discriminate|split; vm_compute; intuition discriminate]|]. split; [reflexivity|]. split; [exact ex_reachable|]. apply ex_step. vm_compute. reflexivity.
Qed.
Example C89_raw_ex : exists v d', device_line (ex_h true) 1 2 6 (u "net") (u "up") = inr (Writev v) /\ reachable (ex_state ex_raw_ops) /\
  lookup 1 (d_files (ex_state ex_raw_ops)) = Some (mkFile true true None) /\
  step (ex_state ex_raw_ops) (OpWrite 1 ex_thread 12 34 (iovec v)) = Ok (d', OutVal 46).
Proof.
  do 2 eexists. split; [vm_compute; reflexivity|]. split. { apply ex_reach; [repeat constructor|]. vm_compute. reflexivity. }
  split; [vm_compute; reflexivity|]. apply ex_step. vm_compute. reflexivity.
Qed.

(** False for another thread name: the length of the name counts characters and its NUL is cut off, so
    that the priority becomes part of the name: a message of level 6 tagged "net" from thread "é" is
    read as one of level 0 tagged "t". *)
Theorem C89_thread_name_refuted : exists h v, h_raw h = true /\ h_tname h = Text_name [0xe9] /\
  device_line h 1 2 6 (u "net") (u "up") = inr (Writev v) /\ ztake 20 (concat v) = meta (h_pid h) (h_tid h) 1 2 0 /\
  parsed_as (enc 2 (mkEntry (ztake 20 (concat v)) (zdrop 20 (concat v))))
    (mkView 1 2 (h_pid h) (h_tid h) 0 0x656e00 false (h_pname h) [0xc3; 0xa9; 6] (u "t") (u "up")).
Proof.
  exists (mkHandler true 77 78 (u "app") (Text_name [0xe9]) 3). eexists. split; [reflexivity|]. split; [reflexivity|].
  split; [vm_compute; reflexivity|]. split; [vm_compute; reflexivity|].
  do 2 eexists. split; [vm_compute; reflexivity|]. split; [reflexivity|].
  assert (SA : forall mem off s, ~ In 0 s -> bytes_eqb (firstn (Z.to_nat off + S (length s)) mem) (firstn (Z.to_nat off) mem ++ s ++ [0]) = true ->
    zlen (firstn (Z.to_nat off) mem) = off -> string_at mem (InBuf off) s).
  { intros mem off s N E L. split; [exact N|]. apply bytes_eqb_eq in E. exists (firstn (Z.to_nat off) mem), (skipn (Z.to_nat off + S (length s)) mem).
    split; [|exact L]. rewrite <- (firstn_skipn (Z.to_nat off + S (length s)) mem) at 1. rewrite E. rewrite <- !app_assoc. reflexivity. }
  unfold shows. cbn [pe_sec pe_nsec pe_pid pe_tid pe_prio pe_color pe_bin pe_pname pe_tname pe_tag pe_msg pe_len v_sec v_nsec v_pid v_tid v_level v_color v_binary v_pname v_tname v_tag v_message h_pid h_tid h_pname].
  do 7 (split; [reflexivity|]).
  split; [apply SA; [vm_compute; intuition congruence|vm_compute; reflexivity|reflexivity]|].
  split; [apply SA; [vm_compute; intuition congruence|vm_compute; reflexivity|reflexivity]|].
  split; [apply SA; [vm_compute; intuition congruence|vm_compute; reflexivity|reflexivity]|].
  split; [apply SA; [vm_compute; intuition congruence|vm_compute; reflexivity|reflexivity]|reflexivity].
Qed.

(** ** C90 *)

(** As long as forwarding is not asked for again after it was declined: a message of a plain priority goes
    once to the native output, unless forwarding was declined, and once to each logger that is enabled for
    its level and whose bridge is on, and to no other. *)
Theorem C90_bridge_partial : forall ops enabled depth prio buf, settled ops -> (2 <= depth)%nat -> 0 <= prio <= 7 ->
  exists level loggers t, prio_logging prio = Some level /\ NoDup loggers /\ trimmed (cstr buf) t /\
    (forall x, In x loggers <-> is_on x ops = true /\ enabled x level = true) /\
    call enabled depth (after_ops ops) (b_current (after_ops ops)) prio buf =
      (if muted ops then [] else [Kernel prio buf]) ++ map (fun x => Handled x level t) loggers.
Proof.
  intros ops enabled depth prio buf HS HD HP.
  destruct (good_ops ops HS) as (G1 & G2 & G3 & G4). set (s := after_ops ops) in *. clearbody s.
  assert (HL : exists level, prio_logging prio = Some level).
  { assert (Q : prio = 0 \/ prio = 1 \/ prio = 2 \/ prio = 3 \/ prio = 4 \/ prio = 5 \/ prio = 6 \/ prio = 7) by lia.
    destruct Q as [->|[->|[->|[->|[->|[->|[->| ->]]]]]]]; eexists; reflexivity. }
  destruct HL as (level & HL). exists level. destruct depth as [|[|depth]]; try lia.
  exists (filter (fun x => enabled x level) (b_loggers s)), (strip (cstr buf)). split; [exact HL|]. split; [now apply NoDup_filter|]. split; [apply strip_trimmed|].
  split. { intros x. rewrite filter_In, G2. tauto. }
  cbn [call]. destruct (b_current s) eqn:EC.
  - assert (NE : forall x f, ~ In (Enable x f) ops) by now apply G3.
    assert (NM : muted ops = false).
    { destruct (muted ops) eqn:E; [|reflexivity]. apply existsb_exists in E. destruct E as ([x [|]|x] & Hx & Ex); try discriminate. now apply NE in Hx. }
    assert (NL : b_loggers s = []).
    { destruct (b_loggers s) as [|x l] eqn:E; [reflexivity|]. exfalso. assert (ON : is_on x ops = true) by (apply G2; now left).
      clear - ON NE. unfold is_on in ON. induction ops as [|[y f|y] ops IH] using rev_ind; [discriminate| |].
      - apply (NE y f). apply in_or_app. right. now left.
      - rewrite fold_left_app in ON. cbn [fold_left] in ON. destruct (Nat.eqb x y); [discriminate|]. apply IH; [|exact ON].
        intros z g Hz. apply (NE z g). apply in_or_app. now left. }
    rewrite NM, NL. reflexivity.
  - rewrite HL, G4. destruct (muted ops); [reflexivity|].
    destruct (existsb _ ops) eqn:EE; [reflexivity|]. exfalso.
    assert (H : Bridge = Native); [|discriminate]. apply G3. intros x f Hx.
    assert (existsb (fun o => match o with Enable _ _ => true | _ => false end) ops = true) by (apply existsb_exists; exists (Enable x f); auto). congruence.
Qed.
Example C90_bridge_ex : settled [Enable 1 true; Enable 2 true; Disable 1; Enable 2 true] /\
  call (fun _ l => l >=? WARNING) 9 (after_ops [Enable 1 true; Enable 2 true; Disable 1; Enable 2 true]) Bridge 3 ([97; 13; 10; 0]) =
    [Kernel 3 [97; 13; 10; 0]; Handled 2 ERROR [97]].
Proof. split; [cbn; tauto|reflexivity]. Qed.

(** False without it: the bridge then takes itself for the native output. The message never reaches the
    native output, and each logger gets it as many times as python allows nested calls. *)
Theorem C90_forward_again_refuted : exists ops, (forall depth buf,
  call (fun _ _ => true) depth (after_ops ops) (b_current (after_ops ops)) 6 buf = repeat (Handled 1 INFO (strip (cstr buf))) depth).
Proof.
  exists [Enable 1 false; Enable 1 true]. intros depth buf.
  set (s := after_ops _). assert (K : b_kernel s = Some Bridge) by reflexivity. assert (L : b_loggers s = [1%nat]) by reflexivity. change (b_current s) with Bridge. clearbody s.
  induction depth as [|n IH]; [reflexivity|]. cbn [call]. rewrite K, L, IH. cbn [prio_logging filter map]. change (repeat (Handled 1 INFO (strip (cstr buf))) (S n)) with (Handled 1 INFO (strip (cstr buf)) :: repeat (Handled 1 INFO (strip (cstr buf))) n).
  clear. induction n as [|n IH]; [reflexivity|]. cbn [repeat app]. now rewrite IH.
Qed.
(** And a message with a colour, or a binary one, reaches no logger. *)
Theorem C90_colour_refuted : exists prio, prio mod 8 = 3 /\ forall enabled depth ops buf, settled ops -> (2 <= depth)%nat -> muted ops = false ->
  call enabled depth (after_ops ops) (b_current (after_ops ops)) prio buf = [Kernel prio buf].
Proof.
  exists 0xff0003. split; [reflexivity|]. intros enabled depth ops buf HS HD HM.
  destruct (good_ops ops HS) as (G1 & G2 & G3 & G4). set (s := after_ops ops) in *. clearbody s. destruct depth as [|[|depth]]; try lia.
  cbn [call]. destruct (b_current s) eqn:EC; [reflexivity|]. rewrite G4, HM. destruct (existsb _ ops) eqn:EE; [reflexivity|]. exfalso.
  assert (H : Bridge = Native); [|discriminate]. apply G3. intros x f Hx.
  assert (existsb (fun o => match o with Enable _ _ => true | _ => false end) ops = true) by (apply existsb_exists; exists (Enable x f); auto). congruence.
Qed.

(** ** C91 *)

(** The first throttled call with a text is logged. After a call that logged, the next ones log nothing
    until one comes more than its delay later; that one logs, with the number of calls masked if any.
    Calls with other texts do not matter. *)
Theorem C91_throttled_partial : forall text l, (forall lv v msg, In (Changed lv v msg) l -> msg <> text ++ SUFFIX) ->
  (forall now delay lv y r, throttled_of text l (lrun [] l) = (now, delay, lv, y) :: r -> y = Logged lv) /\
  (forall a n d v x b now delay lv y r, throttled_of text l (lrun [] l) = a ++ (n, d, v, x) :: b ++ (now, delay, lv, y) :: r ->
     x <> Nothing -> Forall (fun q => snd q = Nothing) b ->
     (now - n > delay -> y = if (length b =? 0)%nat then Logged lv else Counted lv (Z.of_nat (length b))) /\ (now - n <= delay -> y = Nothing)).
Proof.
  intros text l HC. pose proof (cell_ok text l [] None HC eq_refl) as C. split.
  - intros now delay lv y r E. rewrite E in C. apply C.
  - intros a n d v x b now delay lv y r E HX HB. rewrite E in C. apply cell_state in C; [|now left|exact HX].
    apply cell_next in C; [|lia|exact HB]. rewrite Z.add_0_l in C. destruct (Z.gtb_spec (now - n) delay); split; intros HH; try lia; [|exact C].
    rewrite C. destruct (Z.eqb_spec (Z.of_nat (length b)) 0); destruct (Nat.eqb_spec (length b) 0); try lia; reflexivity.
Qed.
Example C91_throttled_ex : (forall lv v msg, In (Changed lv v msg) [Throttled 6 0 10 (u "a"); Throttled 6 5 10 (u "a"); Throttled 6 6 10 (u "b"); Changed 6 1 (u "a"); Throttled 6 20 10 (u "a")] -> msg <> u "a" ++ SUFFIX) /\
  lrun [] [Throttled 6 0 10 (u "a"); Throttled 6 5 10 (u "a"); Throttled 6 6 10 (u "b"); Changed 6 1 (u "a"); Throttled 6 20 10 (u "a")] =
  [Logged 6; Nothing; Logged 6; Logged 6; Counted 6 1].
Proof.
  split; [|vm_compute; reflexivity]. intros lv v msg H. repeat (destruct H as [H|H]; [try discriminate; injection H as <- <- <-; discriminate|]). destruct H.
Qed.

(** A changed log is logged the first time and when the value is not the one of the call before it with
    the same message. *)
Theorem C91_changed_partial : forall msg l, (forall lv now delay text, In (Throttled lv now delay text) l -> text ++ SUFFIX <> msg) ->
  (forall v lv y r, changed_of msg l (lrun [] l) = (v, lv, y) :: r -> y = Logged lv) /\
  (forall a v lv x w lw y r, changed_of msg l (lrun [] l) = a ++ (v, lv, x) :: (w, lw, y) :: r -> y = if w =? v then Nothing else Logged lw).
Proof.
  intros msg l HC. pose proof (vcell_ok msg l [] None HC eq_refl) as C. split.
  - intros v lv y r E. rewrite E in C. apply C.
  - intros a v lv x w lw y r E. rewrite E in C. eapply vcell_next. exact C.
Qed.
Example C91_changed_ex : changed_of (u "a") [Changed 6 1 (u "a"); Throttled 6 0 10 (u "a"); Changed 4 1 (u "a"); Changed 4 2 (u "a"); Changed 4 1 (u "a")]
  (lrun [] [Changed 6 1 (u "a"); Throttled 6 0 10 (u "a"); Changed 4 1 (u "a"); Changed 4 2 (u "a"); Changed 4 1 (u "a")]) =
  [(1, 6, Logged 6); (1, 4, Nothing); (2, 4, Logged 4); (1, 4, Logged 4)].
Proof. vm_compute. reflexivity. Qed.

(** The two share a table: a changed log whose message ends in _throttled makes the throttled log of the
    rest of it fail, and a throttled one makes a changed one log an unchanged value again. *)
Theorem C91_shared_refuted : (exists msg text, lrun [] [Changed 6 1 msg; Throttled 6 0 10 text] = [Logged 6; Fails]) /\
  (exists msg text, lrun [] [Throttled 6 0 10 text; Changed 6 1 msg; Changed 6 1 msg; Throttled 6 50 10 text] = [Logged 6; Logged 6; Nothing; Fails]).
Proof. split; exists (u "a_throttled"), (u "a"); vm_compute; reflexivity. Qed.
(** And the level is not part of the key: an error is masked by an information with the same text. *)
Theorem C91_level_refuted : exists text, lrun [] [Throttled INFO 0 10 text; Throttled ERROR 1 10 text] = [Logged INFO; Nothing].
Proof. exists (u "a"). vm_compute. reflexivity. Qed.

Print Assumptions C88_lines_partial.
Print Assumptions C88_levels.
Print Assumptions C88_prio_refuted.
Print Assumptions C88_custom_level_refuted.
Print Assumptions C88_surrogate_refuted.
Print Assumptions C88_empty_refuted.
Print Assumptions C88_nul_refuted.
Print Assumptions C89_lines_partial.
Print Assumptions C89_plain_partial.
Print Assumptions C89_raw_partial.
Print Assumptions C89_thread_name_refuted.
Print Assumptions C90_bridge_partial.
Print Assumptions C90_forward_again_refuted.
Print Assumptions C90_colour_refuted.
Print Assumptions C91_throttled_partial.
Print Assumptions C91_changed_partial.
Print Assumptions C91_shared_refuted.
Print Assumptions C91_level_refuted.
