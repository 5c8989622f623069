(** C151: the colour of a message, from the escape sequence at its start to the readers of the log device. *)
From Coq Require Import ZArith String List Bool Lia ZifyBool ZifyNat.
From Verif Require Import Bytes BytesProofs Ring RingSpec RingHistory PropsRing Parse Iov ParseSpec ParseProofs ParseE2E PropsParse Shd ShdProofs PropsShd.
From Verif Require ThreadxSpec.
Import ListNotations.
Open Scope Z_scope.

(** A text printed in the colour of [digit]: ESC [ 0 ; 3 # m and the text. *)
Definition painted (digit : Z) (text : list Z) : list Z := [27; 91; 48; 59; 51; digit; 109] ++ text.
(** A call of the library in the real-time system, the sample, what shdlogd makes of it and hands to the device. *)
Definition relayed (d d' : dev) (x : out) (fid : Z) (t : task) (ksec knsec fd : Z) (stack : list Z) (index prio tid : Z)
  (tn pad name text : list Z) (sec nsec : Z) (pn : list Z) : Prop :=
  exists b r v, ulog_shd_write stack index prio tid (Some (tn ++ 0 :: pad)) name (text ++ [0]) = Ok b /\
    fill_raw_entry b sec nsec (pn ++ [0]) = Ok r /\ ulog_raw_log fd (Some r) = Writev v /\
    step d (OpWrite fid t ksec knsec (iovec v)) = Ok (d', x).

Lemma paint d d' x fid t ksec knsec fd stack index prio tid tn pad name digit text sec nsec pn f :
  reachable d -> lookup fid (d_files d) = Some f -> f_write f = true -> f_raw f = true -> 0 <= fd ->
  zlen stack = BUF_SIZE -> c_string tn -> c_string name -> c_string text -> c_string pn ->
  int32 tid -> tid <> 0 -> int32 sec -> int32 nsec -> zlen pn <= 3800 ->
  zlen tn <= 15 -> zlen tn + zlen name <= 246 -> 48 <= digit <= 55 ->
  relayed d d' x fid t ksec knsec fd stack index prio tid tn pad name (painted digit text) sec nsec pn ->
  exists e n, x = OutVal n /\ raw_result n = 0 /\ delivers d d' e /\
    parsed_as (enc 2 e) (mkView sec nsec 0 tid (prio mod 8) (ThreadxSpec.rgb (if digit =? 54 then 3 else digit - 48)) false pn tn name
      (ztake (246 - zlen tn - zlen name) text)).
Proof.
  intros Hr El Hw Hraw Hfd HS Ctn Cname Ctext Cpn Htid Htid0 Hsec Hnsec Lpn Ltn Lall HD (b & r & v & Eb & Ef & Ev & E).
  pose proof (zlen_nonneg tn) as N1. pose proof (zlen_nonneg name) as N2. pose proof (zlen_nonneg text) as N3.
  destruct (sample_ok stack index prio tid tn pad name (painted digit text) HS Ctn Ltn ltac:(unfold BUF_SIZE; lia)) as (R & Eb').
  cbv zeta in Eb'. rewrite Eb' in Eb. injection Eb as <-. clear Eb'.
  set (msg := ztake (246 - zlen tn - zlen name) text) in *.
  assert (Et : ztake (BUF_SIZE - 1 - (zlen tn + 1) - (zlen name + 1)) (painted digit text) = [27; 91; 48; 59; 51; digit; 109] ++ msg).
  { unfold painted, msg, BUF_SIZE. rewrite ztake_app, ztake_all by (change (zlen [27; 91; 48; 59; 51; digit; 109]) with 7; lia).
    f_equal. f_equal. change (zlen [27; 91; 48; 59; 51; digit; 109]) with 7. lia. }
  rewrite Et in Ef. cbn [app] in Ef.
  pose proof (fill_colour (u16 index) (Z.land prio 7) (u32 tid) (tn ++ [0]) (name ++ [0]) 91 48 59 51 digit 109 (msg ++ [0]) R sec nsec (pn ++ [0])) as FC.
  cbv zeta in FC. cbn [app] in FC. rewrite FC in Ef. injection Ef as <-. clear FC.
  assert (Etid : s32 (u32 tid) = tid).
  { unfold u32. rewrite <- (s32_id tid Htid) at 2. unfold s32. rewrite Z.mod_mod by lia. reflexivity. }
  assert (TT : (if zlen (tn ++ [0]) =? 0 then 0 else s32 (u32 tid)) = tid).
  { destruct (Z.eqb_spec (zlen (tn ++ [0])) 0) as [Z0|]; [rewrite zlen_app in Z0; change (zlen [0]) with 1 in Z0; lia|exact Etid]. }
  rewrite TT in Ev.
  set (word := Z.lor _ _) in Ev.
  assert (W : level_of word = prio mod 8 /\ color_of word = ThreadxSpec.rgb (if digit =? 54 then 3 else digit - 48) /\ binary_of word = false /\ uint32 word).
  { unfold word. assert (P : 0 <= prio mod 8 < 8) by (apply Z.mod_pos_bound; lia).
    replace (Z.land prio 7) with (prio mod 8) by (change 7 with (Z.ones 3); rewrite Z.land_ones by lia; reflexivity).
    set (p := prio mod 8) in *. clearbody p.
    assert (Q : p = 0 \/ p = 1 \/ p = 2 \/ p = 3 \/ p = 4 \/ p = 5 \/ p = 6 \/ p = 7) by lia.
    assert (D : digit = 48 \/ digit = 49 \/ digit = 50 \/ digit = 51 \/ digit = 52 \/ digit = 53 \/ digit = 54 \/ digit = 55) by lia.
    clear - Q D. destruct D as [->|[->|[->|[->|[->|[->|[->| ->]]]]]]]; destruct Q as [->|[->|[->|[->|[->|[->|[->| ->]]]]]]];
      vm_compute; intuition (discriminate || reflexivity). }
  destruct W as (W1 & W2 & W3 & W4). clearbody word.
  set (r0 := mkRaw 0 tid sec nsec 0 word (pn ++ [0]) (tn ++ [0]) (name ++ [0]) None).
  assert (HV : ulog_raw_logv fd (Some r0) [msg ++ [0]] = Writev v) by exact Ev.
  destruct (C23_raw_read_back d fid t ksec knsec fd r0 [msg ++ [0]] v pn tn name msg d' x f Hr El Hw Hraw HV)
    as (e & n & Hx & Hn & D & P & _); try exact E; try reflexivity; auto; cbn [rw_pid rw_tid rw_sec rw_nsec rw_euid rw_prio rw_pname rw_tname rw_tag rw_message r0].
  all: try (unfold int32, uint32; lia).
  - rewrite W3. cbn [concat]. rewrite app_nil_r. split; [reflexivity|].
    unfold msg, c_string, ztake. intros H. apply Ctext.
    rewrite <- (firstn_skipn (Z.to_nat (246 - zlen tn - zlen name)) text). apply in_or_app. now left.
  - destruct (Z.eqb_spec 0 tid); [lia|]. cbn [concat]. rewrite app_nil_r, zlen_app. change (zlen [0]) with 1.
    unfold msg. rewrite zlen_ztake. lia.
  - exists e, n. split; [exact Hx|]. split; [exact Hn|]. split; [exact D|].
    unfold r0 in P. cbn [rw_pid rw_tid rw_sec rw_nsec rw_prio] in P. rewrite W1, W2, W3 in P.
    destruct (Z.eqb_spec 0 tid); [lia|]. exact P.
Qed.

(** A message printed in one of the eight colours but cyan reaches every reader of the device without the
    sequence, with its level, tag, thread, as much of its text as fits, and its colour.  Cyan: see below. *)
Theorem C151_colour_partial : forall d d' x fid t ksec knsec fd stack index prio tid tn pad name digit text sec nsec pn f,
  reachable d -> lookup fid (d_files d) = Some f -> f_write f = true -> f_raw f = true -> 0 <= fd ->
  zlen stack = BUF_SIZE -> c_string tn -> c_string name -> c_string text -> c_string pn ->
  int32 tid -> tid <> 0 -> int32 sec -> int32 nsec -> zlen pn <= 3800 ->
  zlen tn <= 15 -> zlen tn + zlen name <= 246 -> 48 <= digit <= 55 -> digit <> 54 ->
  relayed d d' x fid t ksec knsec fd stack index prio tid tn pad name (painted digit text) sec nsec pn ->
  exists e n, x = OutVal n /\ raw_result n = 0 /\ delivers d d' e /\
    parsed_as (enc 2 e) (mkView sec nsec 0 tid (prio mod 8) (ThreadxSpec.rgb (digit - 48)) false pn tn name
      (ztake (246 - zlen tn - zlen name) text)).
Proof.
  intros d d' x fid t ksec knsec fd stack index prio tid tn pad name digit text sec nsec pn f Hr El Hw Hraw Hfd HS Ctn Cname Ctext Cpn
    Htid Htid0 Hsec Hnsec Lpn Ltn Lall HD ND H.
  pose proof (paint d d' x fid t ksec knsec fd stack index prio tid tn pad name digit text sec nsec pn f Hr El Hw Hraw Hfd HS Ctn Cname Ctext Cpn
    Htid Htid0 Hsec Hnsec Lpn Ltn Lall HD H) as P.
  destruct (Z.eqb_spec digit 54); [contradiction|]. exact P.
Qed.

(** What is printed in cyan, 0x00ffff, always arrives as yellow, 0xffff00. *)
Theorem C151_cyan_refuted : forall d d' x fid t ksec knsec fd stack index prio tid tn pad name text sec nsec pn f,
  reachable d -> lookup fid (d_files d) = Some f -> f_write f = true -> f_raw f = true -> 0 <= fd ->
  zlen stack = BUF_SIZE -> c_string tn -> c_string name -> c_string text -> c_string pn ->
  int32 tid -> tid <> 0 -> int32 sec -> int32 nsec -> zlen pn <= 3800 ->
  zlen tn <= 15 -> zlen tn + zlen name <= 246 ->
  relayed d d' x fid t ksec knsec fd stack index prio tid tn pad name (painted 54 text) sec nsec pn ->
  ThreadxSpec.rgb 6 = 0x00ffff /\
  exists e, delivers d d' e /\
    parsed_as (enc 2 e) (mkView sec nsec 0 tid (prio mod 8) 0xffff00 false pn tn name (ztake (246 - zlen tn - zlen name) text)).
Proof.
  intros d d' x fid t ksec knsec fd stack index prio tid tn pad name text sec nsec pn f Hr El Hw Hraw Hfd HS Ctn Cname Ctext Cpn
    Htid Htid0 Hsec Hnsec Lpn Ltn Lall H. split; [reflexivity|].
  destruct (paint d d' x fid t ksec knsec fd stack index prio tid tn pad name 54 text sec nsec pn f Hr El Hw Hraw Hfd HS Ctn Cname Ctext Cpn
    Htid Htid0 Hsec Hnsec Lpn Ltn Lall ltac:(lia) H) as (e & n & _ & _ & D & P).
  exists e. split; [exact D|exact P].
Qed.

(** Nothing that the relay hands over tells cyan from yellow: the entries are equal. *)
Theorem C151_yellow_refuted : forall stack index prio tid tn pad name text sec nsec pn, zlen stack = BUF_SIZE ->
  c_string tn -> zlen tn <= 15 -> zlen tn + zlen name <= 246 ->
  exists cyan yellow r, ulog_shd_write stack index prio tid (Some (tn ++ 0 :: pad)) name (painted 54 text ++ [0]) = Ok cyan /\
    ulog_shd_write stack index prio tid (Some (tn ++ 0 :: pad)) name (painted 51 text ++ [0]) = Ok yellow /\
    fill_raw_entry cyan sec nsec pn = Ok r /\ fill_raw_entry yellow sec nsec pn = Ok r.
Proof.
  intros stack index prio tid tn pad name text sec nsec pn HS Ctn Ltn Lall.
  pose proof (zlen_nonneg tn) as N1. pose proof (zlen_nonneg name) as N2.
  assert (Et : forall digit, ztake (BUF_SIZE - 1 - (zlen tn + 1) - (zlen name + 1)) (painted digit text) = [27; 91; 48; 59; 51; digit; 109] ++ ztake (246 - zlen tn - zlen name) text).
  { intros digit. unfold painted, BUF_SIZE. rewrite ztake_app, ztake_all by (change (zlen [27; 91; 48; 59; 51; digit; 109]) with 7; lia).
    f_equal. f_equal. change (zlen [27; 91; 48; 59; 51; digit; 109]) with 7. lia. }
  destruct (sample_ok stack index prio tid tn pad name (painted 54 text) HS Ctn Ltn ltac:(unfold BUF_SIZE; lia)) as (R1 & E1).
  destruct (sample_ok stack index prio tid tn pad name (painted 51 text) HS Ctn Ltn ltac:(unfold BUF_SIZE; lia)) as (R2 & E2).
  cbv zeta in E1, E2. rewrite Et in E1, E2. do 3 eexists. split; [exact E1|]. split; [exact E2|].
  pose proof (fun digit R => fill_colour (u16 index) (Z.land prio 7) (u32 tid) (tn ++ [0]) (name ++ [0]) 91 48 59 51 digit 109
    (ztake (246 - zlen tn - zlen name) text ++ [0]) R sec nsec pn) as FC.
  cbv zeta in FC. cbn [app] in *. split; [apply (FC 54 R1)|]. rewrite (FC 51 R2). reflexivity.
Qed.

(** Concrete: a message in blue and one in cyan, on a device opened for raw writes. *)
Example C151_ex : exists d1 d2, reachable (ex_state ex_raw_ops) /\
  lookup 1 (d_files (ex_state ex_raw_ops)) = Some (mkFile true true None) /\
  relayed (ex_state ex_raw_ops) d1 (OutVal 47) 1 ex_thread 12 34 3 ex_stack 9 5 77 ex_thr (zrepeat 0 9) ex_name (painted 52 ex_text) 1 2 (bytes_of_string "app") /\
  relayed (ex_state ex_raw_ops) d2 (OutVal 47) 1 ex_thread 12 34 3 ex_stack 9 5 77 ex_thr (zrepeat 0 9) ex_name (painted 54 ex_text) 1 2 (bytes_of_string "app") /\
  map ThreadxSpec.rgb [0; 1; 2; 3; 4; 5; 6; 7] = [0; 0xff0000; 0xff00; 0xffff00; 0xff; 0xff00ff; 0xffff; 0x808080].
Proof.
  do 2 eexists. split. { apply ex_reach; [repeat constructor|]. vm_compute. reflexivity. }
  split; [vm_compute; reflexivity|].
  split; [|split; [|reflexivity]].
  all: do 3 eexists; split; [vm_compute; reflexivity|]; split; [vm_compute; reflexivity|]; split; [vm_compute; reflexivity|]; apply ex_step; vm_compute; reflexivity.
Qed.

Print Assumptions C151_colour_partial.
Print Assumptions C151_cyan_refuted.
Print Assumptions C151_yellow_refuted.
