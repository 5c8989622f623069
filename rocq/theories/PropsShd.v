(** C53: samples of the shared memory backend; C54: lost samples. *)
From Coq Require Import ZArith String List Bool Lia ZifyBool ZifyNat.
From Verif Require Import Bytes BytesProofs Ring RingSpec RingHistory PropsRing Parse Iov ParseSpec ParseProofs ParseE2E PropsParse Shd ShdProofs.
Import ListNotations.
Open Scope Z_scope.

(** Whatever the message, the name of the cookie and the thread, the sample is written inside its
    buffer and the three sizes stay inside it. *)
Theorem C53_inside : forall stack index prio tid thread name buf, zlen stack = BUF_SIZE ->
  exists b, ulog_shd_write stack index prio tid thread name buf = Ok b /\
    zlen (b_buf b) = BUF_SIZE /\ 0 <= b_thn b /\ 0 <= b_tag b /\ 0 <= b_log b /\
    b_thn b + b_tag b + b_log b <= BUF_SIZE.
Proof.
  intros stack index prio tid thread name buf HS.
  destruct (shd_write_ok stack index prio tid thread name buf HS) as (R & HA & ->).
  eexists. split; [reflexivity|]. cbn [b_buf b_thn b_tag b_log]. cbn zeta in HA.
  pose proof (zlen_nonneg R). rewrite !zlen_app in HA.
  match goal with |- context [thread_part ?t] => pose proof (zlen_nonneg (thread_part t)) end.
  match goal with |- context [tag_part ?a ?b] => pose proof (zlen_nonneg (tag_part a b)) end.
  match goal with |- context [log_part ?a ?b ?c] => pose proof (zlen_nonneg (log_part a b c)) end.
  repeat split; try lia.
  destruct (Z.eqb_spec (zlen R) 0); rewrite ?zlen_app, ?zlen_ztake, ?zlen_app; change (zlen [0]) with 1; unfold BUF_SIZE in *; lia.
Qed.

(** The text that is left of [text] beside a thread name and a tag of these lengths. *)
Definition fitting (tn name text : list Z) : list Z := ztake (253 - zlen tn - zlen name) text.

(** Restricted to messages that do not start with the escape character (27) and to tags that leave
    room in the sample; both restrictions are needed, see below. *)
Theorem C53_round_trip_partial : forall stack index prio tid tn pad name text sec nsec pname, zlen stack = BUF_SIZE ->
  c_string tn -> zlen tn <= 15 -> zlen tn + zlen name <= 253 -> hd 0 text <> 27 \/ zlen text < 6 ->
  exists b, ulog_shd_write stack index prio tid (Some (tn ++ 0 :: pad)) name (text ++ [0]) = Ok b /\
    fill_raw_entry b sec nsec pname =
      Ok (mkRaw 0 (s32 (u32 tid)) sec nsec 0 (prio mod 8) pname (tn ++ [0]) (name ++ [0])
            (Some (fitting tn name text ++ [0]))).
Proof.
  intros stack index prio tid tn pad name text sec nsec pname HS Hn Hl Hr He.
  destruct (relay_ok stack index prio tid tn pad name text sec nsec pname HS) as (b & E & _ & F); auto.
  { unfold BUF_SIZE. lia. }
  exists b. split; [exact E|]. rewrite F. unfold fitting, BUF_SIZE.
  replace (256 - 1 - (zlen tn + 1) - (zlen name + 1)) with (253 - zlen tn - zlen name) by lia.
  replace (Z.land prio 7) with (prio mod 8) by (change 7 with (Z.ones 3); rewrite Z.land_ones by lia; reflexivity). reflexivity.
Qed.

Definition ex_thr : list Z := bytes_of_string "worker".
Definition ex_name : list Z := bytes_of_string "net".
Definition ex_text : list Z := bytes_of_string "link up".
Definition ex_stack : list Z := zrepeat 170 256.
Example C53_round_trip_ex : exists b, c_string ex_thr /\ hd 0 ex_text <> 27 /\ fitting ex_thr ex_name ex_text = ex_text /\
  ulog_shd_write ex_stack 65537 0x305 77 (Some (ex_thr ++ 0 :: zrepeat 0 9)) ex_name (ex_text ++ [0]) = Ok b /\
  (b_index b, b_prio b, b_tid b, b_thn b, b_tag b, b_log b) = (1, 5, 77, 7, 4, 8).
Proof. eexists. split; [vm_compute; intuition discriminate|]. split; [discriminate|]. split; [reflexivity|]. split; vm_compute; reflexivity. Qed.

(** From the call of the application to the readers of the log device: the relay hands the sample to
    ulog_raw_log and every reader gets the message under the name of the relayed process, with the
    priority, the thread name, the tag and as much of the text as fits. *)
Theorem C53_delivered_partial : forall d fid t ksec knsec fd d' x f stack index prio tid tn pad name text sec nsec pn,
  reachable d -> lookup fid (d_files d) = Some f -> f_write f = true -> f_raw f = true -> 0 <= fd ->
  zlen stack = BUF_SIZE -> c_string tn -> c_string name -> c_string text -> c_string pn ->
  int32 tid -> tid <> 0 -> int32 sec -> int32 nsec -> zlen pn <= 3800 ->
  zlen tn <= 15 -> zlen tn + zlen name <= 253 -> hd 0 text <> 27 \/ zlen text < 6 ->
  exists b r v,
    ulog_shd_write stack index prio tid (Some (tn ++ 0 :: pad)) name (text ++ [0]) = Ok b /\
    fill_raw_entry b sec nsec (pn ++ [0]) = Ok r /\ ulog_raw_log fd (Some r) = Writev v /\
    (step d (OpWrite fid t ksec knsec (iovec v)) = Ok (d', x) ->
     exists e n, x = OutVal n /\ raw_result n = 0 /\ delivers d d' e /\
       parsed_as (enc 2 e) (mkView sec nsec 0 tid (prio mod 8) 0 false pn tn name (fitting tn name text))).
Proof.
  intros d fid t ksec knsec fd d' x f stack index prio tid tn pad name text sec nsec pn Hr El Hw Hraw Hfd HS Ctn Cname Ctext Cpn
    Htid Htid0 Hsec Hnsec Lpn Ltn Lall He.
  destruct (C53_round_trip_partial stack index prio tid tn pad name text sec nsec (pn ++ [0]) HS Ctn Ltn Lall He) as (b & Eb & Ef).
  assert (Etid : s32 (u32 tid) = tid).
  { unfold u32. rewrite <- (s32_id tid Htid) at 2. unfold s32. rewrite Z.mod_mod by lia. reflexivity. }
  rewrite Etid in Ef. set (r := mkRaw _ _ _ _ _ _ _ _ _ _) in Ef.
  assert (Hp : 0 <= prio mod 8 < 8) by (apply Z.mod_pos_bound; lia).
  set (r0 := mkRaw 0 tid sec nsec 0 (prio mod 8) (pn ++ [0]) (tn ++ [0]) (name ++ [0]) None).
  assert (HV : exists v, ulog_raw_logv fd (Some r0) [fitting tn name text ++ [0]] = Writev v).
  { unfold ulog_raw_logv, r0. cbn [rw_pid rw_tid rw_sec rw_nsec rw_euid rw_prio rw_pname rw_tname rw_tag rw_message].
    destruct (Z.ltb_spec fd 0); [lia|]. cbn [orb Z.eqb andb]. eexists; reflexivity. }
  destruct HV as (v & HV). exists b, r, v. split; [exact Eb|]. split; [exact Ef|]. split; [exact HV|]. intros E.
  destruct (C23_raw_read_back d fid t ksec knsec fd r0 [fitting tn name text ++ [0]] v pn tn name (fitting tn name text) d' x f Hr El Hw Hraw)
    as (e & n & Hx & Hn & D & P & _); try exact E; try reflexivity; auto; cbn [rw_pid rw_tid rw_sec rw_nsec rw_euid rw_prio rw_pname rw_tname rw_tag rw_message r0].
  all: try (unfold int32, uint32; lia).
  - assert (B : binary_of (prio mod 8) = false).
    { unfold binary_of. rewrite Z.div_small by lia. reflexivity. }
    rewrite B. cbn [concat]. rewrite app_nil_r. split; [reflexivity|].
    unfold fitting, c_string, ztake. intros H. apply Ctext.
    rewrite <- (firstn_skipn (Z.to_nat (253 - zlen tn - zlen name)) text). apply in_or_app. now left.
  - destruct (Z.eqb_spec 0 tid); [lia|]. cbn [concat]. rewrite app_nil_r, zlen_app. change (zlen [0]) with 1.
    unfold fitting. rewrite zlen_ztake. pose proof (zlen_nonneg text). pose proof (zlen_nonneg tn). pose proof (zlen_nonneg name). lia.
  - exists e, n. split; [exact Hx|]. split; [exact Hn|]. split; [exact D|].
    unfold r0 in P. cbn [rw_pid rw_tid rw_sec rw_nsec rw_prio] in P. unfold level_of, color_of, binary_of in P.
    rewrite Z.mod_mod in P by lia. rewrite !(Z.div_small (prio mod 8)) in P by lia.
    destruct (Z.eqb_spec 0 tid); [lia|]. exact P.
Qed.

Example C53_delivered_ex : exists b r v d', reachable (ex_state ex_raw_ops) /\
  lookup 1 (d_files (ex_state ex_raw_ops)) = Some (mkFile true true None) /\
  ulog_shd_write ex_stack 9 5 77 (Some (ex_thr ++ 0 :: zrepeat 0 9)) ex_name (ex_text ++ [0]) = Ok b /\
  fill_raw_entry b 1 2 (bytes_of_string "app" ++ [0]) = Ok r /\ ulog_raw_log 3 (Some r) = Writev v /\
  step (ex_state ex_raw_ops) (OpWrite 1 ex_thread 12 34 (iovec v)) = Ok (d', OutVal 47).
Proof.
  do 4 eexists. split. { apply ex_reach; [repeat constructor|]. vm_compute. reflexivity. }
  split; [vm_compute; reflexivity|]. split; [vm_compute; reflexivity|]. split; [vm_compute; reflexivity|]. split; [vm_compute; reflexivity|].
  apply ex_step. vm_compute. reflexivity.
Qed.

(** False without the first restriction: of a message that starts with an escape sequence other than
    a colour of the daemon (here bold, ESC [ 1 m) seven bytes are lost, text included. *)
Theorem C53_escape_refuted : exists text b r,
  c_string text /\
  ulog_shd_write ex_stack 1 6 77 (Some (ex_thr ++ 0 :: zrepeat 0 9)) ex_name (text ++ [0]) = Ok b /\
  fill_raw_entry b 1 2 [0] = Ok r /\ text = 27 :: bytes_of_string "[1mALARM" /\
  rw_message r = Some (bytes_of_string "RM" ++ [0]).
Proof.
  exists (27 :: bytes_of_string "[1mALARM"). do 2 eexists. split; [vm_compute; intuition discriminate|].
  split; [vm_compute; reflexivity|]. split; [vm_compute; reflexivity|]. split; [reflexivity|]. vm_compute; reflexivity.
Qed.

(** False without the second: a tag that fills the sample leaves no message, and the relay reads the
    first byte of the message outside the buffer. *)
Theorem C53_long_tag_refuted : forall stack index prio tid thread name text sec nsec pname, zlen stack = BUF_SIZE ->
  BUF_SIZE <= zlen name ->
  exists b, ulog_shd_write stack index prio tid thread name (text ++ [0]) = Ok b /\
    fill_raw_entry b sec nsec pname = Bug Oob.
Proof.
  intros stack index prio tid thread name text sec nsec pname HS HN.
  destruct (shd_write_ok stack index prio tid thread name (text ++ [0]) HS) as (R & HA & ->).
  eexists. split; [reflexivity|]. cbn zeta in *. pose proof (zlen_nonneg R). revert HA.
  set (T := thread_part thread). set (G := tag_part thread name). set (L := log_part thread name (text ++ [0])). intros HA.
  assert (HG : zlen T + zlen G = BUF_SIZE).
  { unfold G, tag_part. fold T. rewrite zlen_ztake, zlen_app. change (zlen [0]) with 1.
    pose proof (zlen_nonneg T). pose proof (thread_part_len thread). fold T in H1. unfold BUF_SIZE in *. lia. }
  rewrite !zlen_app in HA. pose proof (zlen_nonneg L). assert (zlen R = 0) by lia. assert (zlen L = 0) by lia.
  unfold fill_raw_entry. cbn [b_thn b_tag b_log b_buf b_tid b_prio]. rewrite H1. cbn [Z.eqb].
  set (B := ztake (BUF_SIZE - 1) _ ++ [0]).
  assert (LB : zlen B = 256). { unfold B. rewrite zlen_app, zlen_ztake, !zlen_app. change (zlen [0]) with 1. unfold BUF_SIZE in *. lia. }
  pose proof (zlen_nonneg T). pose proof (zlen_nonneg G). unfold BUF_SIZE in *.
  rewrite mem_read_ok by lia. cbn [bind]. rewrite mem_read_ok by lia. cbn [bind].
  assert (E : load B (zlen T + zlen G) = Bug Oob).
  { unfold load. rewrite LB, HG. reflexivity. }
  rewrite E. reflexivity.
Qed.

Example C53_long_tag_ex : zlen ex_stack = BUF_SIZE /\ BUF_SIZE <= zlen (zrepeat 97 256) /\ c_string (zrepeat 97 256).
Proof. split; [reflexivity|]. split; [vm_compute; discriminate|]. vm_compute. intuition discriminate. Qed.

(** ** C54 *)

(** What the relay says about lost samples. *)
Definition reports (l : list act) : list act := filter (fun a => match a with Relay _ => false | _ => true end) l.

(** The samples received are those of numbers [ns] (counted from the start, the index on the wire is
    the number modulo 65536), the last one seen before being number [p]. *)
Fixpoint gaps (p : Z) (ns : list Z) : list Z :=
  match ns with [] => [] | n :: ns => (n - p - 1) :: gaps n ns end.

(** Restricted to gaps below half the period of the index. *)
Theorem C54_gaps_partial : forall pname l ns p acts i,
  Forall2 (fun s n => b_index (fst (fst s)) = u16 n) l ns ->
  Forall (fun g => 0 <= g < 32768) (gaps p ns) ->
  send_samples pname (u16 p) l = Ok (acts, i) ->
  reports acts = map Lost (filter (fun g => 0 <? g) (gaps p ns)) /\
  length (filter (fun a => match a with Relay _ => true | _ => false end) acts) = length l /\
  i = u16 (last ns p).
Proof.
  intros pname l ns p acts i H. revert p acts i. induction H as [|[[b sec] nsec] n l ns Hb H IH]; intros p acts i HG E.
  - cbn in E. injection E as <- <-. auto.
  - cbn [fst] in Hb. cbn [send_samples] in E. destruct (fill_raw_entry b sec nsec pname) as [r|] eqn:Er; [|discriminate].
    cbn [bind] in E. destruct (send_samples pname (b_index b) l) as [[a j]|] eqn:El; [|discriminate]. cbn [bind] in E.
    assert (acts = Relay r :: check_index (u16 p) (b_index b) ++ a) by congruence. assert (i = j) by congruence. subst acts i.
    cbn [gaps] in HG. pose proof (Forall_inv HG) as Hg. pose proof (Forall_inv_tail HG) as HG'. clear HG E. cbn beta in Hg.
    rewrite Hb in *. destruct (IH n a j HG' El) as (I1 & I2 & I3). rewrite (index_gap p n Hg).
    cbn [gaps filter map]. unfold reports in *. cbn [filter]. rewrite !filter_app. cbn [length]. rewrite app_length, I1, I2, I3.
    assert (EL : u16 (last ns n) = u16 (last (n :: ns) p)).
    { clear. cbn [last]. destruct ns as [|m ns]; [reflexivity|]. f_equal.
      revert m. induction ns as [|q ns IH]; intros m; [reflexivity|]. exact (IH q). }
    destruct (Z.eqb_spec (n - p - 1) 0) as [Z0|Z0]; destruct (Z.ltb_spec 0 (n - p - 1)); try lia; cbn [filter app length map plus]; auto.
Qed.

(** So the numbers reported add up to the number of samples lost. *)
Theorem C54_total_partial : forall pname l ns p acts i,
  Forall2 (fun s n => b_index (fst (fst s)) = u16 n) l ns ->
  Forall (fun g => 0 <= g < 32768) (gaps p ns) ->
  send_samples pname (u16 p) l = Ok (acts, i) ->
  fold_right Z.add 0 (map (fun a => match a with Lost n => n | _ => 0 end) acts) = last ns p - p - zlen l.
Proof.
  intros pname l ns p acts i H HG E. destruct (C54_gaps_partial pname l ns p acts i H HG E) as (R & _ & _).
  assert (S : forall a, fold_right Z.add 0 (map (fun a => match a with Lost n => n | _ => 0 end) a) =
                        fold_right Z.add 0 (map (fun a => match a with Lost n => n | _ => 0 end) (reports a))).
  { induction a as [|[r|k|] a IH]; cbn [map fold_right reports filter]; unfold reports in *; cbn [filter map fold_right]; lia. }
  rewrite S, R. clear - H HG. revert p HG. induction H as [|s n l ns _ H IH]; intros p HG.
  - cbn. change (zlen (@nil (blob * Z * Z))) with 0. lia.
  - cbn [gaps] in *. pose proof (Forall_inv HG) as Hg. pose proof (Forall_inv_tail HG) as HG'. cbn beta in Hg.
    specialize (IH n HG'). rewrite zlen_cons.
    assert (EL : last (n :: ns) p = last ns n).
    { clear. cbn [last]. destruct ns as [|m ns]; [reflexivity|].
      revert m. induction ns as [|q ns IH]; intros m; [reflexivity|]. exact (IH q). }
    rewrite EL. cbn [filter]. destruct (Z.ltb_spec 0 (n - p - 1)); cbn [map fold_right]; lia.
Qed.

Definition ex_blob (n : Z) : blob := mkBlob (u16 n) 6 77 0 0 2 (65 :: zrepeat 0 255).
Example C54_ex : exists acts,
  Forall2 (fun (s : blob * Z * Z) n => b_index (fst (fst s)) = u16 n)
          [(ex_blob 65534, 1, 0); (ex_blob 65539, 2, 0); (ex_blob 65540, 3, 0)] [65534; 65539; 65540] /\
  Forall (fun g => 0 <= g < 32768) (gaps 65530 [65534; 65539; 65540]) /\
  send_samples [0] (u16 65530) [(ex_blob 65534, 1, 0); (ex_blob 65539, 2, 0); (ex_blob 65540, 3, 0)] = Ok (acts, 4) /\
  reports acts = [Lost 3; Lost 4].
Proof.
  eexists. split; [repeat constructor|]. split; [repeat constructor; cbn; try discriminate; reflexivity|].
  split; [vm_compute; reflexivity|]. vm_compute. reflexivity.
Qed.

(** False in the upper half of the period: 40000 lost samples are reported without a number. *)
Theorem C54_half_refuted : exists acts,
  send_samples [0] (u16 1) [(ex_blob 40002, 1, 0)] = Ok (acts, u16 40002) /\ gaps 1 [40002] = [40000] /\ reports acts = [Many].
Proof. eexists. split; [vm_compute; reflexivity|]. split; reflexivity. Qed.

Print Assumptions C53_inside.
Print Assumptions C53_round_trip_partial.
Print Assumptions C53_delivered_partial.
Print Assumptions C53_escape_refuted.
Print Assumptions C53_long_tag_refuted.
Print Assumptions C54_gaps_partial.
Print Assumptions C54_total_partial.
Print Assumptions C54_half_refuted.
