(** Properties C19 to C25: parsing of entries and the path from a library call to the reader.

    Vocabulary: ParseSpec.v ([string_at], [shows], [parsed_as], [delivers]) and RingSpec.v
    ([enc], [report]). *)
From Coq Require Import ZArith String List Bool Lia ZifyBool ZifyNat.
From Verif Require Import Bytes BytesProofs Ring RingSpec RingHistory PropsRing Parse Iov ParseSpec ParseProofs ParseE2E ParseOverflow.
Import ListNotations.
Open Scope Z_scope.

(** ** C19 *)

(** Any access outside the block gives [Bug Oob].  The payload parser, given exactly the bytes
    [pay], finishes normally and changes at most the last of them. *)
Theorem C19_payload_in_bounds : forall pay sec nsec pid tid, exists mem e,
  parse_payload pay 0 (zlen pay) sec nsec pid tid = Ok (mem, e) /\
  (mem = pay \/ exists s x, pay = s ++ [x] /\ mem = s ++ [0]).
Proof.
  intros pay sec nsec pid tid. destruct (parse_payload_good pay sec nsec pid tid) as (mem & e & P & G & _).
  exists mem, e. split; [exact P|exact G].
Qed.

(** ulog_parse_raw on any buffer, ulog_parse_buf on a buffer holding what its header announces. *)
Theorem C19_in_bounds : forall buf, Forall (fun b => 0 <= b < 256) buf ->
  (exists mem r, ulog_parse_raw buf = Ok (mem, r) /\ zlen mem = zlen buf /\
     (mem = buf \/ exists s x, buf = s ++ [x] /\ mem = s ++ [0])) /\
  (24 <= zlen buf -> hdr_size buf + hdr_len buf <= zlen buf ->
   exists pre pay post pay' e, buf = pre ++ pay ++ post /\ zlen pre = hdr_size buf /\ zlen pay = hdr_len buf /\
     ulog_parse_buf buf = Ok (pre ++ pay' ++ post, e) /\ zlen pay' = zlen pay).
Proof.
  intros buf HB.
  assert (H0 : 0 <= hdr_len buf) by (apply of_le_bound, Forall_zsub, HB).
  assert (H1 : 0 <= hdr_size buf) by (apply of_le_bound, Forall_zsub, HB).
  split.
  - destruct (raw_cases buf HB) as [(L & E & P)|(_ & P)].
    + destruct (parse_at_good buf (hdr_size buf) (hdr_len buf) (hdr_sec buf) (hdr_nsec buf) (hdr_pid buf) (hdr_tid buf) H1 H0 ltac:(lia))
        as (pre & pay & post & pay' & e & Eb & L1 & L2 & Pa & G). rewrite Pa in P. cbn [bind] in P.
      assert (post = []) as ->.
      { apply zlen_zero_nil. rewrite Eb, !zlen_app in E. pose proof (zlen_nonneg post). rewrite Eb in L1, L2. lia. }
      do 2 eexists. split; [exact P|]. destruct G as (G & _). split.
      * assert (zlen buf = zlen pre + zlen pay) by (rewrite Eb, !zlen_app; change (zlen (@nil Z)) with 0; lia).
        rewrite !zlen_app, (last_cut_len _ _ G). change (zlen (@nil Z)) with 0. lia.
      * rewrite app_nil_r in *. destruct G as [->|(s & x & -> & ->)]; [left; symmetry; exact Eb|].
        right. exists (pre ++ s), x. rewrite <- !app_assoc. auto.
    + exists buf, None. auto.
  - intros L E.
    destruct (parse_at_good buf (hdr_size buf) (hdr_len buf) (hdr_sec buf) (hdr_nsec buf) (hdr_pid buf) (hdr_tid buf) H1 H0 E)
      as (pre & pay & post & pay' & e & Eb & L1 & L2 & Pa & G).
    exists pre, pay, post, pay', (shift_entry (hdr_size buf) e). split; [exact Eb|]. split; [exact L1|].
    split; [exact L2|]. split; [rewrite buf_eq by exact L; exact Pa|]. apply last_cut_len, G.
Qed.

(** An entry whose text fills the payload: the last byte is overwritten. *)
Definition ex_raw : list Z := enc 2 (mkEntry (meta 7 7 100 5 0) (bytes_of_string "p" ++ [0; 6; 0; 0; 0] ++ bytes_of_string "tag" ++ [0] ++ bytes_of_string "hello")).
Example C19_ex : Forall (fun b => 0 <= b < 256) ex_raw /\ 24 <= zlen ex_raw /\ hdr_size ex_raw + hdr_len ex_raw <= zlen ex_raw /\
  exists e, ulog_parse_raw ex_raw = Ok (ztake (zlen ex_raw - 1) ex_raw ++ [0], Some e).
Proof.
  split; [vm_compute; repeat constructor; discriminate|]. split; [vm_compute; discriminate|].
  split; [vm_compute; discriminate|]. eexists. vm_compute. reflexivity.
Qed.

(** ** C20 *)

Theorem C20_strings_terminated : forall pay sec nsec pid tid mem e,
  parse_payload pay 0 (zlen pay) sec nsec pid tid = Ok (mem, e) ->
  pe_sec e = sec /\ pe_nsec e = nsec /\ pe_pid e = pid /\ pe_tid e = tid /\
  (exists pn tn tg, string_at mem (pe_pname e) pn /\ string_at mem (pe_tname e) tn /\ string_at mem (pe_tag e) tg) /\
  (pe_bin e = false -> exists m, string_at mem (pe_msg e) m /\ pe_len e = zlen m + 1) /\
  (pe_bin e = true -> exists data, bytes_at mem (pe_msg e) data /\ pe_len e = zlen data).
Proof.
  intros pay sec nsec pid tid mem e P. destruct (parse_payload_good pay sec nsec pid tid) as (mem' & e' & P' & G).
  rewrite P in P'. injection P' as <- <-. destruct G as (_ & H1 & H2 & H3 & H4 & H5 & H6).
  do 4 (split; [assumption|]). split; [exact H5|]. destruct (pe_bin e); split; try discriminate.
  - intros _. destruct H6 as (pre & E & post & -> & L). exists post. split; [|exact L].
    exists (zlen pre), pre, []. rewrite app_nil_r. auto.
  - intros _. exact H6.
Qed.

(** The same for ulog_parse_raw, the pointers being into the whole buffer. *)
Theorem C20_raw_strings_terminated : forall buf mem e, Forall (fun b => 0 <= b < 256) buf ->
  ulog_parse_raw buf = Ok (mem, Some e) ->
  (exists pn tn tg, string_at mem (pe_pname e) pn /\ string_at mem (pe_tname e) tn /\ string_at mem (pe_tag e) tg) /\
  (pe_bin e = false -> exists m, string_at mem (pe_msg e) m /\ pe_len e = zlen m + 1) /\
  (pe_bin e = true -> exists data, bytes_at mem (pe_msg e) data /\ pe_len e = zlen data).
Proof.
  intros buf mem e HB P.
  assert (H0 : 0 <= hdr_len buf) by (apply of_le_bound, Forall_zsub, HB).
  assert (H1 : 0 <= hdr_size buf) by (apply of_le_bound, Forall_zsub, HB).
  destruct (raw_cases buf HB) as [(L & E & P')|(_ & P')]; [|congruence]. rewrite P in P'.
  destruct (parse_at_good buf (hdr_size buf) (hdr_len buf) (hdr_sec buf) (hdr_nsec buf) (hdr_pid buf) (hdr_tid buf) H1 H0 ltac:(lia))
    as (pre & pay & post & pay' & e' & Eb & L1 & L2 & Pa & G). rewrite Pa in P'. cbn [bind] in P'.
  injection P' as -> ->. destruct G as (_ & _ & _ & _ & _ & (pn & tn & tg & S1 & S2 & S3) & S4). rewrite <- L1.
  cbn [shift_entry pe_pname pe_tname pe_tag pe_msg pe_bin pe_len].
  split; [exists pn, tn, tg; split; [|split]; apply string_at_shift; assumption|].
  destruct (pe_bin e'); split; try discriminate; intros _.
  - destruct S4 as (p & -> & q & -> & S). exists q. split; [|exact S].
    apply bytes_at_shift. exists (zlen p), p, []. rewrite app_nil_r. auto.
  - destruct S4 as (m & S & S'). exists m. split; [apply string_at_shift; exact S|exact S'].
Qed.

Example C20_ex : exists mem e, ulog_parse_raw ex_raw = Ok (mem, Some e) /\ pe_bin e = false /\ pe_len e = 5 /\
  string_at mem (pe_msg e) (bytes_of_string "hell").
Proof.
  do 2 eexists. split; [vm_compute; reflexivity|]. split; [reflexivity|]. split; [reflexivity|].
  split; [vm_compute; intuition congruence|].
  exists (ztake 34 ex_raw), []. split; vm_compute; reflexivity.
Qed.

(** ** C21 *)

(** [the_view t sec nsec prio tag m]: time, pid and tid of the task, level, colour and binary
    flag of the priority word, names of the task, tag and message [m]. *)
Theorem C21_text_read_back : forall d fid t sec nsec prio tag msg d' x f, reachable d ->
  lookup fid (d_files d) = Some f -> f_write f = true -> f_raw f = false ->
  c_string tag -> c_string msg -> uint32 prio -> binary_of prio = false ->
  int32 (t_tgid t) -> int32 (t_pid t) -> int32 sec -> int32 nsec ->
  zlen (names t) + 5 + zlen tag < 4076 ->
  step d (OpWrite fid t sec nsec (iovec (kernel_iov prio tag (msg ++ [0])))) = Ok (d', x) ->
  exists e m, delivers d d' e /\
    parsed_as (enc 2 e) (mkView sec nsec (t_tgid t) (t_pid t) (level_of prio) (color_of prio) false
       (comm_str (t_pcomm t)) (if t_tgid t =? t_pid t then comm_str (t_pcomm t) else comm_str (t_tcomm t)) tag m) /\
    m = ztake (4070 - zlen (names t) - zlen tag) msg /\
    (zlen (names t) + 5 + zlen tag + zlen msg < 4076 -> m = msg).
Proof.
  intros d fid t sec nsec prio tag msg d' x f Hr El Hw Hraw Htag Hmsg Hprio Hbin Hp Ht Hs Hn Hfit E.
  destruct (normal_e2e d fid t sec nsec prio tag (msg ++ [0]) (kernel_iov prio tag (msg ++ [0]))
    (ztake (4070 - zlen (names t) - zlen tag) msg) d' x f Hr El Hw Hraw Htag Hprio Hp Ht Hs Hn) as (e & _ & D & P).
  - cbn [kernel_iov concat]. rewrite app_nil_r. reflexivity.
  - lia.
  - rewrite Hbin. replace (4070 - zlen (names t) - zlen tag) with (4071 - zlen (names t) - zlen tag - 1) by lia.
    apply text_body; [exact Hmsg|lia].
  - exact E.
  - exists e, (ztake (4070 - zlen (names t) - zlen tag) msg). split; [exact D|].
    unfold the_view in P. rewrite Hbin in P. split; [exact P|]. split; [reflexivity|].
    intros L. apply ztake_all. lia.
Qed.

Definition ex_tag : list Z := bytes_of_string "net".
Definition ex_msg : list Z := bytes_of_string "link up".
Example C21_ex : exists d', reachable (ex_state ex_ops) /\ lookup 1 (d_files (ex_state ex_ops)) = Some (mkFile true false None) /\
  c_string ex_tag /\ c_string ex_msg /\ zlen (names ex_thread) + 5 + zlen ex_tag + zlen ex_msg < 4076 /\
  step (ex_state ex_ops) (OpWrite 1 ex_thread 12 34 (iovec (kernel_iov 0x123405 ex_tag (ex_msg ++ [0])))) = Ok (d', OutVal 16).
Proof.
  eexists. split; [exact ex_reachable|]. split; [vm_compute; reflexivity|].
  split; [vm_compute; intuition congruence|]. split; [vm_compute; intuition congruence|].
  split; [vm_compute; reflexivity|]. apply ex_step. vm_compute. reflexivity.
Qed.

(** ** C22 *)

(** Binary data, through ulog_log_buf with the binary flag. *)
Theorem C22_binary_read_back : forall d fid t sec nsec prio tag data d' x f, reachable d ->
  lookup fid (d_files d) = Some f -> f_write f = true -> f_raw f = false ->
  c_string tag -> uint32 prio -> binary_of prio = true ->
  int32 (t_tgid t) -> int32 (t_pid t) -> int32 sec -> int32 nsec ->
  zlen (names t) + 5 + zlen tag + zlen data <= 4076 ->
  step d (OpWrite fid t sec nsec (iovec (kernel_iov prio tag data))) = Ok (d', x) ->
  exists e, x = OutVal (5 + zlen tag + zlen data) /\ delivers d d' e /\
    parsed_as (enc 2 e) (mkView sec nsec (t_tgid t) (t_pid t) (level_of prio) (color_of prio) true
       (comm_str (t_pcomm t)) (if t_tgid t =? t_pid t then comm_str (t_pcomm t) else comm_str (t_tcomm t)) tag data).
Proof.
  intros d fid t sec nsec prio tag data d' x f Hr El Hw Hraw Htag Hprio Hbin Hp Ht Hs Hn Hfit E.
  pose proof (zlen_nonneg data).
  destruct (normal_e2e d fid t sec nsec prio tag data (kernel_iov prio tag data) data d' x f Hr El Hw Hraw Htag Hprio Hp Ht Hs Hn) as (e & Hx & D & P).
  - cbn [kernel_iov concat]. rewrite app_nil_r. reflexivity.
  - lia.
  - rewrite Hbin. cbn [body_message]. apply ztake_all. lia.
  - exact E.
  - exists e. split; [rewrite Hx; f_equal; lia|]. split; [exact D|]. unfold the_view in P. rewrite Hbin in P. exact P.
Qed.

(** The same through ulog_bin_writev, whatever the split of the data. *)
Theorem C22_bin_writev_read_back : forall d fid t sec nsec tag iov d' x f, reachable d ->
  lookup fid (d_files d) = Some f -> f_write f = true -> f_raw f = false ->
  c_string tag -> int32 (t_tgid t) -> int32 (t_pid t) -> int32 sec -> int32 nsec ->
  zlen (names t) + 5 + zlen tag + zlen (concat iov) <= 4076 ->
  step d (OpWrite fid t sec nsec (iovec (bin_iov (tag ++ [0]) iov))) = Ok (d', x) ->
  exists e, x = OutVal (5 + zlen tag + zlen (concat iov)) /\ delivers d d' e /\
    parsed_as (enc 2 e) (mkView sec nsec (t_tgid t) (t_pid t) 6 0 true
       (comm_str (t_pcomm t)) (if t_tgid t =? t_pid t then comm_str (t_pcomm t) else comm_str (t_tcomm t)) tag (concat iov)).
Proof.
  intros d fid t sec nsec tag iov d' x f Hr El Hw Hraw Htag Hp Ht Hs Hn Hfit E.
  pose proof (zlen_nonneg (concat iov)).
  destruct (normal_e2e d fid t sec nsec bin_prio tag (concat iov) (bin_iov (tag ++ [0]) iov) (concat iov) d' x f Hr El Hw Hraw Htag) as (e & Hx & D & P);
    try assumption.
  - unfold uint32. vm_compute. split; [discriminate|reflexivity].
  - reflexivity.
  - lia.
  - change (binary_of bin_prio) with true. cbn [body_message]. apply ztake_all. lia.
  - exists e. split; [rewrite Hx; f_equal; lia|]. split; [exact D|]. exact P.
Qed.

Example C22_ex : exists d', reachable (ex_state ex_ops) /\ zlen (names ex_thread) + 5 + zlen ex_tag + zlen [0; 1; 0; 255] <= 4076 /\
  step (ex_state ex_ops) (OpWrite 1 ex_thread 12 34 (iovec (bin_iov (ex_tag ++ [0]) [[0; 1]; []; [0; 255]]))) = Ok (d', OutVal 12).
Proof. eexists. split; [exact ex_reachable|]. split; [vm_compute; discriminate|]. apply ex_step. vm_compute. reflexivity. Qed.

(** ** C23 *)

Theorem C23_raw_read_back : forall d fid t sec nsec fd r iov v pn tn tag msg d' x f, reachable d ->
  lookup fid (d_files d) = Some f -> f_write f = true -> f_raw f = true ->
  ulog_raw_logv fd (Some r) iov = Writev v ->
  c_string pn -> c_string tn -> c_string tag ->
  rw_pname r = pn ++ [0] -> (rw_pid r <> rw_tid r -> rw_tname r = tn ++ [0]) -> rw_tag r = tag ++ [0] ->
  uint32 (rw_prio r) -> int32 (rw_pid r) -> int32 (rw_tid r) -> int32 (rw_sec r) -> int32 (rw_nsec r) -> int32 (rw_euid r) ->
  (if binary_of (rw_prio r) then concat iov = msg else concat iov = msg ++ [0] /\ c_string msg) ->
  zlen pn + 1 + (if rw_pid r =? rw_tid r then 0 else zlen tn + 1) + 4 + zlen tag + 1 + zlen (concat iov) <= 4076 ->
  step d (OpWrite fid t sec nsec (iovec v)) = Ok (d', x) ->
  exists e n, x = OutVal n /\ raw_result n = 0 /\ delivers d d' e /\
    parsed_as (enc 2 e) (mkView (rw_sec r) (rw_nsec r) (rw_pid r) (rw_tid r) (level_of (rw_prio r)) (color_of (rw_prio r))
       (binary_of (rw_prio r)) pn (if rw_pid r =? rw_tid r then pn else tn) tag msg) /\
    s32 (e_euid e) = rw_euid r.
Proof.
  intros d fid t sec nsec fd r iov v pn tn tag msg d' x f Hr El Hw Hraw HV Hpn Htn Htag Epn Etn Etag
    Hprio Hpid Htid Hsec Hnsec Heuid Hmsg Hfit E.
  assert (HL : zlen (payload (rw_pid r) (rw_tid r) pn tn (rw_prio r) tag [])
     = zlen pn + 1 + (if rw_pid r =? rw_tid r then 0 else zlen tn + 1) + 4 + zlen tag + 1).
  { unfold payload. rewrite !zlen_app, zlen_le. destruct (rw_pid r =? rw_tid r); rewrite ?zlen_app; change (zlen [0]) with 1; change (zlen (@nil Z)) with 0; lia. }
  pose proof (zlen_nonneg (concat iov)).
  destruct (raw_e2e d fid t sec nsec fd r iov v pn tn tag msg d' x f Hr El Hw Hraw HV Hpn Htn Htag Epn Etn Etag
    Hprio Hpid Htid Hsec Hnsec) as (e & n & Hx & Hn & D & P & U).
  - lia.
  - rewrite ztake_all by lia. destruct (binary_of (rw_prio r)); cbn [body_message]; [exact Hmsg|].
    destruct Hmsg as (-> & Hm). split; [exact Hm|]. left. exists []. reflexivity.
  - exact E.
  - exists e, n. split; [exact Hx|]. split; [unfold raw_result; destruct (Z.ltb_spec n 0); lia|].
    split; [exact D|]. split; [exact P|]. rewrite U. unfold u32. rewrite <- (s32_id (rw_euid r) Heuid) at 2.
    unfold s32. rewrite Z.mod_mod by lia. reflexivity.
Qed.

(** The reserved ids are refused, before any system call, also by ulog_raw_log; nothing that is
    sent can be taken for a drop report. *)
Theorem C23_no_forgery : forall fd r iov,
  (rw_pid r = -1 -> rw_tid r = -1 ->
   ulog_raw_logv fd (Some r) iov = Refuse (- EINVAL) /\ ulog_raw_log fd (Some r) = Refuse (- EINVAL)) /\
  (forall v t sec nsec nm n next, int32 (rw_pid r) -> int32 (rw_tid r) ->
   ulog_raw_logv fd (Some r) iov = Writev v ->
   zlen (e_meta next) = 20 -> zlen (e_payload next) <= 4076 -> zlen nm <= 15 ->
   enc 2 (requested true t sec nsec (iovec v)) <> enc 2 (report nm n next)).
Proof.
  intros fd r iov. split.
  - intros H1 H2. unfold ulog_raw_log, ulog_raw_logv. cbn [rw_pid rw_tid rw_message]. rewrite H1, H2.
    destruct (fd <? 0); destruct (rw_message r); auto.
  - intros v t sec nsec nm n next Hp Ht HV L1 L2 L3.
    apply RingLemmas3.report_distinct; [|split; assumption|exact L3|exact (raw_no_forgery fd r iov v t sec nsec Hp Ht HV)].
    destruct (raw_logv_writev fd r iov v HV) as (_ & _ & _ & Hv). unfold requested. rewrite iovec_bytes, Hv.
    unfold RingRefine.wf_entry. cbn [e_meta e_payload]. split; [|rewrite zlen_ztake; lia].
    rewrite zlen_ztake, zlen_app, zlen_meta. match goal with |- context [20 + zlen ?l] => pose proof (zlen_nonneg l) end. lia.
Qed.

Definition ex_raw_entry : raw_entry :=
  mkRaw 41 42 1000 999 (-2) 0x7705 (bytes_of_string "old" ++ [0]) (bytes_of_string "thr" ++ [0]) (ex_tag ++ [0]) None.
Definition ex_raw_ops : list op := ex_ops ++ [OpIoctl 1 (SetRawMode (Some 1) false false) 0].
Example C23_ex : exists d' v, reachable (ex_state ex_raw_ops) /\
  lookup 1 (d_files (ex_state ex_raw_ops)) = Some (mkFile true true None) /\
  ulog_raw_logv 3 (Some ex_raw_entry) [ex_msg; [0]] = Writev v /\ binary_of (rw_prio ex_raw_entry) = false /\
  concat [ex_msg; [0]] = ex_msg ++ [0] /\
  step (ex_state ex_raw_ops) (OpWrite 1 ex_thread 12 34 (iovec v)) = Ok (d', OutVal 44).
Proof.
  do 2 eexists. split. { apply ex_reach; [repeat constructor|]. vm_compute. reflexivity. }
  split; [vm_compute; reflexivity|]. split; [reflexivity|]. split; [reflexivity|]. split; [reflexivity|].
  apply ex_step. vm_compute. reflexivity.
Qed.

(** ** C24 *)

Lemma dec_digits_lead f : forall v, 1 <= v < 10 ^ Z.of_nat f -> exists c r, dec_digits f v = c :: r /\ c <> 48.
Proof.
  induction f as [|f IH]; intros v H; [cbn in H; lia|]. cbn [dec_digits]. destruct (Z.ltb_spec v 10).
  - exists (48 + v), []. split; [reflexivity|lia].
  - destruct (IH (v / 10)) as (c & r & E & C).
    + rewrite Nat2Z.inj_succ, Z.pow_succ_r in H by lia. split; [apply Z.div_le_lower_bound; lia|apply Z.div_lt_upper_bound; lia].
    + exists c, (r ++ [48 + v mod 10]). rewrite E. auto.
Qed.

(** Below 2^31 drops the message gives the count in decimal, without needless zeros.  Missing: greater counts. *)
Theorem C24_report_parses_partial : forall nm n pid tid sec nsec euid pay, c_string nm -> zlen nm <= 15 ->
  int32 sec -> int32 nsec -> 0 <= n < 2 ^ 31 ->
  exists digits, parsed_as (enc 2 (report nm n (mkEntry (meta pid tid sec nsec euid) pay)))
    (mkView sec nsec (-1) (-1) 4 0 false [] [] nm (digits ++ bytes_of_string " log entries dropped" ++ [10])) /\
    Forall (fun c => 48 <= c <= 57) digits /\ fold_left (fun a c => 10 * a + (c - 48)) digits 0 = n /\
    (forall r, digits = 48 :: r -> r = []).
Proof.
  intros nm n pid tid sec nsec euid pay Hnm HL Hs Hn Hc. exists (dec_d (s32 n)).
  split; [apply report_parsed; assumption|]. rewrite s32_id by (unfold int32; lia).
  unfold dec_d. destruct (Z.ltb_spec n 0); [lia|]. split.
  - unfold dec_u. generalize 20%nat. intros k. revert n Hc H. induction k as [|k IH]; intros n Hc H; [constructor|].
    cbn [dec_digits]. destruct (Z.ltb_spec n 10); [repeat constructor; lia|].
    apply Forall_app. split.
    + apply IH; [split; [apply Z.div_pos; lia|apply Z.div_lt_upper_bound; lia]|apply Z.div_pos; lia].
    + pose proof (Z.mod_pos_bound n 10 ltac:(lia)). repeat constructor; lia.
  - split.
    + change (fold_left (fun a c => 10 * a + (c - 48)) (dec_u n) 0) with (digits_value (dec_u n)).
      apply dec_digits_value. change (10 ^ Z.of_nat 20) with 100000000000000000000. lia.
    + intros r E. destruct (Z.eq_dec n 0) as [->|N]; [injection E as <-; reflexivity|].
      destruct (dec_digits_lead 20 n) as (c & x & E' & C); [change (10 ^ Z.of_nat 20) with 100000000000000000000; lia|].
      unfold dec_u in E. rewrite E' in E. injection E as -> _. congruence.
Qed.

(** The count is printed as an int: a reader that misses 2^31 entries is told a negative number.
    All writes of [ov_ops] succeed, so 2^31 + 3 entries were accepted after the reader was opened;
    it is still owed 3. *)
Theorem C24_count_refuted : exists k d d' bytes,
  Z.of_nat k = 2 ^ 31 /\ reachable d /\
  run (init_dev ov_nm ov_mem 14) (ov_ops k)
    = Ok (d, [OutVal 0; OutVal 0; OutVal 4071; OutVal 4071; OutVal 4071] ++ repeat (OutVal 4071) k) /\
  owes d 2 (2 ^ 31) [ov_entry; ov_entry; ov_entry] /\
  step d (OpReadBody 2 0 8192 8192) = Ok (d', OutData bytes) /\
  exists v, parsed_as bytes v /\ v_message v = bytes_of_string "-2147483648 log entries dropped" ++ [10].
Proof.
  exists (Z.to_nat (2 ^ 31)). remember (Z.to_nat (2 ^ 31)) as k eqn:Hk.
  assert (Ek : Z.of_nat k = 2 ^ 31) by lia. destruct (ov_reached k) as (d & d' & E & O & S). rewrite Ek in O, S.
  exists d, d'. eexists. split; [exact Ek|]. split.
  { exists ov_nm, ov_mem, 14, (ov_ops k). eexists. split; [exact ov_init|]. split; [exact (ov_users k)|exact E]. }
  split; [exact E|]. split; [exact O|]. split; [apply S; lia|].
  eexists. split.
  - replace ov_entry with (mkEntry (meta 100 100 12 34 1000) (e_payload ov_entry)) by reflexivity.
    apply report_parsed; unfold int32; try lia; vm_compute; intuition congruence.
  - reflexivity.
Qed.

(** Device names are at most 15 characters long. *)
Example C24_ex : c_string ex_nm /\ zlen ex_nm <= 15.
Proof. split; [vm_compute; intuition congruence|vm_compute; discriminate]. Qed.

(** ** C25 *)

(** [hdr_len] and [hdr_size] are the first two 16-bit words of the buffer. *)
Theorem C25_raw_consistent : forall buf, Forall (fun b => 0 <= b < 256) buf ->
  exists mem r, ulog_parse_raw buf = Ok (mem, r) /\
    (r <> None <-> 24 <= zlen buf /\ zlen buf = of_le (zsub 2 2 buf) + of_le (zsub 0 2 buf)) /\
    (r = None -> mem = buf) /\
    (forall e, r = Some e -> pe_pid e = s32 (of_le (zsub 4 4 buf)) /\ pe_tid e = s32 (of_le (zsub 8 4 buf)) /\
       pe_sec e = s32 (of_le (zsub 12 4 buf)) /\ pe_nsec e = s32 (of_le (zsub 16 4 buf))).
Proof.
  intros buf HB.
  assert (H0 : 0 <= hdr_len buf) by (apply of_le_bound, Forall_zsub, HB).
  assert (H1 : 0 <= hdr_size buf) by (apply of_le_bound, Forall_zsub, HB).
  destruct (raw_cases buf HB) as [(L & E & P)|(N & P)].
  - destruct (parse_at_good buf (hdr_size buf) (hdr_len buf) (hdr_sec buf) (hdr_nsec buf) (hdr_pid buf) (hdr_tid buf) H1 H0 ltac:(lia))
      as (pre & pay & post & pay' & e & Eb & L1 & L2 & Pa & G). rewrite Pa in P. cbn [bind] in P.
    do 2 eexists. split; [exact P|]. split; [split; [intros _; split; [exact L|exact E]|intros _; discriminate]|].
    split; [discriminate|]. intros e' Ee. injection Ee as <-.
    destruct G as (_ & G1 & G2 & G3 & G4 & _). cbn [shift_entry pe_pid pe_tid pe_sec pe_nsec]. auto.
  - exists buf, None. split; [exact P|]. split; [|split; [reflexivity|discriminate]].
    split; [congruence|]. intros X. exfalso. exact (N X).
Qed.

Example C25_ex : ulog_parse_raw ex_raw <> Ok (ex_raw, None) /\
  ulog_parse_raw (ex_raw ++ [0]) = Ok (ex_raw ++ [0], None) /\
  ulog_parse_raw (enc 1 (mkEntry (meta 7 7 100 5 0) [65; 0; 6; 0; 0; 0; 0; 66; 0])) = Ok (enc 1 (mkEntry (meta 7 7 100 5 0) [65; 0; 6; 0; 0; 0; 0; 66; 0]), None).
Proof. split; [vm_compute; discriminate|]. split; vm_compute; reflexivity. Qed.

Print Assumptions C19_payload_in_bounds.
Print Assumptions C19_in_bounds.
Print Assumptions C20_strings_terminated.
Print Assumptions C20_raw_strings_terminated.
Print Assumptions C21_text_read_back.
Print Assumptions C22_binary_read_back.
Print Assumptions C22_bin_writev_read_back.
Print Assumptions C23_raw_read_back.
Print Assumptions C23_no_forgery.
Print Assumptions C24_report_parses_partial.
Print Assumptions C24_count_refuted.
Print Assumptions C25_raw_consistent.
