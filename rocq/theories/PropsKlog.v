(** Properties C49, C50 and C68: kernel messages.

    Vocabulary: KlogSpec.v ([digits], [dec_val], [kescape], [bytes], [krecord], [kprefix], [ktime]). *)
From Coq Require Import ZArith String List Bool Lia ZifyBool ZifyNat Arith.
From Verif Require Import Bytes BytesProofs Parse Klog KlogSpec KlogProofs.
Import ListNotations.
Open Scope Z_scope.

(** ** C49 *)

(** A record of the kernel in the frame buffer, followed by its NUL and older bytes: it is decoded
    to priority, time and exactly the original bytes, followed by a NUL; nothing outside the
    record is written. *)
Theorem C49_bytes : forall W pr sq us flags text dict junk,
  W = 32 \/ W = 64 -> digits pr -> digits sq -> digits us -> ~ In 0 flags -> ~ In 59 flags -> bytes text ->
  dec_val pr < 2 ^ 31 -> dec_val us < 2 ^ 31 * 1000000 ->
  let rec := krecord pr sq us flags text dict in
  exists mem1 r mem2 off,
    klog_receive W (rec ++ 0 :: junk) = Ok (mem1, Some r) /\
    r_prio r = dec_val pr mod 8 /\ r_sec r = dec_val us / 1000000 /\ r_nsec r = dec_val us mod 1000000 * 1000 /\
    r_stamp r = dec_val us /\
    klog_parse mem1 (r_off r) = Ok (mem2, Some (off, zlen text + 1)) /\
    zsub off (zlen text + 1) mem2 = text ++ [0] /\
    zlen mem2 = zlen (rec ++ 0 :: junk) /\ zdrop (zlen rec) mem2 = 0 :: junk.
Proof.
  intros W pr sq us flags text dict junk HW Hp Hq Hu F0 F59 Ht Vp Vu rec.
  assert (V : 1 < W <= 64 /\ 2 ^ 31 <= 2 ^ (W - 1)) by (destruct HW as [-> | ->]; lia). destruct V as [V1 V2].
  assert (dec_val us / 1000000 < 2 ^ 31) by (apply Z.div_lt_upper_bound; lia).
  set (body := kescape text ++ 10 :: dict). set (A := pr ++ [0] ++ sq ++ [0] ++ us ++ [0] ++ flags ++ [59]).
  pose proof (klog_receive_ok W pr sq us flags body junk V1 Hp Hq Hu F0 F59 ltac:(lia) ltac:(lia) ltac:(lia) ltac:(lia)) as E1.
  cbv zeta in E1. fold A in E1.
  assert (EM : rec ++ 0 :: junk = pr ++ [44] ++ sq ++ [44] ++ us ++ [44] ++ flags ++ [59] ++ body ++ 0 :: junk).
  { subst rec body. unfold krecord. rewrite <- !app_assoc. reflexivity. }
  pose proof (kescape_printable text Ht) as HP. rewrite Forall_forall in HP.
  assert (N0 : ~ In 0 (kescape text)) by (intros X; apply HP in X; lia).
  assert (N10 : ~ In 10 (kescape text)) by (intros X; apply HP in X; lia).
  destruct (klog_parse_ok A (kescape text) (dict ++ 0 :: junk) N0 N10) as (G & E2 & L).
  rewrite unesc_kescape in E2, L by auto.
  eexists _, _, _, (zlen A). rewrite EM. split; [exact E1|]. cbn [r_prio r_sec r_nsec r_stamp r_off].
  do 4 (split; [reflexivity|]). split.
  { subst body. rewrite <- app_assoc. exact E2. }
  split.
  { unfold zsub. rewrite zdrop_app_exact by reflexivity.
    replace (text ++ 0 :: G ++ dict ++ 0 :: junk) with ((text ++ [0]) ++ G ++ dict ++ 0 :: junk) by (now rewrite <- app_assoc).
    apply ztake_app_exact. rewrite zlen_app. reflexivity. }
  assert (LA : zlen A = zlen pr + zlen sq + zlen us + zlen flags + 4).
  { subst A. rewrite !zlen_app. change (zlen [0]) with 1. change (zlen [59]) with 1. lia. }
  split.
  { subst body. rewrite !zlen_app, !zlen_cons, !zlen_app, !zlen_cons, LA. change (zlen (@nil Z)) with 0. lia. }
  replace (A ++ text ++ 0 :: G ++ dict ++ 0 :: junk) with ((A ++ text ++ 0 :: G ++ dict) ++ 0 :: junk).
  2: { rewrite <- !app_assoc. cbn [app]. now rewrite <- !app_assoc. }
  apply zdrop_app_exact. subst rec. unfold krecord. rewrite !zlen_app, !zlen_cons, !zlen_app, LA.
  change (zlen (@nil Z)) with 0. lia.
Qed.
(** As the renderer takes the message as a C string, texts without NUL are shown whole. *)
Theorem C49_shown_partial : forall mem off text, ~ In 0 text ->
  zsub off (zlen text + 1) mem = text ++ [0] -> str_at (zdrop off mem) = Ok text.
Proof.
  intros mem off text H0 H. unfold zsub in H. rewrite <- (ztake_zdrop (zlen text + 1) (zdrop off mem)), H.
  rewrite <- app_assoc. cbn [app]. unfold str_at. rewrite span_c_app; [reflexivity| |reflexivity].
  apply Forall_forall. intros x Hx. destruct (Z.eqb_spec x 0) as [->|]; [contradiction|reflexivity].
Qed.
(** A text with a NUL byte is shown only up to it. *)
Theorem C49_nul_refuted : exists mem1 r mem2 off len, let text := [65; 0; 66] in
  klog_receive 64 (krecord [54] [49] [53] [45] text [] ++ [0]) = Ok (mem1, Some r) /\
  klog_parse mem1 (r_off r) = Ok (mem2, Some (off, len)) /\ str_at (zdrop off mem2) = Ok [65].
Proof. do 5 eexists. cbv zeta. split; [vm_compute; reflexivity|]. split; vm_compute; reflexivity. Qed.
(** Whatever the record holds, up to its NUL: decoding the text stays inside the block, and writes
    only before that NUL. *)
Theorem C49_inside : forall A s R, ~ In 0 s ->
  exists mem r, klog_parse (A ++ s ++ 0 :: R) (zlen A - 1) = Ok (mem, r) /\
    zlen mem = zlen (A ++ s ++ 0 :: R) /\ ztake (zlen A) mem = A /\ zdrop (zlen (A ++ s)) mem = 0 :: R.
Proof.
  intros A s R H0. destruct (split_at 10 s) as [H|(a & b & -> & H)].
  - rewrite klog_parse_no_lf by auto. do 2 eexists. split; [reflexivity|]. split; [reflexivity|]. split.
    + now apply ztake_app_exact.
    + rewrite app_assoc. now apply zdrop_app_exact.
  - assert (Ha : ~ In 0 a) by (intros X; apply H0; apply in_or_app; now left).
    destruct (klog_parse_ok A a (b ++ 0 :: R) Ha H) as (G & E & L).
    replace (A ++ (a ++ 10 :: b) ++ 0 :: R) with (A ++ a ++ 10 :: b ++ 0 :: R) by (now rewrite <- !app_assoc).
    rewrite E. do 2 eexists. split; [reflexivity|]. split; [|split].
    + rewrite !zlen_app, !zlen_cons, !zlen_app, !zlen_cons. lia.
    + now apply ztake_app_exact.
    + replace (A ++ unesc a ++ 0 :: G ++ b ++ 0 :: R) with ((A ++ unesc a ++ 0 :: G ++ b) ++ 0 :: R).
      2: { rewrite <- !app_assoc. cbn [app]. now rewrite <- !app_assoc. }
      apply zdrop_app_exact. rewrite !zlen_app, !zlen_cons, !zlen_app. lia.
Qed.
Definition ex_text : list Z := bytes_of_string "caf" ++ [195; 169] ++ bytes_of_string " \x" ++ [10] ++ bytes_of_string "end".
Example C49_ex : digits [51; 48] /\ digits [49] /\ digits (bytes_of_string "5140900") /\
  ~ In 0 (bytes_of_string "-,caller=T1") /\ ~ In 59 (bytes_of_string "-,caller=T1") /\ bytes ex_text /\
  kescape ex_text = bytes_of_string "caf\xc3\xa9 \x5cx\x0aend" /\
  dec_val (bytes_of_string "5140900") = 5140900.
Proof.
  split; [split; [discriminate|cbn; repeat constructor; lia]|]. split; [split; [discriminate|cbn; repeat constructor; lia]|].
  split; [split; [discriminate|cbn; repeat constructor; lia]|].
  split; [cbn; intuition lia|]. split; [cbn; intuition lia|].
  split; [vm_compute; repeat constructor; discriminate|]. split; vm_compute; reflexivity.
Qed.
Print Assumptions C49_bytes.
Print Assumptions C49_shown_partial.
Print Assumptions C49_nul_refuted.
Print Assumptions C49_inside.

(** ** C50 *)

(** A line <P>[ sec.usec] text; it is followed in the record by the NUL counted in its length, and
    by other bytes. *)
Theorem C50_line : forall W e pr sp sec usec text junk,
  W = 32 \/ W = 64 -> digits pr -> Forall (fun c => c = 32) sp -> digits sec -> digits usec ->
  dec_val pr < 2 ^ W -> dec_val sec < 2 ^ (W - 1) -> dec_val usec < 1000000 ->
  let line := kprefix pr ++ ktime sp sec usec ++ text in
  k_msg e = line ++ 0 :: junk -> k_len e = zlen line + 1 ->
  kmsgd_fix_entry W e = Ok (mkK (dec_val pr mod 8) (dec_val sec) (dec_val usec * 1000) (text ++ 0 :: junk) (zlen text + 1)).
Proof.
  intros W e pr sp sec usec text junk HW Hp Hsp Hs Hu Vp Vs Vu line Hm Hl.
  assert (V : 1 < W /\ 2 ^ 31 <= 2 ^ (W - 1)) by (destruct HW as [-> | ->]; lia). destruct V as [V1 V2].
  unfold kmsgd_fix_entry. subst line.
  pose proof (zlen_nonneg pr). pose proof (zlen_nonneg text). pose proof (zlen_nonneg sec).
  assert (LK : 4 <= k_len e).
  { rewrite Hl. unfold kprefix, ktime. rewrite !zlen_app, !zlen_cons. pose proof (zlen_nonneg sp). pose proof (zlen_nonneg usec).
    change (zlen (@nil Z)) with 0. lia. }
  rewrite (parse_prefix_ok W pr (ktime sp sec usec ++ text ++ 0 :: junk)); auto; [|lia|rewrite Hm; now rewrite <- !app_assoc].
  cbn [bind]. rewrite (parse_timestamp_ok W sp sec usec (text ++ 0 :: junk)); auto; [|lia].
  cbn [k_prio k_len]. do 2 f_equal. rewrite Hl, !zlen_app. lia.
Qed.
(** Where long has 32 bits, a time from 2147483648 s on is shown as negative. *)
Theorem C50_late_refuted : exists e, k_msg e = kprefix [54] ++ ktime [] (bytes_of_string "2147483648") (bytes_of_string "000001") ++ [65; 0] /\ k_len e = zlen (k_msg e) /\ kmsgd_fix_entry 32 e = Ok (mkK 6 (-2147483648) 1000 [65; 0] 2).
Proof.
  exists (mkK 0 0 0 (kprefix [54] ++ ktime [] (bytes_of_string "2147483648") (bytes_of_string "000001") ++ [65; 0])
    (zlen (kprefix [54] ++ ktime [] (bytes_of_string "2147483648") (bytes_of_string "000001") ++ [65; 0]))).
  split; [reflexivity|]. split; [reflexivity|]. vm_compute. reflexivity.
Qed.
Print Assumptions C50_late_refuted.
(** A line <P>text without a time: time zero. *)
Theorem C50_untimed : forall W e pr text junk,
  W = 32 \/ W = 64 -> digits pr -> dec_val pr < 2 ^ W -> text <> [] -> hd 0 text <> 91 ->
  k_msg e = kprefix pr ++ text ++ 0 :: junk -> k_len e = zlen (kprefix pr ++ text) + 1 ->
  kmsgd_fix_entry W e = Ok (mkK (dec_val pr mod 8) 0 0 (text ++ 0 :: junk) (zlen text + 1)).
Proof.
  intros W e pr text junk HW Hp Vp Ht Hh Hm Hl. unfold kmsgd_fix_entry.
  rewrite (parse_prefix_ok W pr (text ++ 0 :: junk)); auto.
  - cbn [bind]. destruct text as [|c text]; [congruence|]. cbn in Hh.
    rewrite (parse_timestamp_none W _ c (text ++ 0 :: junk)); [|reflexivity|exact Hh]. cbn [k_prio k_msg k_len].
    do 2 f_equal. rewrite Hl, zlen_app. lia.
  - destruct HW; lia.
  - rewrite Hl. destruct Hp as [Hn _]. destruct pr; [congruence|]. unfold kprefix. destruct text as [|t text]; [congruence|]. rewrite !zlen_app, !zlen_cons.
    pose proof (zlen_nonneg pr). pose proof (zlen_nonneg text). change (zlen (@nil Z)) with 0. lia.
Qed.
(** A line that starts with neither < nor [ is unchanged, with its priority; time zero. *)
Theorem C50_plain : forall W e c r, k_msg e = c :: r -> c <> 60 -> c <> 91 ->
  kmsgd_fix_entry W e = Ok (mkK (k_prio e) 0 0 (k_msg e) (k_len e)).
Proof.
  intros W e c r E H1 H2. unfold kmsgd_fix_entry. rewrite (parse_prefix_none W e c r E H1). cbn [bind].
  apply (parse_timestamp_none W e c r E H2).
Qed.
(** Every line, however malformed: no byte after its NUL is read, and what is shown is an end of the
    line; what is taken off, if anything, starts with < or [. *)
Theorem C50_inside : forall W e s junk, k_msg e = s ++ 0 :: junk -> k_len e = zlen s + 1 ->
  exists u v s' p a b, kmsgd_fix_entry W e = Ok (mkK p a b (s' ++ 0 :: junk) (zlen s' + 1)) /\ s = u ++ v ++ s' /\
    (u = [] \/ exists x, u = 60 :: x) /\ ((v = [] /\ a = 0 /\ b = 0) \/ exists x, v = 91 :: x).
Proof.
  intros W e s junk Hm Hl. unfold kmsgd_fix_entry.
  destruct (parse_prefix_safe W e s junk Hm Hl) as (u & s1 & p & E1 & -> & Hu & _). rewrite E1. cbn [bind].
  destruct (parse_timestamp_safe W (mkK p (k_sec e) (k_nsec e) (s1 ++ 0 :: junk) (zlen s1 + 1)) s1 junk eq_refl eq_refl)
    as (v & s2 & a & b & E2 & -> & Hv).
  exists u, v, s2, p, a, b. cbn [k_prio] in E2. auto.
Qed.
Definition kline (s : string) : kent := mkK 5 1 2 (bytes_of_string s ++ [0]) (zlen (bytes_of_string s) + 1).
Example C50_ex : digits [49; 52] /\ digits [49; 50] /\ digits (bytes_of_string "345678") /\
  kmsgd_fix_entry 32 (kline "<14>[   12.345678] usb 1-1: new device") =
    Ok (mkK 6 12 345678000 (bytes_of_string "usb 1-1: new device" ++ [0]) 20) /\
  kmsgd_fix_entry 32 (kline "<3>oops") = Ok (mkK 3 0 0 (bytes_of_string "oops" ++ [0]) 5) /\
  kmsgd_fix_entry 32 (kline "no prefix") = Ok (mkK 5 0 0 (bytes_of_string "no prefix" ++ [0]) 10).
Proof.
  split; [split; [discriminate|cbn; repeat constructor; lia]|]. split; [split; [discriminate|cbn; repeat constructor; lia]|].
  split; [split; [discriminate|cbn; repeat constructor; lia]|]. repeat split; vm_compute; reflexivity.
Qed.
(** Lines without a valid prefix are not all shown unchanged: "<a>", "<>" and "<-3>" are taken off (with
    priorities 6, 0 and 5), and "<3 volts" keeps its text but gets priority 3. *)
Theorem C50_malformed_refuted :
  kmsgd_fix_entry 64 (kline "<a>bold") = Ok (mkK 6 0 0 (bytes_of_string "bold" ++ [0]) 5) /\
  kmsgd_fix_entry 64 (kline "<>empty") = Ok (mkK 0 0 0 (bytes_of_string "empty" ++ [0]) 6) /\
  kmsgd_fix_entry 64 (kline "<-3>neg") = Ok (mkK 5 0 0 (bytes_of_string "neg" ++ [0]) 4) /\
  exists e, k_msg e = bytes_of_string "<3 volts" ++ [0] /\ k_prio e = 5 /\
    kmsgd_fix_entry 64 e = Ok (mkK 3 0 0 (k_msg e) (k_len e)).
Proof. do 3 (split; [vm_compute; reflexivity|]). exists (kline "<3 volts"). split; [reflexivity|]. split; vm_compute; reflexivity. Qed.
Print Assumptions C50_line.
Print Assumptions C50_untimed.
Print Assumptions C50_plain.
Print Assumptions C50_inside.
Print Assumptions C50_malformed_refuted.

(** ** C68 *)

(** A binary record of exactly the 200 bytes of a frame buffer (ulogcat/libulogcat_private.h:82),
    read from the kmsgd device in CSV mode: it parses as a binary entry, and decoding it as a
    kernel line reads past the buffer. *)
Definition bin_record : list Z :=
  le 2 176 ++ le 2 24 ++ le 4 7 ++ le 4 7 ++ le 4 1 ++ le 4 0 ++ le 4 0 ++
  [112; 0; 134; 0; 0; 0; 116; 0] ++ [60] ++ zrepeat 49 167.
Theorem C68_binary_refuted : exists e off,
  zlen bin_record = 200 /\ ulog_parse_buf bin_record = Ok (bin_record, e) /\ pe_bin e = true /\
  pe_msg e = InBuf off /\ off + pe_len e = 200 /\
  forall W, kmsgd_fix_entry W (mkK (pe_prio e) (pe_sec e) (pe_nsec e) (zdrop off bin_record) (pe_len e)) = Bug Oob.
Proof.
  do 2 eexists. split; [vm_compute; reflexivity|]. split; [vm_compute; reflexivity|]. split; [reflexivity|].
  split; [reflexivity|]. split; [reflexivity|].
  intros W. vm_compute. reflexivity.
Qed.
(** A shorter one is shown with the older bytes of the frame buffer behind it. *)
Theorem C68_stale_refuted : exists e old, k_msg e = bytes_of_string "bin" ++ old ++ [0] /\ k_len e = 3 /\ old = bytes_of_string "older entry" /\
  exists e', kmsgd_fix_entry 64 e = Ok e' /\ str_at (k_msg e') = Ok (bytes_of_string "binolder entry").
Proof.
  exists (mkK 6 0 0 (bytes_of_string "bin" ++ bytes_of_string "older entry" ++ [0]) 3). eexists.
  split; [reflexivity|]. split; [reflexivity|]. split; [reflexivity|]. eexists. split; vm_compute; reflexivity.
Qed.
(** For a text entry, which ulog_parse_buf ends with a NUL inside the record: decoding succeeds even
    when the block ends with that NUL, so nothing behind it is read. *)
Theorem C68_text_partial : forall W e s, k_msg e = s ++ [0] -> k_len e = zlen s + 1 ->
  exists e', kmsgd_fix_entry W e = Ok e' /\ exists u s', s = u ++ s' /\ k_msg e' = s' ++ [0] /\ k_len e' = zlen s' + 1.
Proof.
  intros W e s Hm Hl. destruct (C50_inside W e s [] Hm Hl) as (u & v & s' & p & a & b & E & -> & _).
  eexists. split; [exact E|]. exists (u ++ v), s'. cbn. now rewrite app_assoc.
Qed.
Example C68_ex : let e := kline "<6>[" in k_msg e = bytes_of_string "<6>[" ++ [0] /\ k_len e = zlen (bytes_of_string "<6>[") + 1.
Proof. split; reflexivity. Qed.
Print Assumptions C68_text_partial.
Print Assumptions C68_binary_refuted.
Print Assumptions C68_stale_refuted.
