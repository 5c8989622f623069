(** C142: a program that reads the CSV output of ulogcat gets back what programs logged. Vocabulary: CsvSpec.v
    ([read_csv], [thinned], [plain]), SaidSpec.v, LiveSpec.v. *)
From Coq Require Import ZArith String List Bool Lia ZifyBool ZifyNat Arith.
From Verif Require Import Bytes BytesProofs Ring RingSpec RingRefine RingHistory Parse ParseSpec Iov Cat CatSpec Render RenderSpec RenderProofs
  Live LiveSpec LiveText SaidSpec PropsRender PropsLive PropsSaid CsvSpec.
From Verif Require PropsProgram.
Import ListNotations.
Open Scope Z_scope.

Lemma until_app c a r : ~ In c a -> until c (a ++ c :: r) = Some (a, r).
Proof.
  induction a as [|x a IH]; intros H; cbn [until app]; [now rewrite Z.eqb_refl|].
  destruct (Z.eqb_spec x c) as [E|E]; [exfalso; apply H; now left|]. rewrite IH; [reflexivity|]. intros X. apply H. now right.
Qed.
Lemma fields_app fs r : Forall (fun f => ~ In 44 f) fs -> fields (length fs) (comma fs ++ r) = Some (fs, r).
Proof.
  induction 1 as [|f fs H F IH]; [reflexivity|]. cbn [length fields]. unfold comma. cbn [map concat]. rewrite <- !app_assoc. cbn [app].
  rewrite until_app by auto. fold (comma fs). now rewrite IH.
Qed.
Lemma signed_mod v : RenderSpec.int32 v -> signed (v mod 2 ^ 32) = v.
Proof.
  unfold RenderSpec.int32, signed. intros H. pose proof (Z.div_mod v (2 ^ 32)). pose proof (Z.mod_pos_bound v (2 ^ 32)).
  destruct (Z.ltb_spec (v mod 2 ^ 32) (2 ^ 31)); lia.
Qed.
Lemma record_line e r : entry_ok e -> no_comma e -> record (csv_line e ++ r) = Some (e, r).
Proof.
  intros He (N1 & N2 & N3). unfold record, csv_line, csv_prefix. rewrite <- app_assoc.
  set (fs := [hex0x 8 (u_sec e); _; _; _; _; _; _; _; _; _; _]).
  change 11%nat with (length fs). rewrite fields_app.
  2: { unfold fs. repeat (apply Forall_cons || apply Forall_nil); auto using hex0x_no44, dec_d_no44. }
  unfold fs. destruct He. unfold RenderSpec.int32 in *. pose proof (zlen_nonneg (u_msg e)).
  rewrite !hex0x_value. rewrite !dec_d_value by (try lia; unfold csv_len; destruct (u_bin e); lia).
  rewrite <- app_assoc. pose proof (zlen_payload e) as P.
  assert (L : Z.to_nat (csv_len e) = length (csv_payload e)) by (unfold zlen in P; lia).
  rewrite L, skipn_app, skipn_all, Nat.sub_diag, firstn_app, firstn_all, Nat.sub_diag. cbn [skipn firstn app]. rewrite app_nil_r.
  rewrite !signed_mod by (unfold RenderSpec.int32; lia). rewrite (Z.mod_small (u_color e)) by auto.
  do 2 f_equal. unfold csv_payload. destruct e as [a1 a2 a3 a4 a5 a6 a7 a8 a9 [|] a11]; cbn in *; f_equal.
  now apply unhex_payload.
Qed.
Lemma banner_line path b : ~ In 10 path -> render_banner path = Ok (Some (map Some b)) ->
  exists r, b = 45 :: r ++ [10] /\ ~ In 10 r.
Proof.
  intros HP. unfold render_banner.
  assert (HB : zlen (banner_text path) <= 5000).
  { unfold banner_text, local_str. rewrite !zlen_app, zlen_ztake, zlen_cons. change (zlen (@nil Z)) with 0.
    change (zlen (bytes_of_string "---------------------------------------")) with 39. lia. }
  destruct (snprintf_after [] fresh (banner_text path) (zlen_nonneg _)) as (r & R & Hr).
  cbn [map app] in R. change (zlen (@nil Z)) with 0 in R. rewrite zlen_fresh in R, Hr. rewrite R. cbn [bind].
  unfold cut in *. unfold text_render_size in *.
  destruct (Z.leb_spec (5 * 1024 + 128) 0); [lia|].
  destruct (Z.ltb_spec (zlen (banner_text path)) (5 * 1024 + 128)); [|lia].
  pose proof (zlen_nonneg (banner_text path)). pose proof (zlen_nonneg r).
  unfold handed. destruct (Z.ltb_spec (zlen (banner_text path)) 0); [lia|].
  destruct (Z.ltb_spec (zlen (map Some (banner_text path) ++ r)) (zlen (banner_text path))) as [X|X];
    [rewrite zlen_app, zlen_map in X; lia|].
  cbn [orb]. rewrite ztake_app_exact by (now rewrite zlen_map). intros E.
  assert (M : map (@Some Z) (banner_text path) = map Some b) by congruence.
  assert (EQ : banner_text path = b).
  { clear - M. revert M. generalize (banner_text path). revert b. induction b as [|y b IH]; intros [|x l] M; try discriminate; auto.
    cbn in M. injection M as -> M. f_equal. now apply IH. }
  rewrite <- EQ. unfold banner_text.
  change (bytes_of_string "---------------------------------------") with (45 :: bytes_of_string "--------------------------------------").
  cbn [app]. eexists. split; [rewrite app_assoc; reflexivity|].
  clear - HP. intros X. apply in_app_or in X. destruct X as [X|X].
  - revert X. vm_compute. intuition discriminate.
  - unfold local_str, ztake in X. apply In_nth_error in X. destruct X as (n & X).
    assert (Y : In 10 (bytes_of_string "------------- beginning of " ++ path)).
    { eapply nth_error_In with (n := n). rewrite <- (firstn_skipn (Z.to_nat (128 - 1)) (_ ++ path)).
      rewrite nth_error_app1; [exact X|]. apply nth_error_Some. intros Z0. rewrite Z0 in X. discriminate X. }
    apply in_app_or in Y. destruct Y as [Y|Y]; [|auto]. revert Y. vm_compute. intuition discriminate.
Qed.
Lemma csv_head e : exists r, csv_line e = 48 :: r.
Proof. unfold csv_line, csv_prefix, comma, hex0x. cbn [map concat app]. eauto. Qed.
Lemma map_some_inj (a b : list Z) : map Some a = map Some b -> a = b.
Proof. revert b. induction a as [|x a IH]; intros [|y b] M; try discriminate; auto. cbn in M. injection M as -> M. f_equal. now apply IH. Qed.

(** An entry is left out only if it is a large binary one. *)
Definition spare (u : uentry) : Prop := u_bin u = true /\ 1000 < zlen (u_msg u).
Lemma reads_text o paths many : o_fmt o = FCsv -> Forall (fun p => ~ In 10 p) paths -> forall seen l text, text_of o paths many seen l text ->
  Forall (fun x => entry_ok (snd x) /\ no_comma (snd x) /\ (zlen (csv_line (snd x)) <= 5248 \/ spare (snd x))) l ->
  forall fuel, (length text <= fuel)%nat -> exists got, reads fuel text = Some got /\ thinned (map snd l) got.
Proof.
  intros F HP seen l text H. induction H as [seen|seen d u r banner line rest HB HL H IH]; intros FA fuel LE.
  - exists []. split; [destruct fuel; reflexivity|constructor].
  - inversion FA as [|? ? (He & Hn & Hs) FA']; subst. cbn [snd] in *.
    assert (B : exists f, (length (line ++ rest) <= f)%nat /\ reads fuel (banner ++ line ++ rest) = reads f (line ++ rest)).
    { destruct (many && _).
      - apply banner_line in HB.
        + destruct HB as (b & -> & Hb). cbn [app] in *. rewrite <- app_assoc in *. cbn [app length] in LE.
          destruct fuel as [|f]; [lia|]. exists f. split; [rewrite !app_length in *; cbn [length] in LE; rewrite app_length in LE; lia|].
          cbn [reads app]. change (45 :: b ++ 10 :: line ++ rest) with ((45 :: b) ++ 10 :: line ++ rest).
          rewrite until_app; [reflexivity|]. intros [X|X]; [discriminate X|auto].
        + rewrite Forall_forall in HP. destruct (Nat.lt_ge_cases d (length paths)) as [Q|Q]; [apply HP, nth_In; exact Q|].
          rewrite nth_overflow by exact Q. intros [].
      - subst banner. exists fuel. cbn [app] in *. split; [exact LE|reflexivity]. }
    destruct B as (f & LF & ->). clear LE HB.
    rewrite (text_render_csv false o u F) in HL. unfold text_render_size in HL.
    destruct (Z.leb_spec (zlen (csv_line u)) (5 * 1024 + 128)) as [Y|Y].
    + assert (line = csv_line u) as -> by (destruct HL as [HL|[HL _]]; [apply map_some_inj; congruence|discriminate HL]).
      destruct (csv_head u) as (t & Et). pose proof (record_line u rest He Hn) as R. rewrite Et in *. cbn [app] in *.
      destruct f as [|f]; [cbn in LF; lia|]. destruct (IH FA' f) as (got & G & T).
      { cbn in LF. rewrite app_length in LF. lia. }
      exists (u :: got). cbn [reads]. rewrite R, G. split; [reflexivity|]. cbn [map snd]. now constructor.
    + destruct HL as [HL|[_ ->]]; [discriminate HL|]. cbn [app] in *. destruct (IH FA' f LF) as (got & G & T).
      exists got. split; [exact G|]. cbn [map snd]. destruct Hs as [Hs|[S1 S2]]; [lia|]. now constructor.
Qed.

Lemma told_sayable ops outs l : told ops outs l -> Forall sayable l.
Proof. induction 1; auto. apply Forall_app. auto. Qed.
Lemma zlen_comm16 c : 0 <= zlen (comm_str c) <= 16.
Proof. pose proof (zlen_nonneg (comm_str c)). pose proof (RingRefine.zlen_comm c). lia. Qed.
Lemma bytes_take (P : Z -> Prop) n l : Forall P l -> Forall P (ztake n l).
Proof. unfold ztake. intros H. rewrite <- (firstn_skipn (Z.to_nat n) l) in H. now apply Forall_app in H. Qed.
Definition good (u : uentry) : Prop := entry_ok u /\ no_comma u /\ (zlen (csv_line u) <= 5248 \/ spare u).
Lemma good_line u : entry_ok u -> no_comma u ->
  (zlen (u_tag u) + zlen (u_pname u) + zlen (u_tname u) + csv_len u <= 5171 \/ spare u) -> good u.
Proof.
  intros H N L. split; [exact H|]. split; [exact N|]. destruct L as [L|L]; [left|now right].
  pose proof (csv_line_len u H). lia.
Qed.
Lemma good_shown m : sayable m -> plain m -> good (shown m).
Proof.
  intros (T & M & P & I1 & I2 & I3 & I4 & L) (C1 & C2 & C3 & B).
  assert (NL : zlen (comm_str (t_pcomm (s_task m))) + 1 + (if t_tgid (s_task m) =? t_pid (s_task m) then 0 else zlen (comm_str (t_tcomm (s_task m))) + 1) =
               zlen (names (s_task m))).
  { unfold names. rewrite !zlen_app. change (zlen [0]) with 1. destruct (_ =? _); rewrite ?zlen_app; change (zlen [0]) with 1; change (zlen (@nil Z)) with 0; lia. }
  pose proof (zlen_comm16 (t_pcomm (s_task m))). pose proof (zlen_comm16 (t_tcomm (s_task m))).
  assert (FL : 0 <= zlen (fitting m) /\ zlen (names (s_task m)) + 5 + zlen (s_tag m) + zlen (fitting m) <= 4076).
  { unfold fitting. rewrite zlen_ztake. pose proof (zlen_nonneg (s_msg m)). destruct (binary_of (s_prio m)); lia. }
  pose proof (zlen_nonneg (s_tag m)).
  unfold ParseSpec.int32, ParseSpec.uint32 in *.
  apply good_line.
  - split; unfold RenderSpec.int32; cbn [shown u_sec u_nsec u_prio u_pid u_tid u_color u_msg]; auto.
    + unfold level_of. apply Z.mod_pos_bound. lia.
    + unfold color_of. split; [apply Z.div_pos; lia|]. apply Z.div_lt_upper_bound; lia.
    + unfold fitting. now apply bytes_take.
    + pose proof (zlen_nonneg (names (s_task m))) as NN. clear - FL NN H1. change (2 ^ 31) with 2147483648. lia.
  - unfold no_comma. cbn [shown u_tag u_pname u_tname]. destruct (_ =? _); auto.
  - cbn [shown u_tag u_pname u_tname]. unfold spare, csv_len. cbn [shown u_bin u_msg].
    destruct (binary_of (s_prio m)); [destruct (Z.le_gt_cases (zlen (fitting m)) 1000); [left|now right; split; [|lia]]|left];
      destruct (t_tgid (s_task m) =? t_pid (s_task m)); lia.
Qed.
Lemma good_warning nm n next u : zlen nm <= 1000 -> ~ In 44 nm -> sayable next -> n < 2 ^ 31 -> warning nm n next u -> good u.
Proof.
  intros L N (_ & _ & _ & _ & _ & I3 & I4 & _) HN (text & -> & W). destruct (W HN) as (digits & -> & F & V & Z0).
  pose proof (PropsProgram.digits_short digits n F V Z0 HN) as D. pose proof (zlen_nonneg digits). pose proof (zlen_nonneg nm).
  assert (ZL : zlen (digits ++ bytes_of_string " log entries dropped" ++ [10]) = zlen digits + 21) by (rewrite zlen_app; reflexivity).
  unfold ParseSpec.int32 in *. apply good_line.
  - split; unfold RenderSpec.int32; cbn [u_sec u_nsec u_prio u_pid u_tid u_color u_msg]; try lia.
    apply Forall_app. split; [eapply Forall_impl; [|exact F]; intros; cbv beta in *; lia|].
    apply Forall_forall. intros c Hc. revert Hc. vm_compute. intuition subst; (discriminate || auto).
  - unfold no_comma. cbn [u_tag u_pname u_tname]. auto.
  - left. unfold csv_len. cbn [u_tag u_pname u_tname u_bin u_msg]. change (zlen (@nil Z)) with 0. lia.
Qed.
Lemma good_all uid g l us : zlen (g_nm g) <= 1000 -> ~ In 44 (g_nm g) -> Forall sayable l -> Forall plain l -> zlen l < 2 ^ 31 ->
  remembers uid g l us -> Forall good us.
Proof.
  intros L N S P HL (lost & kept & -> & _ & H). cbv zeta in H. apply Forall_app in S, P. destruct S as [_ S], P as [_ P].
  set (mine := if g_all g then kept else _) in H.
  assert (M : Forall (fun m => sayable m /\ plain m) mine).
  { rewrite Forall_forall in *. intros m Hm. assert (In m kept); [|split; auto]. subst mine. destruct (g_all g); [auto|]. now apply filter_In in Hm. }
  clearbody mine. assert (G : Forall good (map shown mine)).
  { rewrite Forall_map. eapply Forall_impl; [|exact M]. intros m [A B]. now apply good_shown. }
  destruct mine as [|next mine]; [subst; constructor|]. destruct H as [[_ ->]|(_ & r & W & ->)]; [exact G|].
  constructor; [|exact G]. inversion M as [|? ? [A _] _]; subst. eapply good_warning; [exact L|exact N|exact A| |exact W].
  rewrite zlen_app in HL. pose proof (zlen_nonneg kept). lia.
Qed.
Lemma merged_good us q csv : Forall (Forall good) us -> merged csv us q -> Forall (fun x => good (snd x)) q.
Proof.
  intros H [_ D]. apply Forall_forall. intros [d u] X. cbn [snd].
  assert (Y : In u (filter (wanted csv) (nth d us []))).
  { rewrite <- D. change u with (snd (d, u)). apply in_map, filter_In. split; [exact X|]. apply Nat.eqb_refl. }
  apply filter_In in Y. destruct Y as [Y _]. destruct (Nat.lt_ge_cases d (length us)) as [L|L].
  - rewrite Forall_forall in H. specialize (H _ (nth_In us [] L)). rewrite Forall_forall in H. auto.
  - rewrite nth_overflow in Y by exact L. destruct Y.
Qed.

(** Programs log through the library to any number of devices, with reads, flushes and refused calls in between; then
    the devices are dumped in CSV (ulogcat -d -v csv). A program that takes the output apart by the lengths announced in
    it gets back exactly the messages that the devices hold, with sender, time, level, colour, tag and text, after the
    warnings about lost ones, whatever line feeds and commas are in the texts; only binary messages of more than 1000
    bytes can be missing. The names of devices, tags, processes and threads must not hold a comma. *)
Theorem C142_csv_partial : forall o paths uid gs ls, o_fmt o = FCsv -> Forall (fun p => ~ In 10 p) paths ->
  Forall (started uid) gs -> Forall2 was_told gs ls ->
  Forall (fun g => c_string (g_nm g) /\ ~ In 44 (g_nm g)) gs -> Forall in_time ls ->
  Forall (fun l => Forall plain l /\ zlen l < 2 ^ 31) ls ->
  exists us, Forall2 (fun gl u => remembers uid (fst gl) (snd gl) u) (combine gs ls) us /\
  exists q, merged true us q /\
    forall fuel, (2 * count us < fuel)%nat -> forall N, 0 <= N ->
      exists ns' c' text got, process_logs fuel (live_env true uid) true 0 (map g_node gs) (open_ctx N (map g_mark gs)) 0
                       = Ok (Some (ns', c', 0)) /\
        output o paths (c_out c') = Ok (map Some text) /\ read_csv text = Some got /\
        thinned (map snd (if N =? 0 then q else lastn (Z.to_nat N) q)) got.
Proof.
  intros o paths uid gs ls F HP HS HT HN HI HL.
  destruct (C105_end_to_end true uid gs ls HS HT) as (us & R & q & M & D); [|exact HI|].
  { eapply Forall_impl; [|exact HN]. intros g [X _]. exact X. }
  assert (G : Forall (Forall good) us).
  { clear - HS HT HN HL R. revert us R HS HN HL. induction HT as [|g l gs ls T HT IH]; intros us R HS HN HL; cbn [combine] in R;
      inversion R as [|? u ? us' R1 R2]; subst; constructor.
    - destruct (Forall_inv HN) as [_ N]. destruct (Forall_inv HL) as [P Z0]. destruct (Forall_inv HS) as (I & _ & _).
      destruct T as (d & outs & _ & T). eapply good_all; [|exact N|eapply told_sayable, T|exact P|exact Z0|exact R1].
      destruct I. lia.
    - apply IH; auto; eapply Forall_inv_tail; eassumption. }
  pose proof (merged_good us q true G M) as GQ.
  exists us. split; [exact R|]. exists q. split; [exact M|]. intros fuel HF N HN0.
  destruct (D fuel HF N HN0) as (ns' & c' & E & Q). destruct (C103_text o paths true uid N (map g_mark gs) fuel true 0 _ _ _ _ HN0 E) as (text & O & T).
  rewrite Q in T. destruct (reads_text o paths _ F HP _ _ _ T) with (fuel := length text) as (got & G1 & G2); [|lia|].
  - assert (Forall (fun x => good (snd x)) (if N =? 0 then q else lastn (Z.to_nat N) q)) as X.
    { destruct (N =? 0); [exact GQ|]. unfold lastn. rewrite <- (firstn_skipn (length q - Z.to_nat N) q) in GQ. apply Forall_app in GQ. apply GQ. }
    exact X.
  - exists ns', c', text, got. auto.
Qed.
(** The devices of C105_ex. *)
Example C142_ex : o_fmt ex_csv = FCsv /\ Forall (fun p => ~ In 10 p) [bytes_of_string "/dev/ulog_main"] /\
  Forall (started 0) [ex_g1; ex_g2] /\ Forall2 was_told [ex_g1; ex_g2] [[ex_m1; ex_m3]; [ex_m2]] /\
  Forall (fun g => c_string (g_nm g) /\ ~ In 44 (g_nm g)) [ex_g1; ex_g2] /\ Forall in_time [[ex_m1; ex_m3]; [ex_m2]] /\
  Forall (fun l => Forall plain l /\ zlen l < 2 ^ 31) [[ex_m1; ex_m3]; [ex_m2]].
Proof.
  destruct C105_ex as (A & B & C & D). destruct ex_g1_ok as (_ & _ & N1). destruct ex_g2_ok as (_ & _ & N2).
  assert (K1 : ~ In 44 (bytes_of_string "ulog_main")) by (vm_compute; intuition discriminate).
  assert (K2 : ~ In 44 (bytes_of_string "ulog_app")) by (vm_compute; intuition discriminate).
  rewrite <- N1 in K1. rewrite <- N2 in K2. clear N1 N2.
  revert A B C K1 K2. generalize ex_g1 ex_g2. intros g1 g2 A B C K1 K2.
  split; [reflexivity|]. split; [constructor; [vm_compute; intuition discriminate|constructor]|].
  split; [exact A|]. split; [exact B|]. split; [|split; [exact D|]].
  - inversion C as [|? ? C1 C2]; subst. inversion C2 as [|? ? C3 _]; subst.
    constructor; [|constructor; [|constructor]]; split; auto.
  - assert (P : forall m, In m [ex_m1; ex_m2; ex_m3] -> plain m).
    { intros m H. repeat destruct H as [<-|H]; try contradiction; repeat split; try (vm_compute; intuition discriminate);
        cbn; repeat constructor; discriminate. }
    constructor; [|constructor; [|constructor]]; split; try reflexivity; repeat (apply Forall_cons || apply Forall_nil); apply P; cbn; tauto.
Qed.
(** Read line by line, the output cannot be trusted: what one program logs as text can hold a whole line that is
    exactly the record of a message of another program. *)
Definition ex_init : said := mkSaid (mkTask 1 1 (bytes_of_string "init") (bytes_of_string "init") 0) 9 0 3 (bytes_of_string "sys") (bytes_of_string "halt").
Definition ex_evil : said := mkSaid (mkTask 66 66 (bytes_of_string "evil") (bytes_of_string "evil") 1000) 8 0 6 (bytes_of_string "x")
  (10 :: bytes_of_string "0x00000009,0x00000000,3,0x000000,0,sys,init,1,init,1,4,halt").
Theorem C142_lines_refuted : exists m other before line, sayable m /\ sayable other /\ plain m /\ plain other /\
  t_euid (s_task m) <> t_euid (s_task other) /\ t_tgid (s_task m) <> t_tgid (s_task other) /\ s_prio m <> s_prio other /\
  text_render false ex_csv (shown other) = Ok (Some (map Some line)) /\ (exists l, line = l ++ [10] /\ ~ In 10 l) /\
  text_render false ex_csv (shown m) = Ok (Some (map Some (before ++ [10] ++ line))).
Proof.
  exists ex_evil, ex_init, (csv_prefix (shown ex_evil)), (csv_line (shown ex_init)).
  assert (S : forall m, In m [ex_evil; ex_init] -> sayable m).
  { intros m H. repeat destruct H as [<-|H]; try contradiction; unfold sayable, c_string, ParseSpec.uint32, ParseSpec.int32; cbn;
      repeat split; try lia; try discriminate; intuition discriminate. }
  assert (P : forall m, In m [ex_evil; ex_init] -> plain m).
  { intros m H. repeat destruct H as [<-|H]; try contradiction; repeat split; try (vm_compute; intuition discriminate);
      cbn; repeat constructor; discriminate. }
  split; [apply S; cbn; auto|]. split; [apply S; cbn; auto|]. split; [apply P; cbn; auto|]. split; [apply P; cbn; auto|].
  split; [discriminate|]. split; [discriminate|]. split; [discriminate|].
  split; [|split].
  - rewrite text_render_csv by reflexivity.
    destruct (Z.leb_spec (zlen (csv_line (shown ex_init))) text_render_size) as [X|X]; [reflexivity|]. exfalso. revert X. apply Z.le_ngt. vm_compute. discriminate.
  - exists (csv_prefix (shown ex_init) ++ csv_payload (shown ex_init)). split; [unfold csv_line; now rewrite app_assoc|]. vm_compute. intuition discriminate.
  - rewrite text_render_csv by reflexivity.
    destruct (Z.leb_spec (zlen (csv_line (shown ex_evil))) text_render_size) as [X|X]; [|exfalso; revert X; apply Z.le_ngt; vm_compute; discriminate].
    match goal with |- Ok (Some (map Some ?a)) = Ok (Some (map Some ?b)) => assert (a = b) as ->; [vm_compute; reflexivity|reflexivity] end.
Qed.
Print Assumptions C142_csv_partial.
Print Assumptions C142_lines_refuted.
