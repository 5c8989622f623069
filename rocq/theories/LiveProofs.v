(** Lemmas about dumps of driver devices (C102 to C104). *)
From Coq Require Import ZArith String List Bool Permutation Sorted Lia ZifyBool ZifyNat Arith.
From Verif Require Import Bytes BytesProofs Ring RingSpec RingHistory RingProofs RingRefine RingInv RingObs RingLemmas RingLemmas2 RingLemmas3
  Parse ParseSpec ParseProofs Cat CatSpec CatProofs CatMerge Render Live LiveSpec.
Import ListNotations.
Open Scope Z_scope.

(** ** Two environments that answer alike *)
Lemma read_sim {W S} (e1 : env W) (e2 : env S) (Rel : W -> S -> Prop) (av : S -> nat -> Prop) fds rev :
  (forall w s j, Rel w s -> av s j -> exists w' s' x, e_recv e1 w j = (w', x) /\ e_recv e2 s j = (s', x) /\
     Rel w' s' /\ forall k, k <> j -> av s k -> av s' k) ->
  forall k i w s c fr, Rel w s -> (forall j, (i <= j)%nat -> nth j rev false = true -> av s j) ->
  exists w' s' c' x, read_devices e1 k i fds rev w c fr = (w', c', x) /\
    read_devices e2 k i fds rev s c fr = (s', c', x) /\ Rel w' s'.
Proof.
  intros HR. induction k as [|k IH]; intros i w s c fr R0 Hav; cbn [read_devices].
  { eauto 8. }
  destruct (nth i rev false) eqn:Er; cbn [negb].
  2:{ apply IH; auto. intros j Hj. apply Hav. lia. }
  destruct (alloc_frame c) as [[f c1]|].
  2:{ apply IH; auto. intros j Hj. apply Hav. lia. }
  destruct (HR w s i R0 (Hav i (le_n _) Er)) as (w' & s' & x & E1 & E2 & R1 & Hk). rewrite E1, E2.
  destruct x; eauto 8. apply IH; auto. intros j Hj Hr. apply Hk; [lia|]. apply Hav; [lia|exact Hr].
Qed.

Lemma logs_sim {W S} (e1 : env W) (e2 : env S) (Rel : W -> S -> Prop) (av : S -> nat -> Prop) :
  (forall w s fds, Rel w s -> exists w' s' p, e_poll e1 w fds = (w', p) /\ e_poll e2 s fds = (s', p) /\ Rel w' s' /\
     forall rev j, p = inr rev -> nth j rev false = true -> av s' j) ->
  (forall w s j, Rel w s -> av s j -> exists w' s' x, e_recv e1 w j = (w', x) /\ e_recv e2 s j = (s', x) /\
     Rel w' s' /\ forall k, k <> j -> av s k -> av s' k) ->
  forall fuel dump max w s c fr s' c' x, Rel w s ->
  process_logs fuel e2 dump max s c fr = Ok (Some (s', c', x)) ->
  exists w', process_logs fuel e1 dump max w c fr = Ok (Some (w', c', x)) /\ Rel w' s'.
Proof.
  intros HP HR. induction fuel as [|k IH]; intros dump max w s c fr s' c' x R0; cbn [process_logs]; [discriminate|].
  unfold process_devices.
  destruct (HP w s (map (fun d => negb (d_pending d)) (c_devs c)) R0) as (w1 & s1 & p & E1 & E2 & R1 & Hav).
  rewrite E1, E2. destruct p as [b|rev].
  { cbn [bind]. destruct (_ <? 0); [intros [= <- <- <-]; eauto|].
    destruct (dump && c_mark c).
    - destruct (flush_pending_queue _ c) as [c2|]; cbn [bind]; [|discriminate]. intros [= <- <- <-]. eauto.
    - destruct (_ || _); [apply IH; exact R1|intros [= <- <- <-]; eauto]. }
  destruct (read_sim e1 e2 Rel av (map (fun d => negb (d_pending d)) (c_devs c)) rev HR (length (c_devs c)) 0 w1 s1 c 0 R1)
    as (w2 & s2 & c2 & y & F1 & F2 & R2); [intros j _; now apply Hav|].
  rewrite F1, F2. destruct y as [ret|n].
  { cbn [bind]. destruct (_ <? 0); [intros [= <- <- <-]; eauto|].
    destruct (dump && c_mark c2).
    - destruct (flush_pending_queue _ c2) as [c3|]; cbn [bind]; [|discriminate]. intros [= <- <- <-]. eauto.
    - destruct (_ || _); [apply IH; exact R2|intros [= <- <- <-]; eauto]. }
  destruct (pull c2) as [c3|]; cbn [bind]; [|discriminate].
  destruct (_ <? 0); [intros [= <- <- <-]; eauto|].
  destruct (dump && c_mark c3).
  - destruct (flush_pending_queue _ c3) as [c4|]; cbn [bind]; [|discriminate]. intros [= <- <- <-]. eauto.
  - destruct (_ || _); [apply IH; exact R2|intros [= <- <- <-]; eauto].
Qed.

(** ** One record *)
Definition stamp_of (rec : list Z) : Z :=
  ((hdr_sec rec * 1000000) mod 2 ^ 64 + (hdr_nsec rec mod 2 ^ 64) / 1000) mod 2 ^ 64.
Definition item_of (csv : bool) (rec : list Z) : item :=
  match ulog_parse_buf rec with
  | Ok (b, e) => mkItem (csv || negb (pe_bin e)) (stamp_of rec) (mkData b (Some e)) true 0
  | Bug _ => mkItem false 0 (mkData [] None) true 0
  end.

Lemma prio_range pay p size sec nsec pid tid mem e : parse_payload pay p size sec nsec pid tid = Ok (mem, e) ->
  0 <= pe_prio e < 8.
Proof.
  assert (U : forall p size m e, parse_unformatted pay p size sec nsec pid tid = Ok (m, e) -> 0 <= pe_prio e < 8).
  { intros q sz m e0. unfold parse_unformatted. cbv zeta. destruct (strnlen _ _ _); cbn [bind]; [|discriminate].
    repeat match goal with |- context [if ?b then _ else _] => destruct b end;
      try (destruct (store _ _ _); cbn [bind]; [|discriminate]); intros [= <- <-]; cbn; unfold ULOG_INFO; lia. }
  unfold parse_payload. destruct (get_token pay p size) as [[[[t1 p1] s1]|]|]; cbn [bind]; try discriminate; [|apply U].
  destruct (if pid =? tid then _ else _) as [[[[t2 p2] s2]|]|]; cbn [bind]; try discriminate; [|apply U].
  destruct (_ <? 4); [apply U|].
  destruct (load pay p2) as [b0|]; cbn [bind]; [|discriminate].
  do 3 (destruct (load pay _); cbn [bind]; [|discriminate]).
  destruct (get_token pay _ _) as [[[[? ?] ?]|]|]; cbn [bind]; try discriminate; [|apply U].
  assert (L : 0 <= Z.land b0 PRIO_LEVEL_MASK < 8).
  { unfold PRIO_LEVEL_MASK. change 7 with (Z.ones 3). rewrite Z.land_ones by lia. apply Z.mod_pos_bound. lia. }
  destruct (Z.testbit _ _); [intros [= <- <-]; exact L|].
  destruct (_ =? 0); [apply U|].
  destruct (strnlen _ _ _); cbn [bind]; [|discriminate].
  destruct (_ =? _); [destruct (store _ _ _); cbn [bind]; [|discriminate]|]; intros [= <- <-]; exact L.
Qed.

Lemma enc_fields e : wf_entry e -> let b := enc 2 e in
  24 <= zlen b /\ hdr_size b = 24 /\ hdr_len b = zlen b - 24.
Proof.
  intros [H1 H2] b. pose proof (zlen_nonneg (e_payload e)).
  assert (Eb : b = le 2 (zlen (e_payload e)) ++ le 2 24 ++ e_meta e ++ e_payload e) by reflexivity.
  assert (L : zlen b = 24 + zlen (e_payload e)) by (rewrite Eb, !zlen_app, !zlen_le; lia).
  split; [lia|]. unfold hdr_size, hdr_len, zsub. rewrite Eb. split.
  - rewrite zdrop_app_exact by (rewrite zlen_le; lia). rewrite ztake_app_exact by (rewrite zlen_le; lia). reflexivity.
  - rewrite zdrop_0, ztake_app_exact by (rewrite zlen_le; lia). rewrite <- Eb, of_le_le.
    change (256 ^ Z.of_nat 2) with 65536. rewrite Z.mod_small by lia. lia.
Qed.

(** A record of the driver is read as one entry. *)
Lemma str_at_ok mem q s : string_at mem q s -> str_at mem q = s.
Proof.
  intros [H1 H2]. destruct q as [off|c]; cbn.
  - destruct H2 as (pre & post & -> & <-). rewrite zdrop_app_exact by reflexivity. now apply cstr_app_nul.
  - subst c. now apply cstr_id.
Qed.
Lemma mem_at_ok mem q s : bytes_at mem q s -> mem_at mem q (zlen s) = s.
Proof.
  intros (off & pre & post & -> & -> & <-). cbn. rewrite zdrop_app_exact by reflexivity. now apply ztake_app_exact.
Qed.
Lemma resolve_shows mem e v : shows mem e v -> resolve mem e = entry_of v.
Proof.
  intros (H1 & H2 & H3 & H4 & H5 & H6 & H7 & H8 & H9 & H10 & H11). unfold resolve, entry_of.
  rewrite H1, H2, H3, H4, H5, H6, H7, (str_at_ok _ _ _ H8), (str_at_ok _ _ _ H9), (str_at_ok _ _ _ H10).
  f_equal. destruct (v_binary v).
  - destruct H11 as [H11 ->]. now apply mem_at_ok.
  - destruct H11 as [H11 _]. now apply str_at_ok.
Qed.

Lemma record_read csv e : wf_entry e -> exists mem pe v,
  ulog_parse_buf (enc 2 e) = Ok (mem, pe) /\ ulog_parse_raw (enc 2 e) = Ok (mem, Some pe) /\
  shows mem pe v /\ parsed_as (enc 2 e) v /\ 0 <= v_level v < 8 /\
  v_sec v = hdr_sec (enc 2 e) /\ v_nsec v = hdr_nsec (enc 2 e) /\
  forall ok r2, ulog_receive_entry csv (RdBytes (enc 2 e)) ok r2 = Ok (rx_of (item_of csv (enc 2 e))).
Proof.
  intros W. destruct (enc_fields e W) as (L & HS & HN). set (b := enc 2 e) in *.
  destruct (parse_at_good b (hdr_size b) (hdr_len b) (hdr_sec b) (hdr_nsec b) (hdr_pid b) (hdr_tid b)
     ltac:(lia) ltac:(lia) ltac:(lia)) as (pre & pay & post & pay' & pe & Eb & L1 & L2 & P & G).
  assert (Q : 0 <= pe_prio pe < 8).
  { assert (exists m1 p1, parse_payload pay 0 (zlen pay) (hdr_sec b) (hdr_nsec b) (hdr_pid b) (hdr_tid b) = Ok (m1, p1) /\
       shift_entry (hdr_size b) p1 = shift_entry (hdr_size b) pe) as (m1 & p1 & P1 & E1).
    { unfold parse_at in P. rewrite mem_read_ok in P by lia. cbn [bind] in P.
      assert (Ep : zsub (hdr_size b) (hdr_len b) b = pay).
      { rewrite Eb at 3. unfold zsub. rewrite zdrop_app_exact by (symmetry; exact L1). apply ztake_app_exact. symmetry; exact L2. }
      rewrite Ep, <- L2 in P. destruct (parse_payload _ _ _ _ _ _ _) as [[m1 p1]|]; cbn [bind] in P; [|discriminate].
      destruct (mem_write b _ _) as [m2|]; cbn [bind] in P; [|discriminate].
      exists m1, p1. split; [reflexivity|]. congruence. }
    apply prio_range in P1. apply (f_equal pe_prio) in E1. cbn in E1. lia. }
  destruct G as (G0 & G1 & G2 & G3 & G4 & (pn & tn & tg & S1 & S2 & S3) & G5).
  assert (V : exists v, shows (pre ++ pay' ++ post) (shift_entry (hdr_size b) pe) v /\ v_level v = pe_prio pe /\
                v_sec v = hdr_sec b /\ v_nsec v = hdr_nsec b).
  { rewrite <- L1.
    assert (M : exists m, if pe_bin pe then bytes_at (pre ++ pay' ++ post) (shift_ptr (zlen pre) (pe_msg pe)) m /\ pe_len pe = zlen m
                          else string_at (pre ++ pay' ++ post) (shift_ptr (zlen pre) (pe_msg pe)) m /\ pe_len pe = zlen m + 1).
    { destruct (pe_bin pe).
      - destruct G5 as (p & -> & q & -> & S). exists q. split; [|exact S].
        apply bytes_at_shift. exists (zlen p), p, []. rewrite app_nil_r. auto.
      - destruct G5 as (m & S & S'). exists m. split; [apply string_at_shift; exact S|exact S']. }
    destruct M as (m & M).
    exists (mkView (pe_sec pe) (pe_nsec pe) (pe_pid pe) (pe_tid pe) (pe_prio pe) (pe_color pe) (pe_bin pe) pn tn tg m).
    split; [|cbn; auto]. unfold shows. cbn. do 7 (split; [reflexivity|]).
    do 3 (split; [apply string_at_shift; assumption|]). exact M. }
  destruct V as (v & V & V1 & V2 & V3).
  assert (PB : ulog_parse_buf b = Ok (pre ++ pay' ++ post, shift_entry (hdr_size b) pe)) by (rewrite buf_eq by lia; exact P).
  assert (PR : ulog_parse_raw b = Ok (pre ++ pay' ++ post, Some (shift_entry (hdr_size b) pe))).
  { unfold ulog_parse_raw. destruct (Z.ltb_spec (zlen b) 24); [lia|].
    rewrite mem_read_ok by lia. cbn [bind].
    unfold hdr_size, hdr_len, hdr_sec, hdr_nsec, hdr_pid, hdr_tid in *. rewrite !zsub_zsub_head by lia.
    destruct (Z.ltb_spec (zlen b) (of_le (zsub 2 2 b))); [lia|].
    destruct (Z.eqb_spec (of_le (zsub 0 2 b)) (zlen b - of_le (zsub 2 2 b))); [|lia]. cbn [negb].
    rewrite P. reflexivity. }
  exists (pre ++ pay' ++ post), (shift_entry (hdr_size b) pe), v. split; [exact PB|]. split; [exact PR|]. split; [exact V|].
  split. { exists (pre ++ pay' ++ post), (shift_entry (hdr_size b) pe). split; [exact PR|]. split; [|exact V].
           assert (zlen pay' = zlen pay) by (now apply last_cut_len). rewrite Eb, !zlen_app. lia. }
  split; [lia|]. split; [exact V2|]. split; [exact V3|].
  intros ok r2. unfold ulog_receive_entry. cbn [andb].
  destruct (Z.eqb_spec (zlen b) 0); [lia|]. destruct (Z.ltb_spec (zlen b) 24); [lia|].
  rewrite HN, Z.eqb_refl. cbn [negb]. rewrite PB. cbn [bind].
  assert (E0 : forall x : bool, (if x then 0 else 0) = 0) by (intros []; reflexivity). rewrite E0.
  unfold item_of. rewrite PB. unfold rx_of, stamp_of. cbn [i_show i_stamp i_data i_dec i_ok].
  destruct csv, (pe_bin (shift_entry (hdr_size b) pe)); reflexivity.
Qed.

(** ** Reading a device *)
Definition put_rd (a : RingSpec.adev) (fid : Z) (w m : bool) (r : areader) : RingSpec.adev :=
  mkADev (a_cap a) (a_name a) (a_keep a) (a_gone a) (aupdate fid (mkAFile w m (Some r)) (a_files a)).

Lemma read_full d a fid uid c w m r : R d a -> vers_ok a ->
  alookup fid (a_files a) = Some (mkAFile w m (Some r)) -> a_q (visible r uid) <> [] ->
  exists d', ulogger_read_nb 2 d fid uid c c = Ok (d', render (snd (RingSpec.aread (a_name a) r uid c c))) /\
    R d' (put_rd a fid w m (fst (RingSpec.aread (a_name a) r uid c c))) /\
    vers_ok (put_rd a fid w m (fst (RingSpec.aread (a_name a) r uid c c))).
Proof.
  intros HR Hv El Hq. cbn [ulogger_read_nb].
  pose proof (step_R d a (OpReadCheck fid true false) Logic.I HR Hv) as (d1 & E1 & HR1).
  cbn [RingSpec.astep] in *. rewrite El in *. cbn [fst snd] in *. rewrite E1. cbn [bind].
  destruct (a_q r) as [|e0 q0] eqn:Eq.
  { exfalso. apply Hq. unfold visible. destruct (a_all r); [exact Eq|]. cbn. rewrite Eq. reflexivity. }
  cbn [render].
  pose proof (step_R d1 a (OpReadBody fid uid c c) Logic.I HR1 Hv) as (d2 & E2 & HR2).
  pose proof (vers_step a (OpReadBody fid uid c c) Hv) as Hv2.
  cbn [RingSpec.astep] in *. rewrite El in *.
  destruct (RingSpec.aread (a_name a) r uid c c) as [r' x] eqn:Er. cbn [fst snd] in *.
  rewrite E2. cbn [bind]. exists d2.
  assert (Hx : render x <> OutRetry).
  { unfold RingSpec.aread in Er. destruct (a_q (visible r uid)); [contradiction|].
    destruct (a_lost (visible r uid) >? 0);
    repeat match type of Er with context [if ?b then _ else _] => destruct b end;
    injection Er as <- <-; discriminate. }
  split; [|split; [exact HR2|exact Hv2]].
  destruct (render x); try reflexivity. contradiction.
Qed.

(** What the reader of node [n] will get: the static content [s]. *)
Definition nrel (csv : bool) (uid : Z) (n : node) (s : list item) : Prop :=
  exists a w m r, R (fst n) a /\ vers_ok a /\ alookup (snd n) (a_files a) = Some (mkAFile w m (Some r)) /\
    a_ver r = 2 /\ s = map (item_of csv) (stream (a_name a) 2 (a_lost r) (mine r uid)).

Lemma put_lookup a fid w m w' m' r r' : alookup fid (a_files a) = Some (mkAFile w' m' (Some r')) ->
  alookup fid (a_files (put_rd a fid w m r)) = Some (mkAFile w m (Some r)).
Proof. intros H. cbn. eapply alookup_update_id. exact H. Qed.

Lemma mine_nil r uid : mine r uid = [] <-> a_q (visible r uid) = [].
Proof.
  pose proof (visible_head r uid) as H. destruct (a_q (visible r uid)); [tauto|].
  rewrite H. split; discriminate.
Qed.
Lemma stream_nil nm ver n q : stream nm ver n q = [] <-> q = [].
Proof.
  destruct q as [|e q]; cbn [stream]; [tauto|]. split; [|discriminate].
  destruct (0 <? n); cbn [app map]; discriminate.
Qed.

Lemma poll_nrel csv uid n s : nrel csv uid n s ->
  exists n', poll_one uid true n = (n', negb (match s with [] => true | _ => false end)) /\ nrel csv uid n' s.
Proof.
  intros (a & w & m & r & HR & Hv & El & Hver & ->). destruct n as [d fid]. cbn [fst snd] in *.
  unfold poll_one. cbn [fst snd].
  pose proof (step_R d a (OpPoll fid uid) Logic.I HR Hv) as (d1 & E1 & HR1).
  pose proof (vers_step a (OpPoll fid uid) Hv) as Hv1.
  cbn [RingSpec.astep] in *. rewrite El in *. cbn [fst snd render] in *. rewrite E1.
  exists (d1, fid). split.
  - f_equal. pose proof (mine_nil r uid) as M. pose proof (stream_nil (a_name a) 2 (a_lost r) (mine r uid)) as S.
    destruct (a_q (visible r uid)).
    + rewrite (proj2 S) by (now apply M). reflexivity.
    + destruct (stream _ _ _ _); [|reflexivity]. exfalso. assert (X : mine r uid = []) by (now apply S). apply M in X. discriminate.
  - exists (put_rd a fid w m (visible r uid)), w, m, (visible r uid). cbn [fst snd].
    split; [exact HR1|]. split; [exact Hv1|]. split; [eapply put_lookup; exact El|].
    pose proof (visible_ver r uid) as (V1 & V2 & _). split; [congruence|].
    cbn [put_rd a_name]. rewrite V2, mine_visible. reflexivity.
Qed.

Lemma recv_nrel csv uid n x s : nrel csv uid n (x :: s) ->
  exists n', live_recv csv uid n = (n', rx_of x) /\ nrel csv uid n' s.
Proof.
  intros (a & w & m & r & HR & Hv & El & Hver & Es). destruct n as [d fid]. cbn [fst snd] in *.
  pose proof (visible_head r uid) as Hh. pose proof (visible_ver r uid) as (V1 & V2 & V3).
  pose proof (R_reader_wf d a fid _ r HR El eq_refl) as Hwf. pose proof (visible_wf r uid Hwf) as Hwf'.
  pose proof HR as ((_ & _ & _ & Hnm) & _ & Enm & _). rewrite Enm in Hnm.
  destruct (a_q (visible r uid)) as [|e rest] eqn:Eq.
  { rewrite Hh in Es. cbn in Es. discriminate. }
  inversion Hwf' as [|? ? We Wr]; subst.
  (* the record about to be delivered *)
  set (k := if 0 <? a_lost r then report (a_name a) (a_lost r) e else e).
  assert (Wk : wf_entry k) by (unfold k; destruct (0 <? a_lost r); [now apply wf_report|exact We]).
  set (r2 := if 0 <? a_lost r then mkAReader (a_q (visible r uid)) 0 (a_all r) 2 else mkAReader rest (a_lost r) (a_all r) 2).
  assert (Lost : 0 <= a_lost r).
  { destruct HR as (_ & _ & _ & _ & _ & _ & Hf). pose proof (R_lookup _ _ _ fid Hf) as HL. rewrite El in HL.
    destruct (lookup fid (d_files d)) as [g|]; [|contradiction]. destruct HL as (_ & _ & HL). cbn in HL.
    destruct (f_reader g); [|contradiction]. apply HL. }
  assert (Ek : stream (a_name a) 2 (a_lost r) (mine r uid) = enc 2 k :: stream (a_name a) 2 (a_lost r2) (mine r2 uid)).
  { rewrite Hh. unfold k, r2. cbn [stream]. destruct (Z.ltb_spec 0 (a_lost r)) as [Hl|Hl]; cbn [a_lost].
    - cbn [app]. f_equal.
      replace (mine (mkAReader (a_q (visible r uid)) 0 (a_all r) 2) uid) with (mine r uid).
      { rewrite Hh. reflexivity. }
      rewrite <- mine_visible. unfold mine. cbn [a_all a_q]. rewrite V3. reflexivity.
    - cbn [app map]. f_equal. assert (L0 : a_lost r = 0) by lia. rewrite L0, Hver.
      unfold mine. cbn [a_all a_q]. destruct (if a_all r then rest else filter _ rest); reflexivity. }
  rewrite Ek in Es. cbn [map] in Es. injection Es as -> ->.
  assert (A : forall c r0, a_lost r0 = a_lost r -> a_ver r0 = 2 -> a_all r0 = a_all r -> a_q (visible r0 uid) = e :: rest ->
     RingSpec.aread (a_name a) r0 uid c c =
       if c <? enc_len 2 k then (visible r0 uid, AErr EINVAL)
       else (r2, if 0 <? a_lost r then AReport 2 (a_name a) (a_lost r) e else AEntry 2 e)).
  { intros c r0 Q1 Q2 Q3 Q4. unfold RingSpec.aread. pose proof (visible_ver r0 uid) as (U1 & U2 & U3).
    rewrite Q4, U2, U1, U3, Q1, Q2, Q3. unfold k, r2. rewrite Eq.
    destruct (Z.gtb_spec (a_lost r) 0) as [Hl|Hl]; destruct (Z.ltb_spec 0 (a_lost r)); try lia.
    - destruct (c <? _); reflexivity.
    - destruct (c <? _); reflexivity. }
  assert (Rk : render (if 0 <? a_lost r then AReport 2 (a_name a) (a_lost r) e else AEntry 2 e) = OutData (enc 2 k)).
  { unfold k. destruct (0 <? a_lost r); reflexivity. }
  assert (Fin : forall a' d', R d' (put_rd a' fid w m r2) -> vers_ok (put_rd a' fid w m r2) -> a_name a' = a_name a ->
      (exists r', alookup fid (a_files a') = Some (mkAFile w m (Some r'))) ->
      nrel csv uid (d', fid) (map (item_of csv) (stream (a_name a) 2 (a_lost r2) (mine r2 uid)))).
  { intros a' d' Q1 Q2 Q3 (r' & Q4). exists (put_rd a' fid w m r2), w, m, r2. cbn [fst snd]. split; [exact Q1|]. split; [exact Q2|].
    split; [eapply put_lookup; exact Q4|]. split; [unfold r2; destruct (0 <? a_lost r); reflexivity|].
    cbn [put_rd a_name]. rewrite Q3. reflexivity. }
  destruct (record_read csv k Wk) as (_ & _ & _ & _ & _ & _ & _ & _ & _ & _ & RX).
  unfold live_recv, sys_read.
  destruct (read_full d a fid uid FRAME_BUFSIZE w m r HR Hv El ltac:(rewrite Eq; discriminate)) as (d1 & E1 & R1 & W1).
  rewrite (A FRAME_BUFSIZE r eq_refl Hver eq_refl Eq) in E1, R1, W1. rewrite E1.
  destruct (Z.ltb_spec FRAME_BUFSIZE (enc_len 2 k)) as [S|S]; cbn [fst snd] in *.
  - cbn [render]. change (EINVAL =? EINVAL) with true. cbv iota.
    assert (El1 : alookup fid (a_files (put_rd a fid w m (visible r uid))) = Some (mkAFile w m (Some (visible r uid))))
      by (eapply put_lookup; exact El).
    destruct (read_full d1 _ fid uid ENTRY_MAX_LEN w m (visible r uid) R1 W1 El1 ltac:(rewrite visible_idem, Eq; discriminate))
      as (d2 & E2 & R2 & W2).
    cbn [put_rd a_name] in E2, R2, W2.
    rewrite (A ENTRY_MAX_LEN (visible r uid) V2 ltac:(congruence) V3 ltac:(rewrite visible_idem; exact Eq)) in E2, R2, W2.
    rewrite E2.
    assert (B : enc_len 2 k <= ENTRY_MAX_LEN).
    { destruct Wk as [_ Wk]. unfold enc_len, ENTRY_MAX_LEN. cbn [Z.ltb Z.compare Pos.compare Pos.compare_cont]. lia. }
    destruct (Z.ltb_spec ENTRY_MAX_LEN (enc_len 2 k)); [lia|]. cbn [fst snd] in *. rewrite Rk.
    exists (d2, fid). split.
    + unfold ulog_receive_entry at 1. change (EINVAL =? EINVAL) with true. cbn [andb negb].
      specialize (RX true (RdErr 0)). unfold ulog_receive_entry in RX. cbn [andb negb] in RX. rewrite RX. reflexivity.
    + apply (Fin (put_rd a fid w m (visible r uid))); auto. eexists. exact El1.
  - rewrite Rk. exists (d1, fid). split; [rewrite RX; reflexivity|]. apply (Fin a); eauto.
Qed.
