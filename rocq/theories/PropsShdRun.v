(** C136: what the tasks of a real-time system log is on the screen of ulogcat, through the shared memory
    and the relay. *)
From Coq Require Import ZArith String List Bool Permutation Sorted Lia ZifyBool ZifyNat Arith.
From Verif Require Import Shd ShdProofs Relay RelaySpec RelayProofs.
From Verif Require Import Bytes BytesProofs Ring RingSpec RingHistory RingRefine RingLemmas RingObs Parse ParseSpec ParseProofs ParseE2E PropsParse Iov
  Cat CatSpec Render Live LiveSpec PropsRing SaidSpec PropsSaid Program ProgramSpec PropsProgram ScreenProofs MixedProofs.
From Verif Require Import ShdRun ShdRunSpec ShdRunProofs.
Import ListNotations.
Open Scope Z_scope.

(** ** Numbers *)
Lemma number_dec v : 0 <= v < 10 ^ 18 -> number v (dec_u v).
Proof.
  intros H. assert (B : 10 ^ Z.of_nat 20 = 100000000000000000000) by reflexivity. split; [|split; [|split]].
  - apply Forall_forall. intros c Hc. apply (RenderProofs.dec_digits_range 20 v); [lia|exact Hc].
  - change (fold_left (fun a c => 10 * a + (c - 48)) (dec_u v) 0) with (digits_value (dec_u v)). apply dec_digits_value. lia.
  - pose proof (RenderProofs.dec_digits_head 20 v ltac:(lia) ltac:(lia)) as X. intros E. unfold dec_u in E. rewrite E in X. exact X.
  - intros r E. destruct (Z.eq_dec v 0) as [->|NZ]; [cbn in E; congruence|].
    destruct (dec_digits_lead 20 v) as (c & x & E' & C); [lia|]. unfold dec_u in E. rewrite E' in E. congruence.
Qed.

(** ** The lines *)
Definition own_call (g : relay) (fid : Z) (i : nat) (prio : Z) (text : list Z) : call :=
  mkCall fid (g_task g) (fst (g_clock g i)) (snd (g_clock g i)) (g_stack g i) (bytes_of_string "shdlogd") (g_level g) prio text.
Definition txt (g : relay) (it : item) : list Z :=
  match it with
  | Starts => bytes_of_string "shdlogd starting, polling every " ++ dec_u (g_period g) ++ bytes_of_string " ms"
  | Shown m => text_of m
  | Told n => dec_d n ++ bytes_of_string " shared memory log messages lost"
  end.
Definition prio_of (it : item) : Z := match it with Starts => 5 | Told _ => 3 | Shown m => m_prio m end.
Definition spec_of (g : relay) (x : nat * line) : call := own_call g (match g_own g with Some f => f | None => 0 end) (fst x) (prio_of (fst (snd x))) (snd (snd x)).
Definition ent (g : relay) (x : nat * line) : entry :=
  let '(i, (it, tx)) := x in
  match it with
  | Shown m => mkEntry (meta 0 (s32 (u32 (m_tid m))) (m_time m / 1000000000) (m_time m mod 1000000000) 0)
                 (payload 0 (s32 (u32 (m_tid m))) (g_pname g) (m_thread m) (word_of m) (m_tag m) (tx ++ [0]))
  | _ => entry_said (said_of (spec_of g x))
  end.
Definition view (g : relay) (x : nat * line) : uentry :=
  let '(i, (it, tx)) := x in
  match it with
  | Shown m => mkU (m_time m / 1000000000) (m_time m mod 1000000000) (m_prio m mod 8) 0 (g_pname g) (s32 (u32 (m_tid m))) (m_thread m) (m_tag m) tx false (colour_of m)
  | _ => shown (said_of (spec_of g x))
  end.
Definition right (g : relay) (x : nat * line) : Prop :=
  let '(i, (it, tx)) := x in
  tx = txt g it /\ match it with Shown m => ShdRunSpec.proper m | Told n => 0 <= n < 32768 /\ g_own g <> None | Starts => g_own g <> None end.

Lemma no_zero_digits v : 0 <= v -> ~ In 0 (dec_u v) /\ ~ In 10 (dec_u v) /\ zlen (dec_u v) <= 20.
Proof.
  intros H. split; [|split; [|apply BytesProofs.dec_digits_len]]; intros X; apply (RenderProofs.dec_digits_range 20 v) in X; lia.
Qed.
Lemma own_text g it : sound g -> match it with Shown _ => False | Told n => 0 <= n < 32768 | Starts => True end ->
  ~ In 0 (txt g it) /\ zlen (txt g it) <= 100 /\ says g (it, txt g it).
Proof.
  intros S H. destruct it as [|m|n]; [|destruct H|]; cbn [txt says].
  - pose proof (sd_period _ S) as P. destruct (no_zero_digits (g_period g) ltac:(lia)) as (A & B & C). split; [|split].
    + intros X. apply in_app_or in X as [X|X]; [vm_compute in X; intuition discriminate|]. apply in_app_or in X as [X|X]; [exact (A X)|vm_compute in X; intuition discriminate].
    + rewrite !zlen_app. change (zlen (bytes_of_string "shdlogd starting, polling every ")) with 32. change (zlen (bytes_of_string " ms")) with 3. lia.
    + exists (dec_u (g_period g)). split; [apply number_dec; lia|reflexivity].
  - assert (E : dec_d n = dec_u n) by (unfold dec_d; destruct (Z.ltb_spec n 0); [lia|reflexivity]). rewrite E.
    destruct (no_zero_digits n ltac:(lia)) as (A & B & C). split; [|split].
    + intros X. apply in_app_or in X as [X|X]; [exact (A X)|vm_compute in X; intuition discriminate].
    + rewrite !zlen_app. change (zlen (bytes_of_string " shared memory log messages lost")) with 32. lia.
    + exists (dec_u n). split; [apply number_dec; lia|reflexivity].
Qed.
Lemma own_proper g fid i it : sound g -> match it with Shown _ => False | Told n => 0 <= n < 32768 | Starts => True end ->
  ProgramSpec.proper [fid] (own_call g fid i (prio_of it) (txt g it)).
Proof.
  intros S H. destruct (own_text g it S H) as (A & B & _). constructor; cbn [own_call p_fid p_task p_sec p_nsec p_stack p_tag p_level p_prio p_text].
  - now left.
  - apply (sd_ids _ S).
  - apply (sd_clock _ S).
  - apply (sd_stack _ S).
  - split; [vm_compute; intuition discriminate|vm_compute; discriminate].
  - destruct it; [|destruct H|]; cbn [prio_of]; split; (lia || reflexivity).
  - split; [exact A|lia].
  - apply C130_fits. vm_compute. discriminate.
Qed.

Lemma word_ok m : level_of (word_of m) = m_prio m mod 8 /\ color_of (word_of m) = colour_of m /\ binary_of (word_of m) = false /\ uint32 (word_of m).
Proof.
  unfold word_of. assert (P : 0 <= m_prio m mod 8 < 8) by (apply Z.mod_pos_bound; lia). set (p := m_prio m mod 8) in *. clearbody p.
  assert (C : In (colour_of m) (0 :: shdcolor)).
  { unfold colour_of. destruct (hd 0 (m_text m) =? 27); [right|now left]. pose proof (Z.land_nonneg (znth 5 (m_text m) - 48) 7) as N.
    change 7 with (Z.ones 3) at 1. rewrite Z.land_ones by lia. set (k := (znth 5 (m_text m) - 48) mod 2 ^ 3). assert (0 <= k < 8) by (apply Z.mod_pos_bound; lia).
    unfold znth. apply nth_In. cbn. lia. }
  set (c := colour_of m) in *. clearbody c.
  assert (Q : p = 0 \/ p = 1 \/ p = 2 \/ p = 3 \/ p = 4 \/ p = 5 \/ p = 6 \/ p = 7) by lia.
  repeat (destruct C as [<-|C]; [repeat (destruct Q as [->|Q]; [vm_compute; intuition (discriminate || reflexivity)|]); subst p; vm_compute; intuition (discriminate || reflexivity)|]). destruct C.
Qed.
Lemma tid_ok m : ShdRunSpec.proper m -> s32 (u32 (m_tid m)) <> 0 /\ ParseSpec.int32 (s32 (u32 (m_tid m))).
Proof.
  intros P. pose proof (pm_tid _ P) as T. unfold s32, u32, ParseSpec.int32. rewrite Z.mod_mod by lia. change (2 ^ 32) with 4294967296 in T.
  pose proof (Z.mod_pos_bound (m_tid m) 4294967296 ltac:(lia)) as B. set (t := m_tid m mod 4294967296) in *. clearbody t. change (2 ^ 31) with 2147483648.
  cbv zeta. destruct (Z.ltb_spec t 2147483648); lia.
Qed.
Lemma text_short m : ShdRunSpec.proper m -> ~ In 0 (text_of m) /\ zlen (text_of m) + zlen (m_thread m) + zlen (m_tag m) <= 253.
Proof.
  intros P. destruct (pm_text _ P) as [X _]. destruct (pm_tag _ P) as [_ G]. unfold text_of. cbv zeta. set (t := firstn _ _).
  assert (I : ~ In 0 t) by (intros Y; apply X; rewrite <- (firstn_skipn (Z.to_nat (253 - zlen (m_thread m) - zlen (m_tag m))) (m_text m)); apply in_or_app; now left).
  assert (L : zlen t <= 253 - zlen (m_thread m) - zlen (m_tag m)) by (unfold t; unfold zlen at 1; rewrite firstn_length; lia).
  destruct (hd 0 t =? 27); [|split; [auto|lia]]. split; [|unfold zlen in *; rewrite skipn_length; lia]. intros Y. apply I. rewrite <- (firstn_skipn 7 t). apply in_or_app. now right.
Qed.
Lemma zlen_pay2 tid pname tn prio tag b : tid <> 0 -> zlen (payload 0 tid pname tn prio tag b) = (zlen pname + 1) + (zlen tn + 1) + 4 + (zlen tag + 1) + zlen b.
Proof. intros H. unfold payload. destruct (Z.eqb_spec 0 tid); [lia|]. rewrite !zlen_app, zlen_le. change (zlen [0]) with 1. lia. Qed.
Lemma block_mod p tag text : block (p mod 8) tag text = block p tag text.
Proof. unfold block, label, letter. now rewrite Z.mod_mod by lia. Qed.


Definition euid_of (g : relay) (x : nat * line) : Z := match fst (snd x) with Shown _ => 0 | _ => t_euid (g_task g) end.
Lemma pay_small g m : sound g -> ShdRunSpec.proper m ->
  zlen (payload 0 (s32 (u32 (m_tid m))) (g_pname g) (m_thread m) (word_of m) (m_tag m) (text_of m ++ [0])) <= 4076.
Proof.
  intros S P. destruct (tid_ok m P) as [T _]. rewrite zlen_pay2 by exact T. destruct (text_short m P) as [_ L]. destruct (sd_name _ S) as [_ N].
  rewrite zlen_app. change (zlen [0]) with 1. lia.
Qed.
Lemma own_looks g i it : sound g -> g_own g <> None -> match it with Shown _ => False | Told n => 0 <= n < 32768 | Starts => True end ->
  looks (ent g) (view g) (euid_of g) (i, (it, txt g it)) /\ shows_as (view g (i, (it, txt g it))) = screen_of (it, txt g it) /\
  esize (ent g (i, (it, txt g it))) = cost_of g (it, txt g it).
Proof.
  intros S O H. set (c := spec_of g (i, (it, txt g it))). destruct (own_text g it S H) as (T0 & T1 & _).
  assert (P : ProgramSpec.proper [p_fid c] c) by (unfold c, spec_of; cbn [fst snd]; apply own_proper; assumption).
  pose proof (call_sayable _ _ P) as SA.
  assert (F : fitting (said_of c) = txt g it).
  { rewrite (fits _ _ P). unfold c, spec_of, own_call. cbn [p_text fst snd]. apply ztake_all. lia. }
  assert (E : ent g (i, (it, txt g it)) = entry_said (said_of c)) by (unfold c; destruct it; [reflexivity|destruct H|reflexivity]).
  assert (V : view g (i, (it, txt g it)) = shown (said_of c)) by (unfold c; destruct it; [reflexivity|destruct H|reflexivity]).
  assert (SC : shows_as (shown (said_of c)) = screen c).
  { unfold shows_as, screen, shown. cbn [u_prio u_tag u_msg]. rewrite F. rewrite firstn_ztake. unfold c, spec_of, own_call. cbn [said_of s_prio s_tag p_prio p_tag p_text fst snd].
    rewrite ztake_all by lia. change (level_of (prio_of it)) with (prio_of it mod 8). apply block_mod. }
  assert (BN : binary_of (p_prio c) = false) by (apply no_bit, (pr_prio _ _ P)).
  split; [|split].
  - constructor.
    + exists (t_tgid (g_task g)), (t_pid (g_task g)), (the_payload (said_of c)). rewrite E, V, (entry_said_eq _ SA). unfold euid_of. cbn [fst snd]. destruct it; [reflexivity|destruct H|reflexivity].
    + rewrite E, V. destruct (said_parsed _ SA) as (v & A & B). exists v. rewrite B. auto.
    + rewrite V. unfold shown. cbn [u_bin said_of s_prio]. exact BN.
    + rewrite V. unfold shown. cbn [u_prio]. apply Z.mod_pos_bound. lia.
    + rewrite V. apply (pr_time _ _ P).
    + rewrite V. apply (pr_time _ _ P).
    + rewrite V. change (zlen (shows_as (shown (said_of c))) < 5248). rewrite SC. apply (pr_room _ _ P).
  - rewrite V, SC. unfold screen, c, spec_of, own_call. cbn [p_prio p_tag p_text fst snd]. rewrite firstn_ztake, ztake_all by lia.
    destruct it; [reflexivity|destruct H|reflexivity].
  - rewrite E. pose proof (said_total [said_of c] (Forall_cons _ SA (Forall_nil _))) as X. cbn [map weights fold_right] in X. rewrite total_cons in X.
    change (RingSpec.total []) with 0 in X. rewrite (cost_weight _ _ P) in X.
    assert (CC : cost c = cost_of g (it, txt g it)).
    { unfold cost. rewrite firstn_ztake. unfold c, spec_of, own_call. cbn [p_task p_tag p_text fst snd].
      rewrite ztake_all by lia. unfold cost_of. change (zlen (bytes_of_string "shdlogd")) with 7. destruct it; [lia|destruct H|lia]. }
    lia.
Qed.
Lemma raw_looks g i m : sound g -> ShdRunSpec.proper m ->
  looks (ent g) (view g) (euid_of g) (i, (Shown m, text_of m)) /\ shows_as (view g (i, (Shown m, text_of m))) = screen_of (Shown m, text_of m) /\
  esize (ent g (i, (Shown m, text_of m))) = cost_of g (Shown m, text_of m).
Proof.
  intros S P. destruct (word_ok m) as (W1 & W2 & W3 & W4). destruct (tid_ok m P) as [T1 T2]. destruct (text_short m P) as [X0 X1]. pose proof (pay_small g m S P) as PS.
  destruct (pm_time _ P) as [TM0 TM1]. assert (TS : 0 <= m_time m / 1000000000 < 2 ^ 31) by (split; [apply Z.div_pos; lia|apply Z.div_lt_upper_bound; lia]).
  pose proof (Z.mod_pos_bound (m_time m) 1000000000 ltac:(lia)) as TN.
  split; [|split].
  - constructor; cbn [view u_sec u_nsec u_prio u_tag u_msg u_bin ent]; auto; try lia.
    + eexists _, _, _. reflexivity.
    + eexists. split.
      * apply enc_parsed; try (unfold ParseSpec.int32 in *; lia). apply payload_shows; try assumption; [apply (sd_name _ S)|apply (pm_thread _ P)|apply (pm_tag _ P)|].
        rewrite W3. pose proof (text_body (text_of m) (zlen (text_of m) + 1) X0 ltac:(pose proof (zlen_nonneg (text_of m)); lia)) as B.
        rewrite ztake_all in B by (rewrite zlen_app; change (zlen [0]) with 1; lia). rewrite ztake_all in B by lia. exact B.
      * unfold entry_of. cbn [v_sec v_nsec v_level v_pid v_pname v_tid v_tname v_tag v_message v_binary v_color]. rewrite W1, W2, W3.
        destruct (Z.eqb_spec 0 (s32 (u32 (m_tid m)))); [lia|]. reflexivity.
    + rewrite block_mod. apply (pm_room _ P).
  - cbn [view screen_of]. unfold shows_as. cbn [u_prio u_tag u_msg]. apply block_mod.
  - unfold esize. cbn [ent e_payload cost_of]. rewrite zlen_pay2 by exact T1. rewrite zlen_app. change (zlen [0]) with 1. lia.
Qed.

(** ** The calls on the device *)
Definition numbered_from (g : relay) (i : nat) (l : list item) : list (nat * line) :=
  filter (fun x => on_device g (fst (snd x))) (combine (seq i (length l)) (map (fun it => (it, txt g it)) l)).
Lemma numbered_cons g i it l : numbered_from g i (it :: l) = (if on_device g it then [(i, (it, txt g it))] else []) ++ numbered_from g (Datatypes.S i) l.
Proof. unfold numbered_from. cbn [length seq map combine filter fst snd]. destruct (on_device g it); reflexivity. Qed.
Lemma numbered_items g l : forall i, map (fun x => fst (snd x)) (numbered_from g i l) = filter (on_device g) l.
Proof.
  induction l as [|it l IH]; intros i; [reflexivity|]. rewrite numbered_cons, map_app, IH. cbn [filter]. destruct (on_device g it); reflexivity.
Qed.
Definition told_ok (it : item) : Prop := match it with Starts => False | Shown m => ShdRunSpec.proper m | Told n => 0 <= n < 32768 end.
Definition open_files (g : relay) : list (Z * bool) := match g_own g with Some f => [(f, false)] | None => [] end.
Lemma own_goes g i it d fs : sound g -> match it with Shown _ => False | Told n => 0 <= n < 32768 | Starts => True end ->
  reachable d -> d_files d = mfiles fs -> NoDup (map fst fs) -> (forall f, g_own g = Some f -> In (f, false) fs) ->
  exists ops d', own_message g i (prio_of it) (txt g it) = Ok ops /\
    goes d fs ops d' fs (map (ent g) (if on_device g it then [(i, (it, txt g it))] else [])).
Proof.
  intros S H R F N I. unfold own_message. destruct (g_own g) as [fid|] eqn:EO.
  2: { exists [], d. split; [reflexivity|]. replace (on_device g it) with false by (unfold on_device; rewrite EO; destruct it; [reflexivity|destruct H|reflexivity]).
       now apply goes_nil. }
  pose proof (own_proper g fid i it S H) as P. change (mkCall fid _ _ _ _ _ _ _ _) with (own_call g fid i (prio_of it) (txt g it)). set (c := own_call g fid i (prio_of it) (txt g it)) in *.
  rewrite (call_says _ _ P). cbn [bind]. assert (OD : on_device g it = visible c).
  { unfold on_device, visible, c. cbn [own_call p_prio p_level]. rewrite EO. destruct it; [reflexivity|destruct H|reflexivity]. }
  rewrite OD. destruct (visible c); [|exists [], d; split; [reflexivity|now apply goes_nil]].
  assert (EE : ent g (i, (it, txt g it)) = entry_said (said_of c)) by (unfold c; destruct it; [cbn [ent]; unfold spec_of; rewrite EO; reflexivity|destruct H|cbn [ent]; unfold spec_of; rewrite EO; reflexivity]).
  cbn [map]. rewrite EE. pose proof (call_sayable _ _ P) as SA. unfold say.
  destruct (goes_write d fs fid false (s_task (said_of c)) (s_sec (said_of c)) (s_nsec (said_of c))
    (kernel_iov (s_prio (said_of c)) (s_tag (said_of c)) (if binary_of (s_prio (said_of c)) then s_msg (said_of c) else s_msg (said_of c) ++ [0])) R F N (I fid eq_refl)) as (d' & G); [discriminate| |].
  { change (requested false _ _ _ _) with (entry_said (said_of c)). rewrite (entry_said_eq _ SA). cbn [e_payload]. unfold the_payload, payload. rewrite !zlen_app, zlen_le.
    repeat match goal with |- context [zlen ?z] => lazymatch goal with H : 0 <= zlen z |- _ => fail | _ => pose proof (zlen_nonneg z) end end. lia. }
  eexists _, d'. split; [reflexivity|]. exact G.
Qed.
Lemma raw_goes g i m d fs : sound g -> ShdRunSpec.proper m -> reachable d -> d_files d = mfiles fs -> NoDup (map fst fs) -> In (g_raw g, true) fs ->
  exists ops d', act_ops g i (Relay (raw_of (g_pname g ++ [0]) m)) = Ok ops /\ goes d fs ops d' fs [ent g (i, (Shown m, text_of m))].
Proof.
  intros S P R F N I. destruct (tid_ok m P) as [T1 T2]. pose proof (pay_small g m S P) as PS. destruct (sd_fid _ S) as [FD _].
  cbn [act_ops]. destruct (ulog_raw_log (g_raw g) (Some (raw_of (g_pname g ++ [0]) m))) as [e|v] eqn:EV.
  { exfalso. unfold ulog_raw_log, ulog_raw_logv, raw_of in EV. cbn [rw_pid rw_tid rw_message] in EV. destruct (Z.ltb_spec (g_raw g) 0); [lia|]. cbn [orb] in EV.
    change (0 =? -1) with false in EV. discriminate EV. }
  unfold ulog_raw_log in EV. destruct (raw_logv_writev _ _ _ _ EV) as (_ & _ & _ & C). unfold raw_of in C. cbn [rw_pid rw_tid rw_sec rw_nsec rw_euid rw_prio rw_pname rw_tname rw_tag rw_message concat] in C.
  destruct (Z.eqb_spec 0 (s32 (u32 (m_tid m)))) as [Z0|_]; [lia|]. rewrite app_nil_r in C.
  set (M := meta _ _ _ _ _) in C. set (PA := payload 0 (s32 (u32 (m_tid m))) (g_pname g) (m_thread m) (word_of m) (m_tag m) (text_of m ++ [0])) in *.
  assert (C' : concat v = M ++ PA).
  { rewrite C. f_equal. unfold PA, payload. destruct (Z.eqb_spec 0 (s32 (u32 (m_tid m)))); [lia|]. rewrite <- !app_assoc. reflexivity. }
  assert (RQ : requested true (g_task g) (fst (g_clock g i)) (snd (g_clock g i)) (iovec v) = ent g (i, (Shown m, text_of m))).
  { unfold requested. rewrite iovec_bytes, C'. rewrite ztake_app_exact by (unfold M; rewrite zlen_meta; reflexivity). rewrite zdrop_app_exact by (unfold M; rewrite zlen_meta; reflexivity).
    rewrite ztake_all by exact PS. reflexivity. }
  destruct (goes_write d fs (g_raw g) true (g_task g) (fst (g_clock g i)) (snd (g_clock g i)) v R F N I) as (d' & G).
  - intros _. rewrite C', zlen_app. unfold M. rewrite zlen_meta. pose proof (zlen_nonneg PA). lia.
  - rewrite RQ. cbn [ent e_payload]. rewrite zlen_pay2 by exact T1. rewrite zlen_app. change (zlen [0]) with 1.
    repeat match goal with |- context [zlen ?z] => lazymatch goal with H : 0 <= zlen z |- _ => fail | _ => pose proof (zlen_nonneg z) end end. lia.
  - rewrite RQ in G. eexists _, d'. split; [reflexivity|exact G].
Qed.
Lemma perform_goes g fs : sound g -> In (g_raw g, true) fs -> (forall f, g_own g = Some f -> In (f, false) fs) ->
  forall its, Forall told_ok its -> forall i d, reachable d -> d_files d = mfiles fs -> NoDup (map fst fs) ->
  exists ops d', perform g i (acts_of (g_pname g ++ [0]) its) = Ok ops /\ goes d fs ops d' fs (map (ent g) (numbered_from g i its)).
Proof.
  intros S IR IO its. induction 1 as [|it its H _ IH]; intros i d R F N.
  - exists [], d. split; [reflexivity|now apply goes_nil].
  - assert (X : exists o d1, (let* a := match it with Shown m => act_ops g i (Relay (raw_of (g_pname g ++ [0]) m)) | _ => own_message g i (prio_of it) (txt g it) end in Ok a) = Ok o /\
      goes d fs o d1 fs (map (ent g) (if on_device g it then [(i, (it, txt g it))] else []))).
    { destruct it as [|m|n]; [destruct H| |].
      - destruct (raw_goes g i m d fs S H R F N IR) as (o & d1 & E & G). exists o, d1. rewrite E. split; [reflexivity|exact G].
      - destruct (own_goes g i (Told n) d fs S H R F N IO) as (o & d1 & E & G). exists o, d1. rewrite E. split; [reflexivity|exact G]. }
    destruct X as (o & d1 & E & G). destruct (goes_reach _ _ _ _ _ _ G) as (R1 & F1 & N1). destruct (IH (Datatypes.S i) d1 R1 F1 N1) as (o2 & d2 & E2 & G2).
    exists (o ++ o2), d2. split.
    + destruct it as [|m|n]; [destruct H| |]; cbn [acts_of flat_map act_of app perform]; change (flat_map (act_of (g_pname g ++ [0])) its) with (acts_of (g_pname g ++ [0]) its).
      * destruct (act_ops g i (Relay (raw_of (g_pname g ++ [0]) m))); cbn [bind] in *; [|discriminate]. rewrite E2. cbn [bind]. congruence.
      * cbn [act_ops]. cbn [prio_of txt] in E. destruct (own_message g i 3 _); cbn [bind] in *; [|discriminate]. rewrite E2. cbn [bind]. congruence.
    + rewrite numbered_cons, map_app. exact (goes_app _ _ _ _ _ _ _ _ _ _ G G2).
Qed.

(** ** The story *)
Lemma story_ok cap l : (0 < cap)%nat -> forall un, Forall ShdRunSpec.fine l -> Forall ShdRunSpec.proper un -> counted cap (length un) l -> Forall told_ok (story cap un l).
Proof.
  intros HC. induction l as [|[m|rd en] l IH]; intros un F U CT; cbn [story counted] in *; [constructor| |]; inversion F as [|? ? F0 F']; subst.
  - cbn [ShdRunSpec.fine] in F0. destruct (recorded m).
    + apply IH; auto; [apply Forall_app; auto|]. rewrite app_length. cbn [length]. rewrite Nat.add_1_r. exact CT.
    + now apply IH.
  - destruct CT as [C0 C1]. apply Forall_app. split; [|now apply IH]. unfold batch.
    assert (U' : Forall ShdRunSpec.proper (skipn (length un - cap) un)).
    { rewrite Forall_forall in *. intros x Hx. apply U. rewrite <- (firstn_skipn (length un - cap) un). apply in_or_app. now right. }
    destruct (skipn _ un) as [|m r]; [constructor|]. inversion U' as [|? ? U0 U1]; subst. constructor; [exact U0|]. apply Forall_app. split.
    + destruct (Nat.leb_spec (length un) cap); constructor; [|constructor]. cbn [told_ok]. lia.
    + rewrite Forall_map. exact U1.
Qed.

(** The tasks of a real-time system log, shdlogd relays, ulogcat dumps the device: every message that
    passes the level of its tag is on the screen, in order, with its letter, its tag and its text line by
    line, except those that the section of shared memory could not keep until the next poll, whose exact
    number the relay says (if its library logs to the same device), and the oldest if the buffer of the
    device was too small. *)
Theorem C136_screen : forall nm mem pow2 cap blobs g l rfid all uid paths,
  init_ok nm mem pow2 -> ~ In 0 nm -> (0 < cap <= NB_SAMPLES)%nat -> sound g -> Forall ShdRunSpec.fine l ->
  StronglySorted Z.lt (times l) -> counted cap 0 l -> rfid <> g_raw g -> g_own g <> Some rfid ->
  exists ops d outs node mark, session cap blobs g l = Ok ops /\ run (init_dev nm mem pow2) ops = Ok (d, outs) /\
    add_ulog_device d rfid all uid = Ok (Some (node, mark)) /\
  exists lines lost kept, map fst lines = filter (on_device g) (Starts :: story cap [] l) /\ Forall (says g) lines /\
    lines = lost ++ kept /\ (lost = [] \/ 2 ^ pow2 - 12300 < costs_of g kept) /\
    let mine := if all then kept else filter (fun x => user_of g x =? uid mod 2 ^ 32) kept in
  exists note, ((lost = [] \/ mine = []) /\ note = [] \/ lost <> [] /\ mine <> [] /\ notice nm (zlen lost) note) /\
    forall fuel, (2 * (length mine + 1) < fuel)%nat ->
      exists ns' c', process_logs fuel (live_env false uid) true 0 [node] (open_ctx 0 [mark]) 0 = Ok (Some (ns', c', 0)) /\
        output (mkO FShort false [] false []) paths (c_out c') = Ok (map Some (note ++ concat (map screen_of mine))).
Proof.
  intros nm mem pow2 cap blobs g l rfid all uid paths HI HN HC S F T CT NR NO.
  (* the samples and the relay *)
  destruct (run_story cap (g_pname g ++ [0]) HC l [] [] (Relay.mkCtx 0 Relay.Oldest blobs false) 0%nat) as (rl & hist & c & E1 & E2); auto.
  { split; [cbn; lia|]. split; reflexivity. } { intros i s X. destruct i; discriminate. }
  { cbn [app]. now rewrite <- times_recs. }
  cbn [length skipn] in E1, E2. change (Z.of_nat 1) with 1 in E1.
  pose proof (story_ok cap l ltac:(lia) [] F (Forall_nil _) CT) as TO. set (its := story cap [] l) in *.
  (* the device *)
  set (d0 := init_dev nm mem pow2). assert (R0 : reachable d0) by (exists nm, mem, pow2, [], []; split; [exact HI|split; [constructor|reflexivity]]).
  set (fs1 := open_files g).
  assert (A1 : exists d1, goes d0 [] (match g_own g with Some fid => [OpOpen fid false true false false] | None => [] end) d1 fs1 []).
  { unfold fs1, open_files. destruct (g_own g) as [fid|].
    - apply (goes_open d0 [] fid R0 eq_refl); [constructor|intros []].
    - exists d0. apply goes_nil; [exact R0|reflexivity|constructor]. }
  destruct A1 as (d1 & G1). destruct (goes_reach _ _ _ _ _ _ G1) as (R1 & F1 & N1).
  destruct (own_goes g 0 Starts d1 fs1 S Logic.I R1 F1 N1) as (o2 & d2 & EO & G2).
  { intros f X. unfold fs1, open_files. rewrite X. now left. }
  destruct (goes_reach _ _ _ _ _ _ G2) as (R2 & F2 & N2).
  assert (NI : ~ In (g_raw g) (map fst fs1)).
  { destruct (sd_fid _ S) as [_ X]. unfold fs1, open_files. destruct (g_own g) as [f|]; [|intros []]. intros [Y|[]]. cbn in Y. congruence. }
  destruct (goes_open d2 fs1 (g_raw g) R2 F2 N2 NI) as (d3 & G3). destruct (goes_reach _ _ _ _ _ _ G3) as (R3 & F3 & N3).
  destruct (goes_raw d3 fs1 (g_raw g) (g_strict g) (g_capable g) (t_euid (g_task g)) R3 F3 N3 (sd_raw _ S)) as (d4 & G4).
  destruct (goes_reach _ _ _ _ _ _ G4) as (R4 & F4 & N4). set (fs := fs1 ++ [(g_raw g, true)]) in *.
  destruct (perform_goes g fs S) with (its := its) (i := 1%nat) (d := d4) as (o5 & d & EP & G5); auto.
  { apply in_or_app. right. now left. }
  { intros f X. apply in_or_app. left. unfold fs1, open_files. rewrite X. now left. }
  destruct (goes_reach _ _ _ _ _ _ G5) as (R5 & F5 & N5).
  pose proof (goes_app _ _ _ _ _ _ _ _ _ _ G1 (goes_app _ _ _ _ _ _ _ _ _ _ G2 (goes_app _ _ _ _ _ _ _ _ _ _ G3 (goes_app _ _ _ _ _ _ _ _ _ _ G4 G5)))) as G.
  set (xs := numbered_from g 0 (Starts :: its)).
  match type of G with goes _ _ _ _ _ ?e => assert (EX : e = map (ent g) xs) by (unfold xs; rewrite numbered_cons, map_app; reflexivity) end.
  rewrite EX in G. clear EX. destruct (goes_ledger _ _ _ _ _ _ _ G) as (outs & ER & UA & HL).
  destruct (goes_added d fs rfid all uid R5 F5) as (node & mark & AD).
  { unfold fs. rewrite map_app. intros X. apply in_app_or in X as [X|[X|[]]]; [|cbn in X; congruence].
    unfold fs1, open_files in X. destruct (g_own g); [|destruct X]. destruct X as [X|[]]. cbn in X. congruence. }
  eexists _, d, outs, node, mark. split.
  { unfold session. rewrite E1. cbn [bind]. change (Relay.init blobs) with (@nil (blob * Z), Relay.mkCtx 0 Relay.Oldest blobs false). rewrite E2. cbn [bind].
    cbn [prio_of txt] in EO. rewrite EO. cbn [bind]. rewrite EP. cbn [bind]. reflexivity. }
  split; [exact ER|]. split; [exact AD|].
  (* what each line is *)
  assert (RT : Forall (fun x => looks (ent g) (view g) (euid_of g) x /\ shows_as (view g x) = screen_of (snd x) /\ esize (ent g x) = cost_of g (snd x) /\ says g (snd x)) xs).
  { apply Forall_forall. intros [i [it tx]] Hx. unfold xs, numbered_from in Hx. apply filter_In in Hx as [Hx OD]. cbn [fst snd] in OD. apply in_combine_r in Hx.
    apply in_map_iff in Hx as (it' & E & Hi). injection E as -> <-. cbn [snd].
    assert (K : match it with Starts => True | _ => told_ok it end).
    { destruct Hi as [<-|Hi]; [exact Logic.I|]. rewrite Forall_forall in TO. specialize (TO it Hi). destruct it; [exact Logic.I|exact TO|exact TO]. }
    destruct it as [|m|n].
    - assert (O : g_own g <> None) by (unfold on_device in OD; destruct (g_own g); congruence).
      destruct (own_looks g i Starts S O Logic.I) as (A & B & C). destruct (own_text g Starts S Logic.I) as (_ & _ & D). auto.
    - destruct (raw_looks g i m S K) as (A & B & C). repeat (split; [assumption|]). reflexivity.
    - assert (O : g_own g <> None) by (unfold on_device in OD; destruct (g_own g); congruence).
      destruct (own_looks g i (Told n) S O K) as (A & B & C). destruct (own_text g (Told n) S K) as (_ & _ & D). auto. }
  destruct (entries_screen (ent g) (view g) (euid_of g) nm mem pow2 _ d outs rfid all uid node mark paths xs HI HN UA ER AD HL) as (lost & kept & EL & TT & SC).
  { eapply Forall_impl; [|exact RT]. intros x Hx. apply Hx. }
  exists (map snd xs), (map snd lost), (map snd kept). split.
  { rewrite map_map. unfold xs. apply numbered_items. }
  split. { rewrite Forall_map. eapply Forall_impl; [|exact RT]. intros x Hx. apply Hx. }
  split; [now rewrite EL, map_app|]. rewrite EL in RT. apply Forall_app in RT as [_ RT]. split.
  { destruct TT as [-> |TT]; [now left|right]. replace (costs_of g (map snd kept)) with (RingSpec.total (map (ent g) kept)); [exact TT|].
    clear - RT. induction RT as [|x k (_ & _ & H & _) _ IH]; [reflexivity|]. cbn [map]. rewrite total_cons, IH, H. reflexivity. }
  intros mine. cbv zeta in SC. set (mk := if all then kept else _) in SC.
  assert (EM : mine = map snd mk).
  { unfold mine, mk. destruct all; [reflexivity|]. clear. induction kept as [|x k IH]; [reflexivity|]. cbn [map filter]. rewrite IH.
    replace (user_of g (snd x)) with (euid_of g x mod 2 ^ 32) by (unfold user_of, euid_of; destruct (fst (snd x)); reflexivity).
    destruct (_ =? _); reflexivity. }
  clearbody mine. subst mine. assert (RM : Forall (fun x => shows_as (view g x) = screen_of (snd x)) mk).
  { apply Forall_forall. intros x Hx. rewrite Forall_forall in RT. apply (RT x). unfold mk in Hx. destruct all; [exact Hx|now apply filter_In in Hx]. }
  clearbody mk. destruct SC as (note & NT & SC). exists note. split.
  { destruct NT as [[[-> | ->] ->]|(L1 & L2 & NT)]; [left; split; [left; reflexivity|reflexivity]|left; split; [right; reflexivity|reflexivity]|right].
    split; [intros X; apply L1; now apply map_eq_nil in X|]. split; [intros X; apply L2; now apply map_eq_nil in X|]. now rewrite zlen_map. }
  intros fuel HF. rewrite map_length in HF. destruct (SC fuel HF) as (ns' & c' & P1 & P2). exists ns', c'. split; [exact P1|]. rewrite P2. do 3 f_equal.
  rewrite map_map. clear - RM. induction RM as [|x k H _ IH]; [reflexivity|]. cbn [map concat]. now rewrite H, IH.
Qed.
Print Assumptions C136_screen.

(** Three messages of two tasks between polls of a section of two samples, one of them not recorded: a
    run for which all the hypotheses hold. *)
Definition ex_msg (prio tid t : Z) (thread tag text : string) : message :=
  mkMsg prio 6 tid (bytes_of_string thread) [] (bytes_of_string tag) (bytes_of_string text) t (repeat 170 256) (repeat 170 256).
Definition ex_happenings : list happening :=
  [Says (ex_msg 6 11 1000000001 "nav" "gps" "first"); Says (ex_msg 3 12 2000000002 "io" "bus" "second"); Polls 1 0;
   Says (ex_msg 7 11 2500000000 "nav" "gps" "detail"); Says (ex_msg 4 12 3000000003 "io" "bus" "third"); Polls 1 0].
Definition ex_relay : relay :=
  mkRelay 4 (Some 3) (mkTask 50 50 (bytes_of_string "shdlogd") (bytes_of_string "shdlogd") 7) 6 true true (bytes_of_string "rtos") 100
    (fun _ => repeat 170 256) (fun i => (Z.of_nat i mod 1000, 0)).
Example C136_ex : init_ok (bytes_of_string "ulog_main") (zrepeat 170 16384) 14 /\ (0 < 1 <= NB_SAMPLES)%nat /\ sound ex_relay /\ Forall ShdRunSpec.fine ex_happenings /\
  StronglySorted Z.lt (times ex_happenings) /\ counted 1 0 ex_happenings /\
  map (fun it => match it with Starts => 0 | Shown m => m_time m | Told n => - n end) (filter (on_device ex_relay) (Starts :: story 1 [] ex_happenings)) =
    [0; 2000000002; -1; 3000000003] /\
  screen_of (Shown (ex_msg 3 12 2000000002 "io" "bus" "second"), text_of (ex_msg 3 12 2000000002 "io" "bus" "second")) =
    bytes_of_string "E bus         : second" ++ [10].
Proof.
  split; [unfold init_ok; rewrite zlen_zrepeat by lia; vm_compute; repeat split; discriminate|]. split; [vm_compute; lia|]. split.
  { constructor.
    - cbn. split; [lia|discriminate].
    - reflexivity.
    - vm_compute. repeat split; discriminate.
    - split; [vm_compute; intuition discriminate|vm_compute; discriminate].
    - cbn [ex_relay g_period]. lia.
    - intros i. apply repeat_length.
    - intros i. cbn [ex_relay g_clock fst snd]. pose proof (Z.mod_pos_bound (Z.of_nat i) 1000 ltac:(lia)) as B. change (2 ^ 31) with 2147483648. split; [|split; [discriminate|reflexivity]]. lia. }
  split.
  { assert (P : forall prio tid t thread tag text, zlen (bytes_of_string thread) <= 15 /\ ~ In 0 (bytes_of_string thread) /\ zlen (bytes_of_string tag) <= 15 /\
      ~ In 0 (bytes_of_string tag) /\ ~ In 0 (bytes_of_string text) /\ zlen (bytes_of_string text) < 2 ^ 31 /\ hd 0 (bytes_of_string text) <> 27 /\ tid mod 2 ^ 32 <> 0 /\
      0 <= t < 2 ^ 31 * 1000000000 -> zlen (screen_of (Shown (ex_msg prio tid t thread tag text), text_of (ex_msg prio tid t thread tag text))) < 5248 ->
      ShdRunSpec.proper (ex_msg prio tid t thread tag text)).
    { intros. constructor; cbn [ex_msg m_stack m_blob m_tid m_thread m_tag m_text m_time]; try tauto; try lia; split; try apply repeat_length; tauto || lia. }
    assert (NZ : forall s, forallb (fun c => negb (c =? 0)) (bytes_of_string s) = true -> ~ In 0 (bytes_of_string s)).
    { intros s F I. rewrite forallb_forall in F. specialize (F 0 I). discriminate. }
    unfold ex_happenings.
    repeat (apply Forall_cons; [first [cbn [ShdRunSpec.fine]; lia|cbn [ShdRunSpec.fine]; intros _; apply P; [|reflexivity];
      repeat first [split; [first [apply NZ; reflexivity|discriminate|reflexivity|vm_compute; discriminate]|]]; lia]|]). apply Forall_nil. }
  split; [repeat constructor|]. split; [vm_compute; intuition lia|]. split; reflexivity.
Qed.
