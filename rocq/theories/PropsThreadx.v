(** C82: the registry of tags of the ThreadX port under any interleaving; C83: levels; C84: the console;
    C85: samples for the shared memory; C86: overlapping samples. *)
From Coq Require Import ZArith String List Bool Lia ZifyBool ZifyNat Arith.
From Verif Require Import Bytes BytesProofs Parse Iov Klog KlogProofs ParseSpec Shd ShdProofs PropsShd Threadx ThreadxSpec ThreadxProofs.
Import ListNotations.
Open Scope Z_scope.

(** ** C82 *)

(** Whatever calls are made by any number of threads, however their steps are interleaved and whenever
    the module becomes ready: no call goes wrong, the registry is sound after every step and the values
    returned are -1 to 7. Restricted to a mutex that can be taken. *)
Theorem C82_registry_partial : forall names evs fuel, Forall locked evs -> Forall bare evs -> (S (length evs) <= fuel)%nat ->
  exists m os l, run fuel (mkMach (init names) []) evs = Ok (m, os) /\ sound (m_st m) l /\
    Forall (fun o => match o with ORet v => -1 <= v <= 7 | _ => True end) os.
Proof.
  intros names evs fuel HL HB F.
  destruct (run_sound fuel evs (mkMach (init names) []) [0%nat] (sound_init names)) as (m & os & l & E & S & _ & _ & R); auto.
  { constructor. }
  exists m, os, l. auto.
Qed.

(** A walk visits each cookie in use once, at the moment it is made. *)
Theorem C82_visit_partial : forall names evs fuel m os i m' v, Forall locked evs -> Forall bare evs -> (S (S (length evs)) <= fuel)%nat ->
  run fuel (mkMach (init names) []) evs = Ok (m, os) -> step fuel m (EvStep i true) = Ok (m', OVisit v) ->
  NoDup v /\ forall c, In c v <-> 0 <= c_level (s_mem (m_st m) c).
Proof.
  intros names evs fuel m os i m' v HL HB F E X.
  destruct (run_sound fuel evs (mkMach (init names) []) [0%nat] (sound_init names)) as (m1 & os1 & l & E1 & S & B & F1 & _); [constructor|cbn; lia|exact HL|exact HB|].
  rewrite E1 in E. assert (m1 = m) by congruence. subst m1.
  destruct (step_sound fuel m (EvStep i true) l S B) as (m2 & o & l' & E2 & _ & _ & _ & V & _); try exact I; try reflexivity; [cbn in F1; lia|].
  rewrite E2 in X. assert (o = OVisit v) by congruence. destruct (V v H) as [-> _]. destruct S as (_ & N & _ & I & _). auto.
Qed.

Definition ex_names : nat -> list Z := fun c => bytes_of_string (match c with 1 => "net" | 2 => "cam" | _ => "x" end)%nat%string.
(** Two threads log with the same new cookie; both find it unset and both reach the mutex. *)
Definition ex_race : list ev :=
  [EvReady; EvCall (CLog 5 1 (bytes_of_string "a")); EvCall (CLog 6 1 (bytes_of_string "b"));
   EvStep 0 true; EvStep 1 true; EvStep 0 true; EvStep 1 true; EvStep 0 true; EvStep 1 true; EvStep 0 true; EvStep 1 true;
   EvStep 0 true; EvStep 1 true; EvStep 0 true; EvStep 1 true; EvStep 0 true; EvStep 1 true; EvStep 0 true; EvStep 1 true;
   EvCall CForeach; EvStep 2 true].
Example C82_ex : exists m os m', Forall locked ex_race /\ Forall bare ex_race /\
  run 40 (mkMach (init ex_names) []) ex_race = Ok (m, os) /\
  filter (fun o => match o with OPrint _ _ => true | _ => false end) os =
    [OPrint 35 (bytes_of_string "[N] net: a"); OPrint (-1) (bytes_of_string "[I] net: b")] /\
  step 40 m (EvStep 2 true) = Ok (m', OVisit [1; 0]%nat).
Proof.
  do 3 eexists. split; [repeat constructor|]. split.
  { repeat (constructor; [cbn; first [exact I|lia]|]). constructor. }
  split; [vm_compute; reflexivity|]. split; [vm_compute; reflexivity|]. vm_compute. reflexivity.
Qed.

(** False when taking the mutex fails once: the level of the tag is set, the tag is never registered and
    cannot be found by name any more. *)
Theorem C82_mutex_refuted : exists names c evs m os m' os' more, Forall bare (evs ++ more) /\
  run 40 (mkMach (init names) []) evs = Ok (m, os) /\ c_level (s_mem (m_st m) c) = 7 /\
  Forall locked more /\ run 40 m more = Ok (m', os') /\
  In (OVisit [0%nat]) os' /\ In (ORet (-1)) os' /\
  In (EvCall (CInit c)) more /\ In (EvCall CForeach) more /\ In (EvCall (CSetTag (names c) 3)) more.
Proof.
  exists ex_names, 1%nat,
    [EvReady; EvCall (CSet 1 7); EvStep 0 true; EvStep 0 true; EvStep 0 true; EvStep 0 true; EvStep 0 true; EvStep 0 true;
     EvStep 0 false; EvStep 0 true].
  do 4 eexists.
  exists ([EvCall (CInit 1); EvStep 1 true; EvStep 1 true; EvStep 1 true; EvCall CForeach; EvStep 2 true; EvStep 2 true; EvStep 2 true;
          EvCall (CSetTag (ex_names 1) 3); EvStep 3 true; EvStep 3 true; EvStep 3 true]).
  split. { repeat (constructor; [cbn; first [exact I|lia]|]). constructor. }
  split; [vm_compute; reflexivity|]. split; [vm_compute; reflexivity|]. split; [repeat constructor|].
  split; [vm_compute; reflexivity|]. cbn [In]. intuition.
Qed.

(** ** C83 *)

(** Calls that do not overlap, from any sound registry: the level of a tag is the one set last, cut to
    0 to 7; before any, that of the default tag at its first use. *)
Theorem C83_levels : forall fuel s l c v, sound s l -> s_ready s = true ->
  (exists s' l', alone fuel s (program (CGet c)) = Ok (s', level_in_force s c, []) /\ sound s' l' /\ sets s s' c (level_in_force s c)) /\
  (exists s' l', alone fuel s (program (CInit c)) = Ok (s', 0, []) /\ sound s' l' /\ sets s s' c (level_in_force s c)) /\
  (exists s' l', alone fuel s (program (CInitCookie c)) = Ok (s', 0, []) /\ sound s' l' /\ sets s s' c (level_in_force s c)) /\
  (exists s' l', alone fuel s (program (CSet c v)) = Ok (s', 0, []) /\ sound s' l' /\ sets s s' c (Z.max 0 (Z.min 7 v))).
Proof.
  intros fuel s l c v S R. split; [|split; [|split]]; cbn [program].
  - unfold ulog_get_level. cbn [alone]. rewrite R. destruct (alone_init fuel s l c (GetLevel c Ret) S R) as (s' & l' & -> & S' & _ & X).
    exists s', l'. cbn [alone]. destruct X as (X1 & X2 & X3). rewrite X2. split; [reflexivity|]. split; [exact S'|]. split; auto.
  - destruct (alone_init fuel s l c (Ret 0) S R) as (s' & l' & -> & S' & _ & X). exists s', l'. auto.
  - destruct (alone_init_cookie fuel s l c (Ret 0) S R) as (s' & l' & -> & S' & _ & X). exists s', l'. auto.
  - destruct (alone_set_level fuel s l c v (Ret 0) S R) as (s' & l' & -> & S' & _ & X). exists s', l'. split; [reflexivity|]. split; [exact S'|].
    replace (Z.max 0 (Z.min 7 v)) with (clamp v); [exact X|]. unfold clamp. destruct (Z.ltb_spec v 0); [cbn; lia|]. destruct (Z.gtb_spec v 7); lia.
Qed.

(** By name: a tag in use of that name is read or set; when there is none, -1 and nothing changes. *)
Theorem C83_by_name : forall fuel s l n v, sound s l -> s_ready s = true -> (length l <= fuel)%nat ->
  ((forall c, 0 <= c_level (s_mem s c) -> c_name (s_mem s c) <> n) ->
    alone fuel s (program (CGetTag n)) = Ok (s, -1, []) /\ alone fuel s (program (CSetTag n v)) = Ok (s, -1, [])) /\
  ((exists c, 0 <= c_level (s_mem s c) /\ c_name (s_mem s c) = n) ->
    exists c s' l', 0 <= c_level (s_mem s c) /\ c_name (s_mem s c) = n /\
      alone fuel s (program (CGetTag n)) = Ok (s, c_level (s_mem s c), []) /\
      alone fuel s (program (CSetTag n v)) = Ok (s', 0, []) /\ sound s' l' /\ sets s s' c (Z.max 0 (Z.min 7 v))).
Proof.
  intros fuel s l n v S R F. cbn [program]. unfold ulog_get_tag_level, ulog_set_tag_level. cbn [alone]. rewrite R. cbn [alone do_section].
  pose proof S as (L & _ & _ & I & _). rewrite (walk_linked _ _ l L fuel F). cbn [bind].
  destruct (find (fun c => bytes_eqb (c_name (s_mem s c)) n) l) as [c|] eqn:E; cbn [option_map].
  - apply find_some in E. destruct E as [E1 E2]. apply I in E1. apply bytes_eqb_eq in E2. split.
    + intros H. exfalso. exact (H c E1 E2).
    + intros _. destruct (C83_levels fuel s l c v S R) as (_ & _ & _ & s' & l' & A & S' & X). cbn [program] in A.
      exists c, s', l'. auto 8.
  - split; [auto|]. intros (c & C1 & C2). exfalso. apply I in C1. pose proof (find_none _ _ E c C1) as N. cbn in N.
    rewrite C2, bytes_eqb_refl in N. discriminate.
Qed.

(** Before the module is ready no call does anything. *)
Theorem C83_not_ready : forall fuel s x, s_ready s = false ->
  exists v, alone fuel s (program x) = Ok (s, v, []) /\ (v = 0 \/ v = -1).
Proof.
  intros fuel s x R. destruct x; cbn [program];
  unfold ulog_init, ulog_init_cookie, ulog_set_level, ulog_get_level, ulog_set_tag_level, ulog_get_tag_level, ulog_foreach, ulog_log, ulog_log_str, ulog_init_cookie; cbn [alone]; rewrite ?R; cbn [alone]; eauto.
  destruct (_ <? 0); cbn [alone]; rewrite ?R; cbn [alone].
  - destruct (_ <=? _); cbn [alone]; rewrite ?R; cbn [alone]; eauto.
  - destruct (_ <=? _); cbn [alone]; rewrite ?R; cbn [alone]; eauto.
Qed.

Definition ex_ready : st := mkSt true (s_mem (init ex_names)) (s_list (init ex_names)).
Example C83_ex : sound ex_ready [0%nat] /\ s_ready ex_ready = true /\ level_in_force ex_ready 1 = 6 /\
  c_name (s_mem ex_ready 0%nat) = bytes_of_string "threadx" /\ (forall c, 0 <= c_level (s_mem ex_ready c) -> c_name (s_mem ex_ready c) <> bytes_of_string "cam").
Proof.
  split; [exact (sound_init ex_names)|]. repeat split. intros c. destruct c; cbn; [discriminate|lia].
Qed.

(** ** C84 *)

(** A message of level 2 to 7 is printed once, with letter, colour, tag and at most 255 bytes of text,
    exactly when its level is enabled. Restricted to ULOGx and ULOG_PRI without colour or binary flag. *)
Theorem C84_printed_partial : forall fuel s l p c text, sound s l -> s_ready s = true -> 2 <= p <= 7 -> c_string text ->
  exists s' l', sound s' l' /\ sets s s' c (level_in_force s c) /\
    alone fuel s (program (CLog p c text)) =
      Ok (s', 0, if p <=? level_in_force s c
                 then [(colour p, bytes_of_string "[" ++ letter p ++ bytes_of_string "] " ++ c_name (s_mem s c) ++
                                  bytes_of_string ": " ++ ztake 255 text)]
                 else []).
Proof.
  intros fuel s l p c text S R Hp Ht. cbn [program]. unfold ulog_log.
  set (rest := GetLevel c (fun l => if Z.land p 7 <=? l then _ else _)). cbn [alone].
  assert (G : forall s', sets s s' c (level_in_force s c) -> alone fuel s' rest =
    Ok (s', 0, if p <=? level_in_force s c
                 then [(colour p, bytes_of_string "[" ++ letter p ++ bytes_of_string "] " ++ c_name (s_mem s c) ++
                                  bytes_of_string ": " ++ ztake 255 text)] else [])).
  { intros s' (X1 & X2 & _ & X4). unfold rest. cbn [alone]. rewrite X2.
    replace (Z.land p 7) with p by (change 7 with (Z.ones 3); rewrite Z.land_ones by lia; rewrite Z.mod_small; lia).
    destruct (p <=? level_in_force s c); [|reflexivity]. cbn [alone]. rewrite X1, R. cbn [alone]. rewrite X4. unfold amba_log.
    assert (C : cstr (ztake 255 text) = ztake 255 text).
    { assert (HN : ~ In 0 (ztake 255 text)).
      { intros H. apply Ht. unfold ztake in H. rewrite <- (firstn_skipn (Z.to_nat 255) text). apply in_or_app. now left. }
      revert HN. generalize (ztake 255 text). clear. induction l as [|a l IH]; intros H; [reflexivity|]. cbn [cstr].
      destruct (Z.eqb_spec a 0) as [->|]; [exfalso; apply H; now left|]. rewrite IH; [reflexivity|]. intros X; apply H; now right. }
    change (BUF_SIZE - 1) with 255. rewrite C.
    assert (D : p = 2 \/ p = 3 \/ p = 4 \/ p = 5 \/ p = 6 \/ p = 7) by lia.
    destruct D as [->|[->|[->|[->|[->| ->]]]]]; reflexivity. }
  destruct (Z.ltb_spec (c_level (s_mem s c)) 0).
  - destruct (alone_init_cookie fuel s l c rest S R) as (s' & l' & -> & S' & _ & X). exists s', l'. split; [exact S'|]. split; [exact X|]. apply G, X.
  - exists s, l. split; [exact S|]. assert (X : sets s s c (level_in_force s c)).
    { unfold level_in_force. destruct (Z.leb_spec 0 (c_level (s_mem s c))); [apply sets_refl|lia]. }
    split; [exact X|]. apply G, X.
Qed.

Example C84_ex : sound ex_ready [0%nat] /\ c_string (bytes_of_string "link up") /\ (4 <=? level_in_force ex_ready 1) = true /\
  exists s', alone 9 ex_ready (program (CLog 4 1 (bytes_of_string "link up"))) = Ok (s', 0, [(33, bytes_of_string "[W] net: link up")]).
Proof. split; [exact (sound_init ex_names)|]. split; [vm_compute; intuition discriminate|]. split; [reflexivity|]. eexists. vm_compute. reflexivity. Qed.

(** False for ULOG_STR, ULOG_BUF and what is built on ulog_log_str: an enabled message is never
    printed. *)
Theorem C84_str_refuted : exists s l, sound s l /\ s_ready s = true /\ forall fuel p c text,
  alone fuel s (program (CStr p c text)) = Ok (s, 0, []).
Proof. exists ex_ready, [0%nat]. split; [exact (sound_init ex_names)|]. split; [reflexivity|]. reflexivity. Qed.
(** False for a priority with a colour or the binary flag: the table of letters is read outside its
    bounds. *)
Theorem C84_flags_refuted : exists s l c, sound s l /\ s_ready s = true /\ forall fuel p text, 8 <= p ->
  Z.land p 7 <= level_in_force s c -> alone fuel s (program (CLog p c text)) = Bug Oob.
Proof.
  exists ex_ready, [0%nat], 0%nat. split; [exact (sound_init ex_names)|]. split; [reflexivity|]. intros fuel p text Hp HL.
  change (level_in_force ex_ready 0) with 6 in HL. cbn [program]. unfold ulog_log. cbn [alone]. change (c_level (s_mem ex_ready 0%nat)) with 6.
  change (6 <? 0) with false. cbv iota. cbn [alone]. change (c_level (s_mem ex_ready 0%nat)) with 6. destruct (Z.leb_spec (Z.land p 7) 6); [|lia].
  cbn [alone]. change (s_ready ex_ready) with true. cbv iota. cbn [alone]. unfold amba_log. destruct (Z.ltb_spec p 8); [lia|].
  rewrite andb_false_r. reflexivity.
Qed.
Example C84_flags_ex : 8 <= 0xff0004 /\ Z.land 0xff0004 7 <= level_in_force ex_ready 0. Proof. split; vm_compute; discriminate. Qed.
(** Levels 0 and 1 (ULOG_PRI only) print a NUL byte for letter. *)
Theorem C84_letter_refuted : exists s l, sound s l /\ s_ready s = true /\ exists s',
  alone 9 s (program (CLog 1 0 (bytes_of_string "x"))) = Ok (s', 0, [(0, [91; 0; 93] ++ bytes_of_string " threadx: x")]).
Proof. exists ex_ready, [0%nat]. split; [exact (sound_init ex_names)|]. split; [reflexivity|]. eexists. vm_compute. reflexivity. Qed.

(** ** C85 *)

(** Whatever the thread name, tag and message, the sample stays inside its buffer. *)
Theorem C85_inside : forall stack index prio thread tag log, zlen stack = BUF_SIZE ->
  exists b, ulog_shd_put stack index prio thread tag log = Ok b /\
    zlen (b_buf b) = BUF_SIZE /\ 0 <= b_thn b /\ 0 <= b_tag b /\ 0 <= b_log b /\ b_thn b + b_tag b + b_log b <= BUF_SIZE /\
    0 <= b_index b < 65536 /\ 0 <= b_prio b <= 7.
Proof.
  intros stack index prio thread tag log HS. destruct (shd_put_ok stack index prio thread tag log HS) as (R & HA & ->).
  eexists. split; [reflexivity|]. cbn [b_buf b_thn b_tag b_log b_index b_prio]. cbn zeta in HA. revert HA.
  set (T := thn_part thread). set (G := ztake (BUF_SIZE - zlen T) tag). set (L := ztake (BUF_SIZE - zlen T - zlen G) log). intros HA.
  pose proof (zlen_nonneg R). rewrite !zlen_app in HA. pose proof (zlen_nonneg T). pose proof (zlen_nonneg G). pose proof (zlen_nonneg L).
  split.
  { destruct (Z.eqb_spec (zlen R) 0); rewrite ?zlen_app, ?zlen_ztake, ?zlen_app; change (zlen [0]) with 1; unfold BUF_SIZE in *; lia. }
  do 4 (split; [lia|]). split; [unfold u16; apply Z.mod_pos_bound; lia|].
  unfold put_level. destruct (prio =? 0); cbn [negb]; [destruct (_ && _); lia|].
  change PRIO_LEVEL_MASK with (Z.ones 3). rewrite Z.land_ones by lia. pose proof (Z.mod_pos_bound prio (2 ^ 3)). lia.
Qed.

(** For thread names of at most 15 bytes the sample is the one the Linux backend would have written, so
    the relay gives the same entry (C53). *)
Theorem C85_same : forall stack index prio tn pad name log, c_string tn -> zlen tn <= 15 ->
  ulog_shd_put stack index prio (Some tn) (name ++ [0]) log =
  ulog_shd_write stack index
    (if prio =? 0 then if (6 <=? zlen log) && (znth 0 log =? 27) && (znth 5 log =? 49) then 3 else 6 else prio)
    1 (Some (tn ++ 0 :: pad)) name log.
Proof.
  intros stack index prio tn pad name log Hn Hl.
  unfold ulog_shd_put, ulog_shd_write. cbn [put_thread_name put_thread]. rewrite cstr_array by auto. cbv zeta.
  destruct (mem_write stack 0 (ztake (BUF_SIZE - 1) tn ++ [0])) as [b|]; [|reflexivity]. cbn [bind].
  destruct (put_field b _ (name ++ [0])) as [[b2 tg]|]; [|reflexivity]. cbn [bind].
  destruct (put_field b2 _ log) as [[b3 lg]|]; [|reflexivity]. cbn [bind].
  destruct (if _ =? BUF_SIZE then _ else _) as [b4|]; [|reflexivity]. cbn [bind]. f_equal. f_equal.
  unfold put_level. destruct (Z.eqb_spec prio 0); cbn [negb]; [|reflexivity]. rewrite Z.geb_leb. destruct (_ && _); reflexivity.
Qed.

(** A line printed in colour (seven bytes of escape sequence, the sixth is the digit of the colour, then
    the text) without level: the relay takes the sequence off and gives the colour (cyan, 6, comes out
    as yellow: C151); red is an error, the others are information. *)
Theorem C85_colour : forall stack index tn name digit text sec nsec pname, zlen stack = BUF_SIZE -> c_string tn ->
  zlen tn + zlen name + zlen text <= 245 -> 48 <= digit <= 55 ->
  exists b, ulog_shd_put stack index 0 (Some tn) (name ++ [0])
      ([27] ++ bytes_of_string "[1;3" ++ [digit] ++ bytes_of_string "m" ++ text ++ [0]) = Ok b /\
    fill_raw_entry b sec nsec pname =
      Ok (mkRaw 0 1 sec nsec 0 ((if digit =? 49 then 3 else 6) + 256 * rgb (if digit =? 54 then 3 else digit - 48)) pname (tn ++ [0]) (name ++ [0])
            (Some (text ++ [0]))).
Proof.
  intros stack index tn name digit text sec nsec pname HS Hn Hr Hd.
  set (pre := [27] ++ bytes_of_string "[1;3" ++ [digit] ++ bytes_of_string "m").
  replace ([27] ++ bytes_of_string "[1;3" ++ [digit] ++ bytes_of_string "m" ++ text ++ [0]) with (pre ++ text ++ [0]) by reflexivity.
  assert (Hp : zlen pre = 7) by reflexivity.
  destruct (shd_put_ok stack index 0 (Some tn) (name ++ [0]) (pre ++ text ++ [0]) HS) as (R & HA & ->).
  eexists. split; [reflexivity|]. cbn [thn_part] in *. cbn zeta in HA.
  pose proof (zlen_nonneg tn). pose proof (zlen_nonneg name). pose proof (zlen_nonneg text). pose proof (zlen_nonneg R).
  rewrite (ztake_all _ tn) in * by (unfold BUF_SIZE; lia).
  assert (L1 : forall x, zlen (x ++ [0]) = zlen x + 1) by (intros; rewrite zlen_app; reflexivity).
  rewrite (ztake_all _ (name ++ [0])) in * by (rewrite !L1; unfold BUF_SIZE; lia).
  rewrite (ztake_all _ (pre ++ text ++ [0])) in * by (rewrite zlen_app, !L1; unfold BUF_SIZE; lia).
  destruct (Z.eqb_spec (zlen R) 0) as [E|E].
  { exfalso. rewrite !zlen_app in HA. change (zlen [0]) with 1 in HA. unfold BUF_SIZE in HA. lia. }
  rewrite <- !app_assoc. replace (pre ++ text ++ [0] ++ R) with ((pre ++ text ++ [0]) ++ R) by (now rewrite <- !app_assoc).
  rewrite (app_assoc tn [0]), (app_assoc name [0]).
  rewrite fill_colour by reflexivity. rewrite L1. destruct (Z.eqb_spec (zlen tn + 1) 0); [lia|]. change (s32 1) with 1.
  change (znth 5 pre) with digit. do 2 f_equal.
  assert (PL : put_level 0 (pre ++ text ++ [0]) = if digit =? 49 then 3 else 6).
  { unfold put_level. cbn [Z.eqb negb]. rewrite zlen_app, L1, Hp. destruct (Z.geb_spec (7 + (zlen text + 1)) 6); [|lia].
    change (znth 0 (pre ++ text ++ [0])) with 27. change (znth 5 (pre ++ text ++ [0])) with digit. reflexivity. }
  rewrite PL.
  assert (D : digit = 48 \/ digit = 49 \/ digit = 50 \/ digit = 51 \/ digit = 52 \/ digit = 53 \/ digit = 54 \/ digit = 55) by lia.
  destruct D as [->|[->|[->|[->|[->|[->|[->| ->]]]]]]]; reflexivity.
Qed.

Example C85_ex : exists b r, c_string ex_thr /\
  ulog_shd_put ex_stack 65535 0 (Some ex_thr) (ex_name ++ [0]) ([27] ++ bytes_of_string "[1;31mfan stopped" ++ [0]) = Ok b /\
  (b_index b, b_prio b, b_tid b, b_thn b, b_tag b, b_log b) = (65535, 3, 1, 7, 4, 19) /\
  fill_raw_entry b 1 2 [0] = Ok r /\ rw_prio r = 0xff000003 /\ rw_message r = Some (bytes_of_string "fan stopped" ++ [0]).
Proof.
  do 2 eexists. split; [vm_compute; intuition discriminate|]. split; [vm_compute; reflexivity|]. split; [vm_compute; reflexivity|].
  split; [vm_compute; reflexivity|]. split; vm_compute; reflexivity.
Qed.

(** False of long thread names, which ThreadX allows: one of 255 bytes or more fills the sample, nothing
    of tag and message is kept and the relay reads outside the buffer. *)
Theorem C85_long_name_refuted : forall stack index prio tn tag log sec nsec pname, zlen stack = BUF_SIZE -> 255 <= zlen tn ->
  exists b, ulog_shd_put stack index prio (Some tn) tag log = Ok b /\ b_tag b = 0 /\ b_log b = 0 /\
    fill_raw_entry b sec nsec pname = Bug Oob.
Proof.
  intros stack index prio tn tag log sec nsec pname HS HN.
  destruct (shd_put_ok stack index prio (Some tn) tag log HS) as (R & HA & ->). cbn [thn_part] in *. cbn zeta in HA. revert HA.
  set (T := ztake (BUF_SIZE - 1) tn ++ [0]).
  assert (LT : zlen T = 256) by (unfold T; rewrite zlen_app, zlen_ztake; change (zlen [0]) with 1; unfold BUF_SIZE; lia).
  rewrite LT. change (BUF_SIZE - 256) with 0. rewrite !ztake_0. change (zlen (@nil Z)) with 0. change (BUF_SIZE - 256 - 0) with 0.
  rewrite ?ztake_0. change (zlen (@nil Z)) with 0. rewrite !app_nil_r, LT. intros HA. assert (zlen R = 0) by (unfold BUF_SIZE in HA; lia).
  eexists. split; [reflexivity|]. cbn [b_tag b_log]. split; [reflexivity|]. split; [reflexivity|].
  rewrite H. cbn [Z.eqb]. unfold fill_raw_entry. cbn [b_thn b_tag b_log b_buf b_tid b_prio].
  set (B := ztake (BUF_SIZE - 1) T ++ [0]).
  assert (LB : zlen B = 256) by (unfold B; rewrite zlen_app, zlen_ztake; change (zlen [0]) with 1; unfold BUF_SIZE; lia).
  rewrite mem_read_ok by lia. cbn [bind]. rewrite mem_read_ok by lia. cbn [bind].
  assert (EL : load B (256 + 0) = Bug Oob) by (unfold load; rewrite LB; reflexivity). rewrite EL. reflexivity.
Qed.
Example C85_long_name_ex : zlen ex_stack = BUF_SIZE /\ 255 <= zlen (zrepeat 97 255). Proof. split; vm_compute; [reflexivity|discriminate]. Qed.

(** ** C86 *)

(** Threads ready to put the messages [msgs]. *)
Definition start (msgs : list (list Z)) : list (list Z * pc) := map (fun m => (m, P_start)) msgs.
(** The indices from [i] on, modulo 65536, beside messages. *)
Fixpoint numbered (i : Z) (msgs : list (list Z)) : list (Z * list Z) :=
  match msgs with [] => [] | m :: r => (i mod 65536, m) :: numbered (i + 1) r end.

Lemma thread_one : forall ts i s m p, nth_error ts i = Some (m, p) -> exists ts',
  put_thread_step s ts i = (fst (put_step s m p), ts') /\ nth_error ts' i = Some (m, snd (put_step s m p)) /\
  forall j, j <> i -> nth_error ts' j = nth_error ts j.
Proof.
  induction ts as [|[m0 p0] ts IH]; intros i s m p E; destruct i; try discriminate.
  - cbn in E. injection E as -> ->. cbn [put_thread_step]. destruct (put_step s m p) as [s' p']. eexists. split; [reflexivity|]. split; [reflexivity|].
    intros j Hj. destruct j; [congruence|reflexivity].
  - cbn in E. destruct (IH i s m p E) as (ts' & E1 & E2 & E3). cbn [put_thread_step]. rewrite E1. eexists. split; [reflexivity|].
    split; [exact E2|]. intros j Hj. destruct j; [reflexivity|]. cbn. apply E3. congruence.
Qed.
Lemma thread_alone : forall ts i m idx out rest, nth_error ts i = Some (m, P_start) ->
  exists ts', put_run (mkSh true idx out) ts (repeat i 6 ++ rest) = put_run (mkSh true (u16 (idx + 1)) (out ++ [(idx, m)])) ts' rest /\
    forall j, j <> i -> nth_error ts' j = nth_error ts j.
Proof.
  intros ts i m idx out rest E0. cbn [repeat app put_run].
  destruct (thread_one ts i (mkSh true idx out) m P_start E0) as (t1 & X1 & E1 & J1). rewrite X1. cbn [put_step fst snd sh_on] in *.
  destruct (thread_one t1 i (mkSh true idx out) m _ E1) as (t2 & X2 & E2 & J2). rewrite X2. cbn [put_step fst snd sh_on sh_index sh_out] in *.
  destruct (thread_one t2 i (mkSh true idx out) m _ E2) as (t3 & X3 & E3 & J3). rewrite X3. cbn [put_step fst snd sh_on sh_index sh_out] in *.
  edestruct (thread_one t3 i) as (t4 & X4 & E4 & J4); [exact E3|]. rewrite X4. cbn [put_step fst snd sh_on sh_index sh_out] in *.
  edestruct (thread_one t4 i) as (t5 & X5 & E5 & J5); [exact E4|]. rewrite X5. cbn [put_step fst snd sh_on sh_index sh_out] in *.
  edestruct (thread_one t5 i) as (t6 & X6 & E6 & J6); [exact E5|]. rewrite X6. cbn [put_step fst snd sh_on sh_index sh_out] in *.
  exists t6. split; [reflexivity|]. intros j Hj. rewrite J6, J5, J4, J3, J2, J1 by exact Hj. reflexivity.
Qed.

(** Threads that put their messages one after the other, in any order: all are stored, in that order,
    with successive indices. *)
Theorem C86_stored_partial : forall order msgs i, NoDup order -> Forall (fun t => (t < length msgs)%nat) order -> 0 <= i < 65536 ->
  sh_out (fst (put_run (mkSh true i []) (start msgs) (flat_map (fun t => repeat t 6) order))) =
  numbered i (map (fun t => nth t msgs []) order).
Proof.
  intros order msgs i ND HF Hi.
  assert (G : forall order ts i k out, NoDup order -> i = k mod 65536 ->
    (forall t, In t order -> nth_error ts t = Some (nth t msgs [], P_start)) ->
    sh_out (fst (put_run (mkSh true i out) ts (flat_map (fun t => repeat t 6) order))) = out ++ numbered k (map (fun t => nth t msgs []) order)).
  { clear. induction order as [|t order IH]; intros ts i k out ND Hk HT; [cbn; now rewrite app_nil_r|].
    change (flat_map (fun t0 => repeat t0 6) (t :: order)) with (repeat t 6 ++ flat_map (fun t0 => repeat t0 6) order).
    destruct (thread_alone ts t (nth t msgs []) i out (flat_map (fun t0 => repeat t0 6) order)) as (ts' & -> & J); [apply HT; now left|].
    inversion ND; subst. rewrite (IH ts' _ (k + 1)).
    - cbn [map numbered]. rewrite <- app_assoc. reflexivity.
    - assumption.
    - unfold u16. rewrite Zplus_mod_idemp_l. reflexivity.
    - intros t' H. rewrite J by (intros ->; contradiction). apply HT. now right. }
  rewrite (G order (start msgs) i i []); [reflexivity|exact ND|rewrite Z.mod_small by lia; reflexivity|].
  intros t Ht. pose proof (proj1 (Forall_forall _ _) HF t Ht) as L. cbv beta in L. unfold start.
  rewrite nth_error_map. rewrite (nth_error_nth' msgs [] L). reflexivity.
Qed.
Example C86_ex : numbered 65535 [[97]; [98]] = [(65535, [97]); (0, [98])] /\
  sh_out (fst (put_run (mkSh true 65535 []) (start [[98]; [97]]) (flat_map (fun t => repeat t 6) [1; 0]%nat))) = [(65535, [97]); (0, [98])].
Proof. split; reflexivity. Qed.

(** False of threads that overlap. A message put while another is being stored is dropped, and since no
    index is used for it the relay does not see it. *)
Theorem C86_dropped_refuted : exists msgs sched s ts, put_run (mkSh true 1 []) (start msgs) sched = (s, ts) /\
  map fst ts = msgs /\ Forall (fun t => snd t = P_done) ts /\ length msgs = 3%nat /\ map snd (sh_out s) = [[97]; [99]] /\
  In [98] msgs /\ check_index (fst (nth 0 (sh_out s) (0, []))) (fst (nth 1 (sh_out s) (0, []))) = [].
Proof.
  exists [[97]; [98]; [99]], [0; 0; 0; 0; 1; 0; 0; 2; 2; 2; 2; 2; 2]%nat. do 2 eexists. split; [vm_compute; reflexivity|].
  split; [reflexivity|]. split; [repeat constructor|]. split; [reflexivity|]. split; [reflexivity|]. split; [now right; left|]. vm_compute. reflexivity.
Qed.
(** Or two messages get the same index, and the relay reports losses that did not happen. *)
Theorem C86_index_refuted : exists msgs sched s ts, put_run (mkSh true 1 []) (start msgs) sched = (s, ts) /\
  map snd (sh_out s) = msgs /\ length msgs = 2%nat /\ map fst (sh_out s) = [1; 1] /\
  check_index (fst (nth 0 (sh_out s) (0, []))) (fst (nth 1 (sh_out s) (0, []))) = [Many].
Proof.
  exists [[97]; [98]], [0; 0; 1; 1; 0; 0; 0; 0; 1; 1; 1; 1]%nat. do 2 eexists. split; [vm_compute; reflexivity|].
  repeat split.
Qed.

Print Assumptions C82_registry_partial.
Print Assumptions C82_visit_partial.
Print Assumptions C82_mutex_refuted.
Print Assumptions C83_levels.
Print Assumptions C83_by_name.
Print Assumptions C83_not_ready.
Print Assumptions C84_printed_partial.
Print Assumptions C84_str_refuted.
Print Assumptions C84_flags_refuted.
Print Assumptions C84_letter_refuted.
Print Assumptions C85_inside.
Print Assumptions C85_same.
Print Assumptions C85_colour.
Print Assumptions C85_long_name_refuted.
Print Assumptions C86_stored_partial.
Print Assumptions C86_dropped_refuted.
Print Assumptions C86_index_refuted.
