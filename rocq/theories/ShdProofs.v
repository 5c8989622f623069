From Coq Require Import ZArith String List Bool Lia ZifyBool ZifyNat Arith.
From Verif Require Import Bytes BytesProofs Parse Iov Klog KlogProofs Shd.
Import ListNotations.
Open Scope Z_scope.

(** Writing [d] after what is already at the start of a block. *)
Lemma write_next (A d R : list Z) off : off = zlen A -> zlen d <= zlen R ->
  mem_write (A ++ R) off d = Ok (A ++ d ++ zdrop (zlen d) R).
Proof.
  intros -> H. pose proof (zlen_nonneg A). pose proof (zlen_nonneg d).
  rewrite mem_write_ok by (rewrite ?zlen_app; lia). rewrite ztake_app_exact by reflexivity.
  do 3 f_equal. rewrite zdrop_app by lia. rewrite (zdrop_all _ A) by lia. cbn [app]. f_equal. lia.
Qed.

Lemma cstr_short t : zlen (cstr (ztake 15 t)) <= 15.
Proof.
  assert (G : forall l, zlen (cstr l) <= zlen l).
  { induction l as [|c l IH]; cbn [cstr]; [lia|]. destruct (c =? 0); rewrite ?zlen_cons; [change (zlen (@nil Z)) with 0; pose proof (zlen_nonneg l); lia|lia]. }
  specialize (G (ztake 15 t)). rewrite zlen_ztake in G. lia.
Qed.

(** The content of a sample, by pieces. *)
Definition thread_part (thread : option (list Z)) : list Z :=
  match thread with Some t => cstr (ztake 15 t) ++ [0] | None => [] end.
Definition tag_part (thread : option (list Z)) (name : list Z) : list Z :=
  ztake (BUF_SIZE - zlen (thread_part thread)) (name ++ [0]).
Definition log_part (thread : option (list Z)) (name buf : list Z) : list Z :=
  ztake (BUF_SIZE - zlen (thread_part thread) - zlen (tag_part thread name)) buf.

Lemma thread_part_len thread : zlen (thread_part thread) <= 16.
Proof.
  destruct thread; cbn [thread_part]; [|change (zlen (@nil Z)) with 0; lia]. rewrite zlen_app.
  change (zlen [0]) with 1. pose proof (cstr_short l). lia.
Qed.

Lemma ztake_min {A} n (l : list A) : ztake (Z.min (zlen l) n) l = ztake n l.
Proof.
  destruct (Z.leb_spec (zlen l) n); [rewrite Z.min_l by lia; rewrite !ztake_all by lia; reflexivity|].
  rewrite Z.min_r by lia. reflexivity.
Qed.
Lemma read_prefix (l : list Z) n : 0 <= n -> mem_read l 0 (Z.min (zlen l) n) = Ok (ztake n l).
Proof.
  intros H. pose proof (zlen_nonneg l). rewrite mem_read_ok by lia. unfold zsub. rewrite zdrop_nonpos by lia.
  now rewrite ztake_min.
Qed.

Lemma shd_write_ok stack index prio tid thread name buf : zlen stack = BUF_SIZE ->
  exists R, let A := thread_part thread ++ tag_part thread name ++ log_part thread name buf in
    zlen A + zlen R = BUF_SIZE /\
    ulog_shd_write stack index prio tid thread name buf =
      Ok (mkBlob (u16 index) (Z.land prio PRIO_LEVEL_MASK) (u32 tid) (zlen (thread_part thread))
            (zlen (tag_part thread name)) (zlen (log_part thread name buf))
            (if zlen R =? 0 then ztake (BUF_SIZE - 1) A ++ [0] else A ++ R)).
Proof.
  intros HS. unfold ulog_shd_write.
  pose proof (thread_part_len thread) as HT. pose proof (zlen_nonneg (thread_part thread)) as HT0.
  set (T := thread_part thread) in *. set (G := tag_part thread name) in *. set (L := log_part thread name buf) in *.
  assert (E1 : exists R1, zlen T + zlen R1 = BUF_SIZE /\ put_thread stack thread = Ok (T ++ R1, zlen T)).
  { subst T. destruct thread as [t|]; cbn [thread_part put_thread] in *.
    - pose proof (cstr_short t). set (s := cstr (ztake 15 t)) in *. cbn zeta.
      rewrite (ztake_all _ s) by (unfold BUF_SIZE; lia).
      rewrite zlen_app in HT, HT0 |- *. change (zlen [0]) with 1 in *.
      rewrite mem_write_ok by (rewrite ?zlen_app; change (zlen [0]) with 1; unfold BUF_SIZE in *; lia).
      cbn [bind]. rewrite ztake_0. cbn [app]. rewrite zlen_app. change (zlen [0]) with 1.
      destruct (Z.geb_spec (zlen s) BUF_SIZE); [unfold BUF_SIZE in *; lia|].
      exists (zdrop (0 + (zlen s + 1)) stack). split; [rewrite zlen_zdrop; unfold BUF_SIZE in *; lia|reflexivity].
    - exists stack. change (zlen (@nil Z)) with 0. split; [lia|reflexivity]. }
  destruct E1 as (R1 & H1 & ->). cbn [bind].
  assert (PF : forall A R src, zlen A + zlen R = BUF_SIZE -> exists R', let d := ztake (BUF_SIZE - zlen A) src in
    zlen (A ++ d) + zlen R' = BUF_SIZE /\ put_field (A ++ R) (zlen A) src = Ok ((A ++ d) ++ R', zlen d)).
  { clear. intros A R src H. unfold put_field. pose proof (zlen_nonneg A). pose proof (zlen_nonneg R). pose proof (zlen_nonneg src).
    set (d := ztake (BUF_SIZE - zlen A) src).
    assert (Hd : zlen d = Z.max 0 (Z.min (zlen src) (BUF_SIZE - zlen A))) by (unfold d; rewrite zlen_ztake; lia).
    cbn zeta. destruct (Z.ltb_spec (zlen A) BUF_SIZE).
    - rewrite read_prefix by lia. cbn [bind]. fold d. rewrite write_next by (auto; lia). cbn [bind].
      exists (zdrop (zlen d) R). rewrite zlen_app, zlen_zdrop, <- app_assoc. split; [lia|]. do 2 f_equal. lia.
    - assert (d = []) as -> by (apply zlen_zero_nil; lia). exists R. rewrite app_nil_r. split; [lia|reflexivity]. }
  destruct (PF T R1 (name ++ [0]) H1) as (R2 & H2 & ->). cbn [bind]. cbn zeta in H2.
  change (ztake (BUF_SIZE - zlen T) (name ++ [0])) with G in *.
  replace (zlen T + zlen G) with (zlen (T ++ G)) by (now rewrite zlen_app).
  destruct (PF (T ++ G) R2 buf H2) as (R3 & H3 & ->). cbn [bind]. cbn zeta in H3.
  replace (BUF_SIZE - zlen (T ++ G)) with (BUF_SIZE - zlen T - zlen G) in * by (rewrite zlen_app; lia).
  change (ztake (BUF_SIZE - zlen T - zlen G) buf) with L in *.
  rewrite <- (app_assoc T G L) in *. rewrite !zlen_app in *.
  exists R3. cbn zeta. rewrite ?zlen_app. split; [lia|].
  pose proof (zlen_nonneg R3). pose proof (zlen_nonneg L).
  destruct (Z.eqb_spec (zlen T + zlen G + zlen L) BUF_SIZE) as [E|E].
  - assert (R3 = []) as -> by (apply zlen_zero_nil; lia). rewrite app_nil_r. change (zlen (@nil Z) =? 0) with true. cbv iota.
    unfold store. rewrite mem_write_ok by (rewrite ?zlen_app; change (zlen [0]) with 1; unfold BUF_SIZE in *; lia).
    cbn [bind]. change (BUF_SIZE - 1 + zlen [0]) with BUF_SIZE. rewrite zdrop_all by (rewrite !zlen_app; lia).
    reflexivity.
  - cbn [bind]. destruct (Z.eqb_spec (zlen R3) 0); [lia|]. reflexivity.
Qed.

Lemma read_mid (A d R : list Z) off n : off = zlen A -> n = zlen d -> mem_read (A ++ d ++ R) off n = Ok d.
Proof.
  intros -> ->. pose proof (zlen_nonneg A). pose proof (zlen_nonneg d). pose proof (zlen_nonneg R).
  rewrite mem_read_ok by (rewrite ?zlen_app; lia). unfold zsub. rewrite zdrop_app_exact by reflexivity.
  now rewrite ztake_app_exact.
Qed.

Lemma fill_ok i p tid T G c m R sec nsec pname : c <> 27 \/ zlen (c :: m) < 7 ->
  fill_raw_entry (mkBlob i p tid (zlen T) (zlen G) (zlen (c :: m)) (T ++ G ++ (c :: m) ++ R)) sec nsec pname =
  Ok (mkRaw 0 (if zlen T =? 0 then 0 else s32 tid) sec nsec 0 p pname T G (Some (c :: m))).
Proof.
  intros H. unfold fill_raw_entry. cbn [b_thn b_tag b_log b_buf b_tid b_prio].
  pose proof (zlen_nonneg T) as HT. pose proof (zlen_nonneg G) as HG.
  pose proof (read_mid [] T (G ++ (c :: m) ++ R) 0 (zlen T) eq_refl eq_refl) as E1. cbn [app] in E1.
  change (T ++ G ++ (c :: m) ++ R) with (T ++ G ++ c :: m ++ R). rewrite E1. cbn [bind].
  rewrite (read_mid T G (c :: m ++ R)) by reflexivity. cbn [bind].
  assert (E3 : load (T ++ G ++ c :: m ++ R) (zlen T + zlen G) = Ok c).
  { unfold load. rewrite !zlen_app, zlen_cons. pose proof (zlen_nonneg (m ++ R)).
    destruct (Z.leb_spec 0 (zlen T + zlen G)); [|lia].
    destruct (Z.ltb_spec (zlen T + zlen G) (zlen T + (zlen G + (1 + zlen (m ++ R))))); [|lia]. cbn [andb].
    f_equal. unfold znth. rewrite app_assoc. rewrite app_nth2 by (rewrite app_length; unfold zlen; lia).
    replace (Z.to_nat (zlen T + zlen G) - length (T ++ G))%nat with 0%nat by (rewrite app_length; unfold zlen; lia). reflexivity. }
  rewrite E3. cbn [bind].
  assert (EB : (c =? 27) && (zlen (c :: m) >=? 7) = false).
  { destruct (Z.eqb_spec c 27); [|reflexivity]. destruct (Z.geb_spec (zlen (c :: m)) 7); [|reflexivity]. lia. }
  rewrite EB. rewrite app_assoc. change (c :: m ++ R) with ((c :: m) ++ R).
  rewrite read_mid by (now rewrite ?zlen_app). reflexivity.
Qed.

(** A message that starts with an escape sequence. *)
Lemma fill_colour i p tid T G x1 x2 x3 x4 c x6 m R sec nsec pname :
  let L := 27 :: x1 :: x2 :: x3 :: x4 :: c :: x6 :: m in
  fill_raw_entry (mkBlob i p tid (zlen T) (zlen G) (zlen L) (T ++ G ++ L ++ R)) sec nsec pname =
  Ok (mkRaw 0 (if zlen T =? 0 then 0 else s32 tid) sec nsec 0
        (Z.lor p (Z.shiftl (znth (Z.land (c - 48) 7) shdcolor) PRIO_COLOR_SHIFT)) pname T G (Some m)).
Proof.
  intros L. unfold fill_raw_entry. cbn [b_thn b_tag b_log b_buf b_tid b_prio].
  pose proof (zlen_nonneg T) as HT. pose proof (zlen_nonneg G) as HG. pose proof (zlen_nonneg m) as Hm. pose proof (zlen_nonneg R) as HR.
  pose proof (read_mid [] T (G ++ L ++ R) 0 (zlen T) eq_refl eq_refl) as E1. cbn [app] in E1. change ([] ++ T ++ G ++ L ++ R) with (T ++ G ++ L ++ R) in E1.
  rewrite E1. cbn [bind]. rewrite (read_mid T G (L ++ R)) by reflexivity. cbn [bind].
  assert (LD : forall n x, 0 <= n < 7 -> nth (Z.to_nat n) L (-1) = x -> load (T ++ G ++ L ++ R) (zlen T + zlen G + n) = Ok x).
  { intros n x Hn X. unfold load. assert (LL : 7 <= zlen L) by (unfold L; rewrite !zlen_cons; lia). rewrite !zlen_app.
    destruct (Z.leb_spec 0 (zlen T + zlen G + n)); [|lia]. destruct (Z.ltb_spec (zlen T + zlen G + n) (zlen T + (zlen G + (zlen L + zlen R)))); [|lia]. cbn [andb].
    f_equal. unfold znth. rewrite !app_assoc, <- (app_assoc (T ++ G)). rewrite app_nth2 by (rewrite app_length; unfold zlen in *; lia).
    replace (Z.to_nat (zlen T + zlen G + n) - length (T ++ G))%nat with (Z.to_nat n) by (rewrite app_length; unfold zlen; lia).
    rewrite app_nth1 by (unfold zlen in LL; lia). exact X. }
  pose proof (LD 0 27 ltac:(lia) eq_refl) as E0. rewrite Z.add_0_r in E0. rewrite E0. cbn [bind].
  assert (EB : (27 =? 27) && (zlen L >=? 7) = true) by (unfold L; rewrite !zlen_cons; destruct (Z.geb_spec (1 + (1 + (1 + (1 + (1 + (1 + (1 + zlen m))))))) 7); [reflexivity|lia]).
  rewrite EB. rewrite (LD 5 c ltac:(lia) eq_refl). cbn [bind].
  assert (EL : T ++ G ++ L ++ R = (T ++ G ++ [27; x1; x2; x3; x4; c; x6]) ++ m ++ R) by (unfold L; rewrite <- !app_assoc; reflexivity).
  rewrite EL, read_mid; [reflexivity| |unfold L; rewrite !zlen_cons; lia].
  rewrite !zlen_app. change (zlen [27; x1; x2; x3; x4; c; x6]) with 7. lia.
Qed.

Lemma cstr_array tn r : ~ In 0 tn -> zlen tn <= 15 -> cstr (ztake 15 (tn ++ 0 :: r)) = tn.
Proof.
  intros H L. pose proof (zlen_nonneg tn). rewrite ztake_app, ztake_all by lia.
  assert (G : forall a b, ~ In 0 a -> cstr (a ++ 0 :: b) = a /\ cstr a = a).
  { clear. induction a as [|c a IH]; intros b H; [cbn; auto|]. cbn [cstr app].
    destruct (Z.eqb_spec c 0) as [->|]; [exfalso; apply H; now left|].
    destruct (IH b) as [E1 E2]; [intros X; apply H; now right|]. now rewrite E1, E2. }
  destruct (Z.eq_dec (zlen tn) 15) as [E|E].
  - rewrite E. change (ztake (15 - 15) (0 :: r)) with (@nil Z). rewrite app_nil_r. now apply (G tn []).
  - replace (ztake (15 - zlen tn) (0 :: r)) with (0 :: ztake (15 - zlen tn - 1) r).
    + now apply G.
    + unfold ztake. replace (Z.to_nat (15 - zlen tn)) with (S (Z.to_nat (15 - zlen tn - 1))) by lia. reflexivity.
Qed.

(** The sample of a message, when thread name and tag leave room. *)
Lemma sample_ok stack index prio tid tn r name text : zlen stack = BUF_SIZE ->
  ~ In 0 tn -> zlen tn <= 15 -> zlen tn + 1 + zlen name + 1 < BUF_SIZE ->
  let M := ztake (BUF_SIZE - 1 - (zlen tn + 1) - (zlen name + 1)) text ++ [0] in
  exists R, ulog_shd_write stack index prio tid (Some (tn ++ 0 :: r)) name (text ++ [0]) =
    Ok (mkBlob (u16 index) (Z.land prio 7) (u32 tid) (zlen (tn ++ [0])) (zlen (name ++ [0])) (zlen M) ((tn ++ [0]) ++ (name ++ [0]) ++ M ++ R)).
Proof.
  intros HS Hn Hl Hr M0.
  destruct (shd_write_ok stack index prio tid (Some (tn ++ 0 :: r)) name (text ++ [0]) HS) as (R & HA & ->).
  unfold tag_part, log_part, tag_part in *. cbn [thread_part] in *. rewrite cstr_array in * by auto.
  pose proof (zlen_nonneg tn) as P1. pose proof (zlen_nonneg name) as P2. pose proof (zlen_nonneg text) as P3. pose proof (zlen_nonneg R) as P4.
  rewrite (ztake_all _ (name ++ [0])) in * by (rewrite !zlen_app; change (zlen [0]) with 1; lia).
  set (T := tn ++ [0]) in *. set (G := name ++ [0]) in *.
  assert (LT : zlen T = zlen tn + 1) by (unfold T; rewrite zlen_app; reflexivity).
  assert (LG : zlen G = zlen name + 1) by (unfold G; rewrite zlen_app; reflexivity).
  set (k := BUF_SIZE - zlen T - zlen G) in *. assert (Hk : 0 < k) by lia.
  assert (HKK : BUF_SIZE - 1 - (zlen tn + 1) - (zlen name + 1) = k - 1) by lia.
  subst M0. rewrite HKK. set (M := ztake (k - 1) text ++ [0]).
  assert (LM : zlen (ztake k (text ++ [0])) = zlen M).
  { unfold M. rewrite zlen_app, !zlen_ztake, zlen_app. change (zlen [0]) with 1. lia. }
  assert (EB : (if zlen R =? 0 then ztake (BUF_SIZE - 1) (T ++ G ++ ztake k (text ++ [0])) ++ [0]
                else (T ++ G ++ ztake k (text ++ [0])) ++ R) = T ++ G ++ M ++ (if zlen R =? 0 then [] else R)).
  { cbn zeta in HA. rewrite !zlen_app, zlen_ztake, zlen_app in HA. change (zlen [0]) with 1 in HA.
    destruct (Z.eqb_spec (zlen R) 0) as [E|E].
    - rewrite app_nil_r. unfold M.
      rewrite (ztake_app _ T), (ztake_all _ T) by lia. rewrite (ztake_app _ G), (ztake_all _ G) by lia.
      rewrite <- !app_assoc. do 3 f_equal.
      replace (BUF_SIZE - 1 - zlen T - zlen G) with (k - 1) by lia.
      rewrite ztake_ztake. replace (Z.min (k - 1) k) with (k - 1) by lia. rewrite ztake_app.
      replace (ztake (k - 1 - zlen text) [0]) with (@nil Z); [now rewrite ?app_nil_r|].
      unfold ztake. replace (Z.to_nat (k - 1 - zlen text)) with 0%nat by lia. reflexivity.
    - unfold M. rewrite (ztake_all _ (text ++ [0])) by (rewrite zlen_app; change (zlen [0]) with 1; lia).
      rewrite (ztake_all _ text) by lia. now rewrite <- !app_assoc. }
  rewrite EB, LM. eexists. reflexivity.
Qed.
Lemma relay_ok stack index prio tid tn r name text sec nsec pname : zlen stack = BUF_SIZE ->
  ~ In 0 tn -> zlen tn <= 15 -> zlen tn + 1 + zlen name + 1 < BUF_SIZE ->
  hd 0 text <> 27 \/ zlen text < 6 ->
  exists b, ulog_shd_write stack index prio tid (Some (tn ++ 0 :: r)) name (text ++ [0]) = Ok b /\
    b_index b = u16 index /\
    fill_raw_entry b sec nsec pname =
      Ok (mkRaw 0 (s32 (u32 tid)) sec nsec 0 (Z.land prio 7) pname (tn ++ [0]) (name ++ [0])
            (Some (ztake (BUF_SIZE - 1 - (zlen tn + 1) - (zlen name + 1)) text ++ [0]))).
Proof.
  intros HS Hn Hl Hr He.
  destruct (sample_ok stack index prio tid tn r name text HS Hn Hl Hr) as (R & ->). cbv zeta.
  eexists. split; [reflexivity|]. split; [reflexivity|]. pose proof (zlen_nonneg tn) as P1. pose proof (zlen_nonneg text) as P3.
  set (k := BUF_SIZE - 1 - (zlen tn + 1) - (zlen name + 1) + 1). assert (Hk : 0 < k) by lia.
  replace (BUF_SIZE - 1 - (zlen tn + 1) - (zlen name + 1)) with (k - 1) by lia. set (M := ztake (k - 1) text ++ [0]).
  assert (EM : exists c m, M = c :: m /\ (c <> 27 \/ zlen (c :: m) < 7)).
  { assert (HM : zlen M <= zlen text + 1) by (unfold M; rewrite zlen_app, zlen_ztake; change (zlen [0]) with 1; lia).
    revert HM. unfold M. clear - He Hk. destruct text as [|c text].
    - unfold ztake. rewrite firstn_nil. intros _. exists 0, []. split; [reflexivity|]. left; lia.
    - cbn [hd] in He. unfold ztake. destruct (Z.to_nat (k - 1)) as [|j].
      + intros _. exists 0, []. split; [reflexivity|]. left; lia.
      + cbn [firstn app]. intros HM. exists c, (firstn j text ++ [0]). split; [reflexivity|]. rewrite !zlen_cons in *. lia. }
  destruct EM as (c & m & EM & Hc). rewrite EM. rewrite fill_ok by exact Hc.
  destruct (Z.eqb_spec (zlen (tn ++ [0])) 0) as [Z0|_]; [rewrite zlen_app in Z0; change (zlen [0]) with 1 in Z0; lia|]. reflexivity.
Qed.

Lemma index_gap a b : 0 <= b - a - 1 < 32768 ->
  check_index (u16 a) (u16 b) = if b - a - 1 =? 0 then [] else [Lost (b - a - 1)].
Proof.
  intros H. unfold check_index, s16, u16.
  replace ((b mod 65536 - a mod 65536 - 1) mod 65536) with (b - a - 1).
  - destruct (Z.ltb_spec (b - a - 1) 32768); [|lia].
    destruct (Z.gtb_spec (b - a - 1) 0); destruct (Z.eqb_spec (b - a - 1) 0); try lia; [reflexivity|].
    destruct (Z.ltb_spec (b - a - 1) 0); [lia|reflexivity].
  - rewrite <- (Z.mod_small (b - a - 1) 65536) at 1 by lia.
    rewrite Zminus_mod, (Zminus_mod (b mod 65536 - a mod 65536)). rewrite (Zminus_mod b a). rewrite (Zminus_mod (b mod 65536) (a mod 65536)).
    now rewrite !Z.mod_mod by lia.
Qed.
