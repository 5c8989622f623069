(** C136, first part: from the calls of the tasks to what the relay does. *)
From Coq Require Import ZArith String List Bool Lia ZifyBool ZifyNat Arith Sorted.
From Verif Require Import Bytes BytesProofs Ring RingSpec Parse ParseSpec Iov Shd ShdProofs Relay RelaySpec RelayProofs PropsMacros ShdRun ProgramSpec ShdRunSpec.
From Verif Require Macros.
Import ListNotations.
Open Scope Z_scope.

(** The priority word and the entry that a message must become. *)
Definition colour_of (m : message) : Z := if hd 0 (m_text m) =? 27 then znth (Z.land (znth 5 (m_text m) - 48) 7) shdcolor else 0.
Definition word_of (m : message) : Z := Z.lor (m_prio m mod 8) (Z.shiftl (colour_of m) 8).
Definition raw_of (pname : list Z) (m : message) : raw_entry :=
  mkRaw 0 (s32 (u32 (m_tid m))) (m_time m / 1000000000) (m_time m mod 1000000000) 0 (word_of m) pname (m_thread m ++ [0]) (m_tag m ++ [0])
    (Some (text_of m ++ [0])).

Lemma sample_one m index : recorded m = true -> ShdRunSpec.proper m ->
  exists buf b, Macros.ulog_log (m_stack m) (m_prio m) (m_level m) (m_text m) = Ok (Some buf) /\
    ulog_shd_write (m_blob m) index (m_prio m) (m_tid m) (Some (m_thread m ++ 0 :: m_pad m)) (m_tag m) buf = Ok b /\
    b_index b = u16 index /\ forall pname, RelaySpec.entry pname (b, m_time m) = Ok (raw_of pname m).
Proof.
  intros RC P. destruct (pm_stack _ P) as [S1 S2]. destruct (pm_thread _ P) as [T1 T2]. destruct (pm_tag _ P) as [G1 G2]. destruct (pm_text _ P) as [X1 X2].
  exists (ztake 255 (m_text m) ++ [0]).
  assert (L1 : Macros.ulog_log (m_stack m) (m_prio m) (m_level m) (m_text m) = Ok (Some (ztake 255 (m_text m) ++ [0]))).
  { unfold Macros.ulog_log. assert (Macros.enabled (m_prio m) (m_level m) = true) as ->.
    { unfold Macros.enabled. change 7 with (Z.ones 3). rewrite Z.land_ones by lia. exact RC. }
    apply vlog; [unfold zlen; rewrite S1; reflexivity|lia]. }
  rewrite L1. pose proof (zlen_nonneg (m_thread m)) as N1. pose proof (zlen_nonneg (m_tag m)) as N2. pose proof (zlen_nonneg (m_text m)) as N3.
  destruct (sample_ok (m_blob m) index (m_prio m) (m_tid m) (m_thread m) (m_pad m) (m_tag m) (ztake 255 (m_text m))) as (R & E); auto.
  { unfold zlen, BUF_SIZE. rewrite S2. reflexivity. } { unfold BUF_SIZE. lia. }
  cbv zeta in E. rewrite ztake_ztake in E. replace (Z.min (BUF_SIZE - 1 - (zlen (m_thread m) + 1) - (zlen (m_tag m) + 1)) 255) with (253 - zlen (m_thread m) - zlen (m_tag m)) in E by (unfold BUF_SIZE; lia).
  set (t := ztake (253 - zlen (m_thread m) - zlen (m_tag m)) (m_text m)) in *. exists (mkBlob (u16 index) (Z.land (m_prio m) 7) (u32 (m_tid m)) (zlen (m_thread m ++ [0])) (zlen (m_tag m ++ [0])) (zlen (t ++ [0]))
    ((m_thread m ++ [0]) ++ (m_tag m ++ [0]) ++ (t ++ [0]) ++ R)).
  split; [reflexivity|]. split; [exact E|]. split; [reflexivity|]. intros pname. unfold RelaySpec.entry. cbn [fst snd]. unfold raw_of, word_of, colour_of, text_of.
  cbv zeta. change (firstn (Z.to_nat (253 - zlen (m_thread m) - zlen (m_tag m))) (m_text m)) with t.
  replace (Z.land (m_prio m) 7) with (m_prio m mod 8) by (change 7 with (Z.ones 3); rewrite Z.land_ones by lia; reflexivity).
  assert (HH : hd 0 t = hd 0 (m_text m)).
  { unfold t, ztake. destruct (m_text m); [now rewrite firstn_nil|]. destruct (Z.to_nat (253 - zlen (m_thread m) - zlen (m_tag m))) eqn:E0; [lia|reflexivity]. }
  assert (TT : forall z, (if zlen (m_thread m ++ [0]) =? 0 then 0 else z) = z).
  { intros z. destruct (Z.eqb_spec (zlen (m_thread m ++ [0])) 0) as [Z0|]; [rewrite zlen_app in Z0; change (zlen [0]) with 1 in Z0; lia|reflexivity]. }
  rewrite HH. destruct (Z.eqb_spec (hd 0 (m_text m)) 27) as [H27|H27].
  - destruct (pm_colour _ P H27) as (c & r & C & ET). assert (Et : t = [27; 91; 48; 59; 51; c; 109] ++ ztake (246 - zlen (m_thread m) - zlen (m_tag m)) r).
    { unfold t. rewrite ET, ztake_app, ztake_all by (change (zlen [27; 91; 48; 59; 51; c; 109]) with 7; lia). f_equal. f_equal. change (zlen [27; 91; 48; 59; 51; c; 109]) with 7. lia. }
    rewrite Et, ET. cbn [app]. match goal with |- context [zlen (27 :: ?l)] => pose proof (fill_colour (u16 index) (m_prio m mod 8) (u32 (m_tid m)) (m_thread m ++ [0]) (m_tag m ++ [0]) 91 48 59 51 c 109 (ztake (246 - zlen (m_thread m) - zlen (m_tag m)) r ++ [0]) R (m_time m / 1000000000) (m_time m mod 1000000000) pname) as FC end.
    cbv zeta in FC. cbn [app] in FC. rewrite FC, TT. cbn [skipn]. reflexivity.
  - replace (Z.shiftl 0 8) with 0 by reflexivity. rewrite Z.lor_0_r.
    assert (EM : exists c m0, t ++ [0] = c :: m0 /\ c <> 27).
    { destruct t as [|c t0]; [exists 0, []; split; [reflexivity|lia]|]. exists c, (t0 ++ [0]). split; [reflexivity|]. cbn [hd] in HH. congruence. }
    destruct EM as (c & m0 & EM & HC). rewrite EM. rewrite fill_ok by now left. rewrite TT. reflexivity.
Qed.

(** Numbering a batch. *)
Lemma send_batch pname : forall l k j acts i, (k <= j)%nat -> Z.of_nat (j - k) < 32768 ->
  (forall n s, nth_error l n = Some s -> b_index (fst s) = u16 (Z.of_nat (S (j + n)))) ->
  send_samples pname (u16 (Z.of_nat k)) (map stamped l) = Ok (acts, i) ->
  exists es, Forall2 (fun s e => RelaySpec.entry pname s = Ok e) l es /\
    acts = match es with [] => [] | e :: r => Relay e :: (if (j <=? k)%nat then [] else [Lost (Z.of_nat (j - k))]) ++ map Relay r end.
Proof.
  induction l as [|[b t] l IH]; intros k j acts i Hkj Hg HN E.
  - cbn in E. assert (acts = []) by congruence. subst. exists []. split; [constructor|reflexivity].
  - cbn [map stamped fst snd send_samples] in E. destruct (fill_raw_entry b (t / 1000000000) (t mod 1000000000) pname) as [r|] eqn:EF; [|discriminate]. cbn [bind] in E.
    pose proof (HN 0%nat (b, t) eq_refl) as HB. cbn [fst] in HB. rewrite HB in E. replace (j + 0)%nat with j in E by lia.
    destruct (send_samples pname (u16 (Z.of_nat (S j))) (map stamped l)) as [[a x]|] eqn:ES; [|discriminate]. cbn [bind] in E.
    assert (acts = Relay r :: check_index (u16 (Z.of_nat k)) (u16 (Z.of_nat (S j))) ++ a) by congruence. subst acts. clear E.
    destruct (IH (S j) (S j) a x) as (es & F & ->); [lia|lia| |exact ES|].
    { intros n s Hn. rewrite (HN (S n) s Hn). do 2 f_equal. lia. }
    rewrite index_gap by lia. exists (r :: es). split; [constructor; [exact EF|exact F]|]. f_equal. f_equal.
    + destruct (Z.eqb_spec (Z.of_nat (S j) - Z.of_nat k - 1) 0), (Nat.leb_spec j k); try lia; [reflexivity|]. do 2 f_equal. lia.
    + destruct es as [|e es]; [reflexivity|]. rewrite Nat.leb_refl. reflexivity.
Qed.

Definition act_of (pname : list Z) (it : item) : list act :=
  match it with Starts => [] | Shown m => [Relay (raw_of pname m)] | Told n => [Lost n] end.
Definition acts_of (pname : list Z) (l : list item) : list act := flat_map (act_of pname) l.
Lemma acts_shown pname l : acts_of pname (map Shown l) = map Relay (map (raw_of pname) l).
Proof. induction l as [|m l IH]; [reflexivity|]. cbn [map acts_of flat_map act_of app]. now f_equal. Qed.
Lemma acts_app pname a b : acts_of pname (a ++ b) = acts_of pname a ++ acts_of pname b.
Proof. apply flat_map_app. Qed.

Definition matches (pname : list Z) (s : blob * Z) (m : message) : Prop := RelaySpec.entry pname s = Ok (raw_of pname m) /\ snd s = m_time m.
Lemma Forall2_skip {A B} (P : A -> B -> Prop) n : forall l r, Forall2 P l r -> Forall2 P (skipn n l) (skipn n r).
Proof. induction n as [|n IH]; intros l r H; [exact H|]. destruct H; cbn [skipn]; [constructor|]. now apply IH. Qed.
Lemma Forall2_len {A B} (P : A -> B -> Prop) l r : Forall2 P l r -> length l = length r.
Proof. induction 1; cbn; congruence. Qed.
Lemma entries_fun pname l ms : Forall2 (matches pname) l ms -> forall es, Forall2 (fun s e => RelaySpec.entry pname s = Ok e) l es -> es = map (raw_of pname) ms.
Proof.
  induction 1 as [|s m l ms [M _] _ IH]; intros es H; inversion H as [|? e ? es' E H']; subst; [reflexivity|]. cbn [map]. rewrite (IH _ H').
  f_equal. congruence.
Qed.

(** The recorded messages. *)
Definition recs (l : list happening) : list message := flat_map (fun x => match x with Says m => if recorded m then [m] else [] | _ => [] end) l.
Lemma times_recs l : times l = map m_time (recs l).
Proof.
  induction l as [|[m|rd en] l IH]; cbn [times recs flat_map app]; auto. fold (times l) (recs l). rewrite map_app, <- IH. destruct (recorded m); reflexivity.
Qed.

Lemma run_story cap pname : (0 < cap <= NB_SAMPLES)%nat -> forall l hist ms c k, Forall2 (matches pname) hist ms -> seen k hist c -> numbered hist ->
  StronglySorted Z.lt (map m_time (ms ++ recs l)) -> Forall ShdRunSpec.fine l -> counted cap (length hist - k) l ->
  exists rl hist' c', samples (Z.of_nat (S (length hist))) l = Ok rl /\
    Relay.run cap pname (hist, c) rl = Ok (hist', c', acts_of pname (story cap (skipn k ms) l)).
Proof.
  intros HC. induction l as [|[m|rd en] l IH]; intros hist ms c k M S N T F CT.
  - exists [], hist, c. split; reflexivity.
  - cbn [samples story counted recs flat_map] in *. fold (recs l) in T. inversion F as [|? ? F0 F']; subst. cbn [ShdRunSpec.fine] in F0. destruct (recorded m) eqn:RM.
    + destruct (sample_one m (Z.of_nat (length hist) + 1) RM (F0 eq_refl)) as (buf & b & L1 & L2 & L3 & L4). rewrite L1. cbn [bind].
      replace (Z.of_nat (Datatypes.S (length hist))) with (Z.of_nat (length hist) + 1) by lia. rewrite L2. cbn [bind].
      destruct S as (K1 & K2 & K3). destruct (IH (hist ++ [(b, m_time m)]) (ms ++ [m]) c k) as (rl & hist' & c' & E1 & E2).
      * apply Forall2_app; [exact M|]. constructor; [|constructor]. split; [apply L4|reflexivity].
      * split; [rewrite app_length; cbn; lia|]. split; [exact K2|]. rewrite K3. destruct k; [reflexivity|]. rewrite app_nth1 by lia. reflexivity.
      * intros i s E. destruct (Nat.lt_ge_cases i (length hist)) as [L|L].
        { rewrite nth_error_app1 in E by lia. now apply N. }
        rewrite nth_error_app2 in E by lia. destruct (i - length hist)%nat eqn:D; [|destruct n; discriminate]. cbn in E. injection E as <-. cbn [fst]. rewrite L3. unfold u16. f_equal. lia.
      * now rewrite <- app_assoc.
      * exact F'.
      * rewrite app_length. cbn [length]. replace (length hist + 1 - k)%nat with (Datatypes.S (length hist - k)) by lia. exact CT.
      * rewrite app_length in E1. cbn [length] in E1. replace (Z.of_nat (Datatypes.S (length hist + 1))) with (Z.of_nat (length hist) + 1 + 1) in E1 by lia.
        rewrite E1. cbn [bind]. exists (Put b (m_time m) :: rl), hist', c'. split; [reflexivity|]. cbn [Relay.run Relay.step bind]. rewrite E2. cbn [bind app].
        rewrite skipn_app in *. pose proof (Forall2_len _ _ _ M) as LM. replace (k - length ms)%nat with O by lia. reflexivity.
    + destruct (IH hist ms c k M S N T F' CT) as (rl & hist' & c' & E1 & E2).
      assert (L0 : Macros.ulog_log (m_stack m) (m_prio m) (m_level m) (m_text m) = Ok None).
      { unfold Macros.ulog_log. assert (Macros.enabled (m_prio m) (m_level m) = false) as ->; [|reflexivity].
        unfold Macros.enabled. change 7 with (Z.ones 3). rewrite Z.land_ones by lia. exact RM. }
      rewrite L0. cbn [bind]. eauto.
  - cbn [samples story counted recs flat_map app] in *. fold (recs l) in T. inversion F as [|? ? F0 F']; subst. cbn [ShdRunSpec.fine] in F0. destruct F0 as [Hrd Hen]. destruct CT as [CT0 CT].
    assert (HI : increasing hist).
    { intros i j a b L E1 E2. rewrite map_app in T. assert (TM : StronglySorted Z.lt (map m_time ms)).
      { clear - T. induction ms as [|x ms IH]; [constructor|]. cbn [map app] in *. inversion T as [|? ? T1 T2]; subst. constructor; [now apply IH|]. now apply Forall_app in T2. }
      assert (EM : map snd hist = map m_time ms) by (clear - M; induction M as [|s m l ms [_ Q] _ IH]; cbn [map]; congruence).
      rewrite <- EM in TM. apply (map_nth_error snd) in E1, E2. revert i j L E1 E2. clear - TM. induction TM as [|x l S IH FA]; intros i j L E1 E2; [destruct i; discriminate|].
      destruct j as [|j]; [lia|]. cbn [nth_error] in E2. destruct i as [|i]; cbn [nth_error] in E1.
      - injection E1 as E1. rewrite <- E1. rewrite Forall_forall in FA. apply FA. now apply nth_error_In in E2.
      - apply (IH i j); [lia|exact E1|exact E2]. }
    assert (HR : readable pname hist) by (clear - M; induction M as [|s m l ms [Q _] _ IH]; constructor; eauto).
    destruct (poll_ok cap pname hist c k rd en) as (c1 & a1 & es & E1 & S1 & R1 & F1 & M1 & L1 & i & SS); auto. { lia. }
    set (j := Nat.max k (length hist - cap)) in *. pose proof S as (K1 & _).
    destruct (send_batch pname (skipn j hist) k j a1 i) as (es' & F2 & EA); [lia|lia| |exact SS|].
    { intros n s E. rewrite nth_error_skip in E. exact (N _ _ E). }
    assert (ES : es' = map (raw_of pname) (skipn j ms)) by (apply (entries_fun pname (skipn j hist)); [now apply Forall2_skip|exact F2]). subst es'.
    pose proof (Forall2_len _ _ _ M) as LM.
    destruct (IH hist ms c1 (length hist) M S1 N T F') as (rl & hist' & c' & E3 & E4). { rewrite Nat.sub_diag. exact CT. }
    rewrite E3. cbn [bind]. exists (Poll rd en :: rl), hist', c'. split; [reflexivity|]. cbn [Relay.run]. rewrite E1. cbn [bind]. rewrite E4. cbn [bind].
    rewrite acts_app. rewrite LM at 1. rewrite skipn_all. f_equal. f_equal. f_equal.
    unfold batch. rewrite skip_skip. rewrite skipn_length, <- LM. replace (k + (length hist - k - cap))%nat with j by lia. rewrite EA.
    destruct (skipn j ms) as [|m0 r]; [reflexivity|]. cbn [map]. cbn [acts_of flat_map act_of app]. f_equal. fold (acts_of pname).
    change (flat_map (act_of pname)) with (acts_of pname). rewrite acts_app, acts_shown. f_equal.
    destruct (Nat.leb_spec j k), (Nat.leb_spec (length hist - k) cap); try lia; [reflexivity|]. cbn. do 2 f_equal. lia.
Qed.
