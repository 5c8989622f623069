From Coq Require Import ZArith String List Bool Lia ZifyBool ZifyNat Arith Sorted.
From Verif Require Import Bytes BytesProofs Parse Iov Klog KlogProofs Shd ShdProofs Relay RelaySpec.
Import ListNotations.
Open Scope Z_scope.

Lemma nth_error_skip {A} n (l : list A) i : nth_error (skipn n l) i = nth_error l (n + i).
Proof. revert l. induction n; intros l; [reflexivity|]. destruct l; [destruct i; reflexivity|]. cbn. apply IHn. Qed.
Lemma skip_skip {A} a b (l : list A) : skipn a (skipn b l) = skipn (b + a) l.
Proof. revert l. induction b; intros l; [reflexivity|]. destruct l; [now rewrite !skipn_nil|]. cbn. apply IHb. Qed.

Lemma after_split d l n : (forall i a, (i < n)%nat -> nth_error l i = Some a -> snd a < d) ->
  (forall a, nth_error l n = Some a -> d <= snd a) -> after d l = skipn n l.
Proof.
  revert l. induction n; intros l H1 H2.
  - destruct l as [|[b t] l]; [reflexivity|]. cbn [after skipn]. specialize (H2 (b, t) eq_refl). cbn in H2. destruct (Z.ltb_spec t d); [lia|reflexivity].
  - destruct l as [|[b t] l]; [reflexivity|]. cbn [after skipn]. pose proof (H1 0%nat (b, t) ltac:(lia) eq_refl) as H. cbn in H.
    destruct (Z.ltb_spec t d); [|lia]. apply IHn.
    + intros i a Hi E. apply (H1 (S i)); [lia|exact E].
    + intros a E. apply H2. exact E.
Qed.
Lemma after_ring hist j k : increasing hist -> (1 <= k <= length hist)%nat ->
  after (snd (nth (k - 1) hist (mkBlob 0 0 0 0 0 0 [], 0)) + 1) (skipn j hist) = skipn (Nat.max j k) hist.
Proof.
  intros HI Hk. set (p := nth (k - 1) hist _).
  assert (EP : nth_error hist (k - 1) = Some p) by (apply nth_error_nth'; lia).
  rewrite (after_split _ _ (k - j)).
  - rewrite skip_skip. f_equal. lia.
  - intros i a Hi E. rewrite nth_error_skip in E. destruct (Nat.eq_dec (j + i) (k - 1)) as [X|X].
    + rewrite X in E. assert (a = p) by congruence. subst. lia.
    + assert (snd a < snd p) by (apply (HI (j + i)%nat (k - 1)%nat); auto; lia). lia.
  - intros a E. rewrite nth_error_skip in E. assert (snd p < snd a) by (apply (HI (k - 1)%nat (j + (k - j))%nat); auto; lia). lia.
Qed.

Lemma send_ok pname l : readable pname l -> forall p, exists acts, send_samples pname p (map stamped l) = Ok (acts, last (map (fun s => b_index (fst s)) l) p) /\
  exists es, relays acts = es /\ Forall2 (fun s e => entry pname s = Ok e) l es.
Proof.
  induction 1 as [|[b t] l (e & He) HF IH]; intros p.
  - exists []. split; [reflexivity|]. exists []. split; [reflexivity|constructor].
  - cbn [map stamped fst snd send_samples]. unfold entry in He. cbn [fst snd] in He. rewrite He. cbn [bind].
    destruct (IH (b_index b)) as (acts & -> & es & R & F2). cbn [bind]. eexists. split.
    { f_equal. f_equal. cbn [last map fst]. destruct l; [reflexivity|]. cbn [map]. clear. generalize (b_index (fst p0)).
      induction l; intros z; cbn [map last]; [reflexivity|]. apply IHl. }
    exists (e :: es). split.
    + unfold relays in *. cbn [flat_map app]. f_equal. rewrite flat_map_app. rewrite R.
      unfold check_index. cbv zeta. destruct (_ >? 0); [reflexivity|]. destruct (_ <? 0); reflexivity.
    + constructor; [exact He|exact F2].
Qed.

(** The reports of a batch of successive samples. *)
Lemma lost_app a b : lost (a ++ b) = lost a + lost b.
Proof. unfold lost. rewrite map_app, fold_right_app. induction (map _ a); cbn; lia. Qed.
Lemma send_reports pname : forall l k j acts i, (k <= j)%nat -> Z.of_nat (j - k) < 32768 ->
  (forall n s, nth_error l n = Some s -> b_index (fst s) = u16 (Z.of_nat (S (j + n)))) ->
  send_samples pname (u16 (Z.of_nat k)) (map stamped l) = Ok (acts, i) ->
  ~ In Many acts /\ lost acts = match l with [] => 0 | _ => Z.of_nat (j - k) end /\
  i = u16 (Z.of_nat (match l with [] => k | _ => (j + length l)%nat end)).
Proof.
  induction l as [|[b t] l IH]; intros k j acts i Hkj Hg HN E.
  - cbn in E. assert (acts = []) by congruence. assert (i = u16 (Z.of_nat k)) by congruence. subst. cbn. auto.
  - cbn [map stamped fst snd send_samples] in E. destruct (fill_raw_entry _ _ _ _) as [r|]; [|discriminate]. cbn [bind] in E.
    pose proof (HN 0%nat (b, t) eq_refl) as HB. cbn [fst] in HB. rewrite HB in E. replace (j + 0)%nat with j in E by lia.
    destruct (send_samples pname (u16 (Z.of_nat (S j))) (map stamped l)) as [[a x]|] eqn:ES; [|discriminate]. cbn [bind] in E.
    assert (acts = Relay r :: check_index (u16 (Z.of_nat k)) (u16 (Z.of_nat (S j))) ++ a) by congruence. assert (i = x) by congruence. subst acts i. clear E.
    destruct (IH (S j) (S j) a x) as (M & L & X); [lia|lia| |exact ES|].
    { intros n s Hn. rewrite (HN (S n) s Hn). do 2 f_equal. lia. }
    rewrite index_gap by lia.
    assert (L0 : lost a = 0). { rewrite L. destruct l; [reflexivity|]. lia. }
    assert (G : forall y, lost (Relay r :: y ++ a) = lost y + lost a) by (intros; change (Relay r :: y ++ a) with ([Relay r] ++ y ++ a); rewrite !lost_app; reflexivity).
    split; [|split].
    + intros [H|H]; [discriminate|]. apply in_app_or in H. destruct H as [H|H]; [|exact (M H)].
      destruct (_ =? 0) in H; [destruct H|]. destruct H as [H|[]]. discriminate.
    + rewrite G, L0. destruct (Z.eqb_spec (Z.of_nat (S j) - Z.of_nat k - 1) 0); unfold lost; cbn [map fold_right]; lia.
    + rewrite X. do 2 f_equal. destruct l; cbn [length]; lia.
Qed.

Definition dflt : blob * Z := (mkBlob 0 0 0 0 0 0 [], 0).
(** State of the relay after [k] of the samples [hist] were seen. *)
Definition seen (k : nat) (hist : list (blob * Z)) (c : ctx) : Prop :=
  (k <= length hist)%nat /\ x_index c = u16 (Z.of_nat k) /\
  x_search c = match k with O => Oldest | S k' => First_after (snd (nth k' hist dflt) + 1) end.

Lemma poll_ok cap pname hist c k rd en : (0 < cap <= NB_SAMPLES)%nat -> seen k hist c -> increasing hist -> numbered hist -> readable pname hist ->
  0 <= rd -> 0 <= en -> Z.of_nat (length hist - k - cap) < 32768 ->
  exists c' acts es, step cap pname (hist, c) (Poll rd en) = Ok (hist, c', acts) /\ seen (length hist) hist c' /\
    relays acts = es /\ Forall2 (fun s e => entry pname s = Ok e) (skipn (Nat.max k (length hist - cap)) hist) es /\
    ~ In Many acts /\ lost acts = Z.of_nat (length hist - cap - k) /\
    exists i, send_samples pname (u16 (Z.of_nat k)) (map stamped (skipn (Nat.max k (length hist - cap)) hist)) = Ok (acts, i).
Proof.
  intros HC (K1 & K2 & K3) HI HN HR Hrd Hen HG. cbn [step].
  assert (ES : match x_search c with Oldest => ring cap hist | First_after d => after d (ring cap hist) end = skipn (Nat.max k (length hist - cap)) hist).
  { rewrite K3. unfold ring. destruct k as [|k'].
    - rewrite Nat.max_0_l. reflexivity.
    - pose proof (after_ring hist (length hist - cap) (S k') HI ltac:(lia)) as A. replace (S k' - 1)%nat with k' in A by lia.
      rewrite Nat.max_comm. exact A. }
  set (j := Nat.max k (length hist - cap)) in *.
  unfold select. rewrite ES.
  assert (LJ : length (skipn j hist) = (length hist - j)%nat) by apply skipn_length.
  rewrite firstn_all2 by lia.
  destruct (skipn j hist) as [|s0 l0] eqn:EL.
  - cbn [length] in LJ. assert (k = length hist) by lia. cbn [poll read_samples bind]. do 3 eexists. split.
    { unfold poll, read_samples. cbn [bind]. rewrite K3. destruct k; reflexivity. }
    split.
    { subst k. split; [lia|]. split; [destruct (length hist); exact K2|]. destruct (length hist); exact K3. }
    split; [reflexivity|]. split; [constructor|]. split; [intros []|]. split; [change (lost []) with 0; lia|]. eexists. reflexivity.
  - rewrite <- EL in *. set (l := skipn j hist) in *. cbn [length] in LJ.
    assert (Ln : l <> []) by (rewrite EL; discriminate).
    assert (Lp : (0 < length l)%nat) by (rewrite EL; cbn; lia).
    unfold poll, read_samples. destruct (Nat.ltb_spec NB_SAMPLES (length l)); [lia|].
    destruct (Z.ltb_spec rd 0); [lia|]. destruct (Z.ltb_spec en 0); [lia|].
    assert (EC : combine (firstn (length l) (map fst l ++ skipn (length l) (x_blobs c))) (map snd l) = l).
    { rewrite firstn_app, map_length, Nat.sub_diag, firstn_O, app_nil_r. rewrite firstn_all2 by (rewrite map_length; lia).
      clear. induction l as [|[a b] l IH]; [reflexivity|]. cbn. now rewrite IH. }
    rewrite EC.
    assert (RL : readable pname l). { unfold readable in *. rewrite <- (firstn_skipn j hist) in HR. apply Forall_app in HR. apply HR. }
    destruct (send_ok pname l RL (x_index c)) as (acts & SS & es & R & F2).
    pose proof SS as S'. rewrite K2 in S'. apply (send_reports pname l k j) in S'; [|lia|lia|].
    2:{ intros n s E. unfold l in E. rewrite nth_error_skip in E. exact (HN _ _ E). }
    destruct S' as (M & LS & X). rewrite SS. cbn [bind].
    assert (LA : snd (last l dflt) = last (map snd l) 0 ).
    { clear - Ln. revert Ln. induction l as [|a l IH]; [congruence|]. intros _. destruct l as [|b l]; [reflexivity|].
      change (last (a :: b :: l) dflt) with (last (b :: l) dflt). change (last (map snd (a :: b :: l)) 0) with (last (map snd (b :: l)) 0). apply IH. discriminate. }
    assert (LH : exists q, length hist = S q /\ nth q hist dflt = last l dflt).
    { exists (length hist - 1)%nat. split; [lia|].
      assert (E1 : nth (length l - 1) l dflt = last l dflt).
      { clear - Ln. revert Ln. induction l as [|a l IH]; [congruence|]. intros _. destruct l as [|b l]; [reflexivity|].
        change (last (a :: b :: l) dflt) with (last (b :: l) dflt). rewrite <- IH by discriminate. cbn [length nth]. replace (S (length l) - 0)%nat with (S (length l)) by lia.
        replace (S (length l) - 1)%nat with (length l) by lia. reflexivity. }
      rewrite <- E1. unfold l. rewrite <- (firstn_skipn j hist) at 2. rewrite app_nth2 by (rewrite firstn_length; lia). f_equal.
      rewrite firstn_length. fold l. lia. }
    destruct LH as (q & Lq & Nq).
    assert (XI : last (map (fun s => b_index (fst s)) l) (x_index c) = u16 (Z.of_nat (length hist))).
    { rewrite K2, X. do 2 f_equal. clear - Ln LJ Lq Lp. clearbody l. destruct l; [congruence|]. cbn [length] in *. lia. }
    rewrite XI. clearbody l. destruct l as [|s1 l1]; [congruence|]. set (l := s1 :: l1) in *. cbv iota beta. cbn [bind]. 
    do 3 eexists. split.
    { cbn [x_search]. destruct (x_search c); cbv iota beta; cbn [Z.eqb bind x_index x_blobs x_stop]; reflexivity. }
    split.
    { split; [lia|]. destruct (x_search c); cbn [x_index x_search]; (split; [reflexivity|]); rewrite Lq, Nq, LA; reflexivity. }
    split; [exact R|]. split; [exact F2|]. split; [exact M|]. split; [rewrite LS; lia|]. rewrite K2 in SS. eauto.
Qed.

(** A poll that fails at its end changes nothing. *)
Lemma poll_failed cap pname hist c k rd en : (0 < cap <= NB_SAMPLES)%nat -> seen k hist c -> en < 0 ->
  exists c', step cap pname (hist, c) (Poll rd en) = Ok (hist, c', []) /\ seen k hist c'.
Proof.
  intros HC (K1 & K2 & K3) Hen. cbn [step]. destruct (select (x_search c) (ring cap hist)) as [l|] eqn:E.
  - assert (L : (length l <= NB_SAMPLES)%nat).
    { unfold select in E. match type of E with match ?x with _ => _ end = _ => assert (length x <= NB_SAMPLES)%nat by (rewrite firstn_length; apply Nat.le_min_l); destruct x; [discriminate|] end.
      injection E as <-. assumption. }
    unfold poll, read_samples. destruct (Nat.ltb_spec NB_SAMPLES (length l)); [lia|]. destruct (Z.ltb_spec en 0); [|lia].
    cbn [bind x_search]. rewrite K3. destruct k.
    + replace (en =? 0) with false by (clear - Hen; lia). eexists. split; [reflexivity|]. split; [exact K1|]. cbn [x_index x_search]. auto.
    + eexists. split; [reflexivity|]. split; [exact K1|]. cbn [x_index x_search]. auto.
  - exists c. split; [|split; auto]. unfold poll, read_samples. cbn [bind]. destruct (x_search c); reflexivity.
Qed.

Lemma number_them {A B} (P : A -> B -> Prop) H l es : Forall2 P l es -> forall j, (forall n s, nth_error l n = Some s -> nth_error H (j + n)%nat = Some s) ->
  Forall2 (fun i e => exists s, nth_error H i = Some s /\ P s e) (seq j (length l)) es.
Proof.
  induction 1 as [|s e l es HP HF IH]; intros j HN; cbn [length seq]; constructor.
  - exists s. split; [|exact HP]. rewrite <- (HN 0%nat s eq_refl). f_equal. lia.
  - apply IH. intros n s' E. rewrite <- (HN (S n) s' E). f_equal. lia.
Qed.
Lemma seq_sorted n : forall j, StronglySorted lt (seq j n).
Proof. induction n; intros j; cbn; constructor; auto. apply Forall_forall. intros x. rewrite in_seq. lia. Qed.
Lemma sorted_app a b (m : nat) : StronglySorted lt a -> StronglySorted lt b -> Forall (fun i => i < m)%nat a -> Forall (fun i => m <= i)%nat b -> StronglySorted lt (a ++ b).
Proof.
  induction 1 as [|x a HS IH HF]; intros Hb Ha Hm; [exact Hb|]. cbn. inversion_clear Ha. constructor; [auto|].
  apply Forall_app. split; [exact HF|]. eapply Forall_impl; [|exact Hm]. intros y Hy. cbn in *. lia.
Qed.
Lemma numbered_prefix a b : numbered (a ++ b) -> numbered a.
Proof. intros H i s E. apply H. rewrite nth_error_app1; [exact E|]. apply nth_error_Some. congruence. Qed.
Lemma increasing_prefix a b : increasing (a ++ b) -> increasing a.
Proof. intros H i j x y L E1 E2. apply (H i j); [exact L| |]; (rewrite nth_error_app1; [assumption|]; apply nth_error_Some; congruence). Qed.
Lemma polled_ge l : forall n k, (k <= n)%nat -> (k <= polled n k l)%nat.
Proof. induction l as [|[b t|rd en] l IH]; intros n k H; cbn [polled]; [lia|apply IH; lia|]. destruct (en <? 0); [apply IH; lia|]. pose proof (IH n n ltac:(lia)). lia. Qed.

Lemma run_ok cap pname B : (0 < cap <= NB_SAMPLES)%nat -> Z.of_nat B < 32768 + Z.of_nat cap -> forall l hist c k, seen k hist c -> (length hist - k <= B)%nat ->
  at_most B (length hist - k) l -> numbered (hist ++ puts l) -> increasing (hist ++ puts l) -> readable pname (hist ++ puts l) -> Forall fine l ->
  exists c' acts ks, run cap pname (hist, c) l = Ok (hist ++ puts l, c', acts) /\ StronglySorted lt ks /\
    Forall (fun i => k <= i < polled (length hist) k l)%nat ks /\
    Forall2 (fun i e => exists s, nth_error (hist ++ puts l) i = Some s /\ entry pname s = Ok e) ks (relays acts) /\
    ~ In Many acts /\ lost acts + Z.of_nat (length ks) = Z.of_nat (polled (length hist) k l - k) /\ ((B <= cap)%nat -> lost acts = 0).
Proof.
  intros HC HB. induction l as [|[b t|rd en] l IH]; intros hist c k HS HL HM HN HI HR HF.
  - exists c, [], []. cbn [run puts polled]. rewrite app_nil_r. split; [reflexivity|]. split; [constructor|]. split; [constructor|]. split; [constructor|].
    split; [intros []|]. split; [|reflexivity]. cbn. lia.
  - cbn [at_most] in HM. destruct HM as (HM1 & HM2). cbn [puts polled] in *. inversion_clear HF.
    assert (EA : hist ++ (b, t) :: puts l = (hist ++ [(b, t)]) ++ puts l) by now rewrite <- app_assoc. rewrite EA in *.
    destruct HS as (K1 & K2 & K3).
    destruct (IH (hist ++ [(b, t)]) c k) as (c' & acts & ks & R & P); try assumption.
    { split; [rewrite app_length; cbn; lia|]. split; [exact K2|]. rewrite K3. destruct k; [reflexivity|]. rewrite app_nth1 by lia. reflexivity. }
    { rewrite app_length. cbn [length]. lia. }
    { rewrite app_length. cbn [length]. replace (length hist + 1 - k)%nat with (S (length hist - k)) by lia. exact HM2. }
    rewrite app_length in P. cbn [length] in P. replace (length hist + 1)%nat with (S (length hist)) in P by lia.
    exists c', acts, ks. split; [|exact P]. cbn [run step bind]. rewrite R. reflexivity.
  - cbn [at_most] in HM. cbn [puts polled] in *. inversion_clear HF. cbn [fine] in H. destruct H as [(Hrd & Hen)|(Hen & _)].
    2:{ destruct (poll_failed cap pname hist c k rd en HC HS Hen) as (c1 & E1 & S1). replace (en <? 0) with true in * by (clear - Hen; lia).
        destruct (IH hist c1 k) as (c' & acts & ks & R & P); try assumption. exists c', acts, ks. split; [|exact P]. cbn [run]. rewrite E1. cbn [bind]. rewrite R. reflexivity. }
    replace (en <? 0) with false in * by (clear - Hen; lia).
    pose proof HS as (K1 & K2 & K3).
    destruct (poll_ok cap pname hist c k rd en) as (c1 & a1 & es & E1 & S1 & R1 & F1 & M1 & L1 & _); try assumption.
    { eapply increasing_prefix. exact HI. } { eapply numbered_prefix. exact HN. } { apply Forall_app in HR. apply HR. } { lia. }
    destruct (IH hist c1 (length hist)) as (c' & acts & ks & R & P1 & P2 & P3 & P4 & P5 & P6); try assumption; try lia.
    { rewrite Nat.sub_diag. exact HM. }
    set (j := Nat.max k (length hist - cap)) in *.
    exists c', (a1 ++ acts), (seq j (length hist - j) ++ ks).
    pose proof (polled_ge l (length hist) (length hist) ltac:(lia)) as PG.
    split. { cbn [run]. rewrite E1. cbn [bind]. rewrite R. reflexivity. }
    split. { apply sorted_app with (m := length hist); [apply seq_sorted|exact P1| |].
      - apply Forall_forall. intros x. rewrite in_seq. lia.
      - eapply Forall_impl; [|exact P2]. cbn. lia. }
    split. { apply Forall_app. split; [apply Forall_forall; intros x; rewrite in_seq; lia|]. eapply Forall_impl; [|exact P2]. cbn. lia. }
    split. { unfold relays. rewrite flat_map_app. apply Forall2_app; [|exact P3]. fold (relays a1). rewrite R1. rewrite <- (skipn_length j hist).
      apply number_them; [exact F1|]. intros n s E. rewrite nth_error_skip in E. rewrite nth_error_app1; [exact E|]. apply nth_error_Some. congruence. }
    split. { rewrite in_app_iff. tauto. }
    rewrite lost_app, app_length, seq_length. split; [lia|]. intros HBC. rewrite (P6 HBC), L1. lia.
Qed.

Lemma sorted_full n : forall j ks, StronglySorted lt ks -> Forall (fun i => j <= i < j + n)%nat ks -> length ks = n -> ks = seq j n.
Proof.
  induction n; intros j ks HS HF HL; [destruct ks; [reflexivity|discriminate]|].
  destruct ks as [|k ks]; [discriminate|]. inversion_clear HS. inversion_clear HF. cbn in HL. cbn [seq].
  assert (E : ks = seq (S j) n). { apply IHn; [assumption| |lia]. apply Forall_forall. intros x Hx.
    pose proof (proj1 (Forall_forall _ _) H0 x Hx). pose proof (proj1 (Forall_forall _ _) H2 x Hx). cbn in *. lia. }
  f_equal; [|exact E]. destruct n as [|n]; [lia|]. subst ks. inversion_clear H0. lia.
Qed.
