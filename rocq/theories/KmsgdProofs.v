From Coq Require Import ZArith String List Bool Lia ZifyBool ZifyNat Arith.
From Verif Require Import Bytes BytesProofs Parse Klog KlogSpec KlogProofs Kmsgd KmsgdSpec.
Import ListNotations.
Open Scope Z_scope.

Lemma lines_out_app a b : lines_out (a ++ b) = lines_out a ++ lines_out b.
Proof. unfold lines_out. now rewrite map_app, concat_app. Qed.
Lemma with_lf_app a b : with_lf (a ++ b) = with_lf a ++ with_lf b.
Proof. unfold with_lf. now rewrite map_app, concat_app. Qed.

Lemma str_at_ok l r : ~ In 0 l -> str_at (l ++ 0 :: r) = Ok l.
Proof.
  intros H. unfold str_at. rewrite span_c_app; [reflexivity| |reflexivity].
  apply Forall_forall. intros x Hx. destruct (Z.eqb_spec x 0) as [->|]; [contradiction|reflexivity].
Qed.
Lemma strstr_split s n k : strstr s n = Some k -> 0 <= k /\ exists b, s = ztake k s ++ n ++ b.
Proof.
  revert k; induction s as [|c s IH]; intros k; cbn [strstr].
  - destruct (bytes_eqb (ztake (zlen n) []) n) eqn:E; [|discriminate]. intros X; injection X as <-.
    apply bytes_eqb_eq in E. split; [lia|]. exists []. rewrite <- E. unfold ztake. now rewrite !firstn_nil.
  - destruct (bytes_eqb (ztake (zlen n) (c :: s)) n) eqn:E.
    + intros X; injection X as <-. apply bytes_eqb_eq in E. split; [lia|].
      exists (zdrop (zlen n) (c :: s)). rewrite ztake_0. cbn [app]. rewrite <- E at 1. now rewrite ztake_zdrop.
    + destruct (strstr s n) as [k'|]; [|discriminate]. intros X; injection X as <-.
      destruct (IH k' eq_refl) as (H & b & Hb). split; [lia|]. exists b.
      replace (ztake (k' + 1) (c :: s)) with (c :: ztake k' s).
      * cbn [app]. now rewrite <- Hb.
      * unfold ztake. replace (Z.to_nat (k' + 1)) with (S (Z.to_nat k')) by lia. reflexivity.
Qed.

Lemma strstr_first s n k : strstr s n = Some k -> forall a b, s = a ++ n ++ b -> k <= zlen a.
Proof.
  revert k; induction s as [|c s IH]; intros k; cbn [strstr].
  - destruct (bytes_eqb (ztake (zlen n) []) n); [|discriminate]. intros X; injection X as <-. intros a b _. apply zlen_nonneg.
  - destruct (bytes_eqb (ztake (zlen n) (c :: s)) n) eqn:E; [intros X; injection X as <-; intros a b _; apply zlen_nonneg|].
    destruct (strstr s n) as [k'|]; [|discriminate]. intros X; injection X as <-. intros [|x a] b Hab.
    + exfalso. cbn [app] in Hab. rewrite Hab, ztake_app_exact, bytes_eqb_refl in E by reflexivity. discriminate.
    + cbn [app] in Hab. injection Hab as _ Hab. rewrite zlen_cons. specialize (IH k' eq_refl a b Hab). lia.
Qed.
Lemma strstr_none s n : strstr s n = None -> forall a b, s <> a ++ n ++ b.
Proof.
  induction s as [|c s IH]; cbn [strstr]; intros E a b Hab.
  - destruct (bytes_eqb (ztake (zlen n) []) n) eqn:X; [discriminate|]. destruct a; [|discriminate]. destruct n; discriminate.
  - destruct (bytes_eqb (ztake (zlen n) (c :: s)) n) eqn:X; [discriminate|]. destruct (strstr s n); [discriminate|]. destruct a as [|x a].
    + cbn [app] in Hab. rewrite Hab, ztake_app_exact, bytes_eqb_refl in X by reflexivity. discriminate.
    + cbn [app] in Hab. injection Hab as _ Hab. now apply (IH eq_refl a b).
Qed.
Lemma relayed_lines ls o : relayed ls o -> lines_out o = ls.
Proof.
  induction 1 as [|l ids ls o _ _ IH]; [reflexivity|]. change (Line l :: map Evt ids ++ o) with ([Line l] ++ map Evt ids ++ o). rewrite !lines_out_app, IH.
  replace (lines_out (map Evt ids)) with (@nil (list Z)); [reflexivity|]. clear. induction ids; [reflexivity|exact IHids].
Qed.
Lemma relayed_app ls1 o1 ls2 o2 : relayed ls1 o1 -> relayed ls2 o2 -> relayed (ls1 ++ ls2) (o1 ++ o2).
Proof. induction 1; intros H2; [exact H2|]. cbn [app]. rewrite <- app_assoc. constructor; auto. Qed.
Lemma app_same_len (a a' b b' : list Z) : a ++ b = a' ++ b' -> zlen a = zlen a' -> a = a' /\ b = b'.
Proof.
  revert a'. induction a as [|x a IH]; intros [|y a'] E L; cbn [app] in E; rewrite ?zlen_cons in L; change (zlen (@nil Z)) with 0 in L; try (pose proof (zlen_nonneg a); lia); try (pose proof (zlen_nonneg a'); lia); [tauto|].
  injection E as -> E. destruct (IH a' E ltac:(lia)) as (-> & ->). tauto.
Qed.

(** gen_evt changes at most bytes of the line. *)
Lemma gen_evt_ok A l R : ~ In 0 l -> exists l' ev, gen_evt (A ++ l ++ 0 :: R) (zlen A) = Ok (A ++ l' ++ 0 :: R, ev) /\
  zlen l' = zlen l /\ exists ids, ev = map Evt ids /\ anomalies l ids.
Proof.
  intros H. unfold gen_evt. rewrite zdrop_app_exact by reflexivity. rewrite str_at_ok by auto. cbn [bind].
  destruct (strstr l oops_marker) as [k|] eqn:E.
  2: { exists l, []. split; [reflexivity|]. split; [reflexivity|]. exists []. split; [reflexivity|]. intros id (a & b & X & _). exact (strstr_none _ _ E _ _ X). }
  destruct (strstr_split _ _ _ E) as (Hk & b & Hb). set (a := ztake k l) in *.
  assert (Hlen : zlen a = k).
  { pose proof (f_equal zlen Hb) as X. rewrite !zlen_app in X. subst a. rewrite zlen_ztake in *.
    change (zlen oops_marker) with 15 in X. pose proof (zlen_nonneg b). lia. }
  assert (HF : forall a' b', l = a' ++ mark ++ b' -> zlen a <= zlen a') by (intros a' b' X; rewrite Hlen; exact (strstr_first _ _ _ E _ _ X)).
  assert (HS : forall a' b', l = a' ++ mark ++ b' -> (forall a2 b2, l = a2 ++ mark ++ b2 -> zlen a' <= zlen a2) -> b' = b).
  { intros a' b' X Y. specialize (HF _ _ X). specialize (Y a b Hb). destruct (app_same_len a a' (mark ++ b) (mark ++ b')) as (_ & Z0); [transitivity l; [now symmetry|exact X]|lia|]. now apply app_inv_head in Z0. }
  clearbody a.   assert (Hnb : ~ In 0 b) by (intros X; apply H; rewrite Hb; apply in_or_app; right; apply in_or_app; now right).
  replace (A ++ l ++ 0 :: R) with ((A ++ a ++ oops_marker) ++ b ++ 0 :: R) by (rewrite Hb, <- !app_assoc; reflexivity).
  assert (Hp : zlen A + k + zlen oops_marker = zlen (A ++ a ++ oops_marker)) by (rewrite !zlen_app; lia).
  rewrite Hp. destruct (split_at 32 b) as [N|(b1 & b2 & -> & N)].
  - rewrite strchr_none by (auto; lia). cbn [bind]. exists l, []. split; [rewrite Hb, <- !app_assoc; reflexivity|]. split; [reflexivity|]. exists []. split; [reflexivity|].
    intros id (a' & b' & X & _ & Y). apply (HS _ _ X) in Y. apply N. rewrite <- Y. apply in_or_app. right. now left.
  - assert (Hn1 : ~ In 0 b1) by (intros X; apply Hnb; apply in_or_app; now left).
    replace ((A ++ a ++ oops_marker) ++ (b1 ++ 32 :: b2) ++ 0 :: R)
      with ((A ++ a ++ oops_marker) ++ b1 ++ 32 :: b2 ++ 0 :: R) by (now rewrite <- !app_assoc).
    rewrite strchr_some by (auto; lia). cbn [bind]. rewrite app_assoc, store_at by (rewrite !zlen_app; lia). cbn [bind].
    rewrite <- app_assoc, zdrop_app_exact by reflexivity. rewrite str_at_ok by auto. cbn [bind].
    exists (a ++ oops_marker ++ b1 ++ 0 :: b2), [Evt b1]. split; [|split; [|exists [b1]; split; [reflexivity|]; exists a, b2; split; [exact Hb|]; split; [exact N|exact HF]]].
    + rewrite <- !app_assoc. reflexivity.
    + rewrite Hb, !zlen_app, !zlen_cons. lia.
Qed.

Lemma split_loop_ok : forall ls A r R fuel count, Forall (fun l => ~ In 10 l /\ ~ In 0 l) ls -> ~ In 10 r -> ~ In 0 r ->
  (length ls < fuel)%nat ->
  exists A' o, split_loop fuel (A ++ with_lf ls ++ r ++ 0 :: R) (zlen A) count =
    Ok (A' ++ r ++ 0 :: R, count + zlen (with_lf ls), o) /\ zlen A' = zlen A + zlen (with_lf ls) /\ relayed ls o.
Proof.
  induction ls as [|l ls IH]; intros A r R fuel count F Nr N0 Hf; (destruct fuel as [|fuel]; [lia|]).
  - cbn [with_lf map concat app split_loop]. unfold with_lf. cbn [map concat app].
    rewrite strchr_none by (auto; lia). cbn [bind]. exists A, []. change (zlen (@nil Z)) with 0. split; [|split; [lia|constructor]].
    do 3 f_equal. lia.
  - inversion F as [|? ? [Hl10 Hl0] F']; subst. unfold with_lf. cbn [map concat]. fold (with_lf ls).
    cbn [split_loop]. replace (A ++ ((l ++ [10]) ++ with_lf ls) ++ r ++ 0 :: R) with (A ++ l ++ 10 :: (with_lf ls ++ r ++ 0 :: R)) by (now rewrite <- !app_assoc).
    rewrite strchr_some by (auto; lia). cbn [bind].
    rewrite app_assoc, store_at by (now rewrite zlen_app). cbn [bind]. rewrite <- app_assoc.
    rewrite zdrop_app_exact by reflexivity. rewrite str_at_ok by auto. cbn [bind].
    destruct (gen_evt_ok A l (with_lf ls ++ r ++ 0 :: R) Hl0) as (l' & ev & -> & Hl' & ids & -> & Hev). cbn [bind].
    replace (A ++ l' ++ 0 :: with_lf ls ++ r ++ 0 :: R) with ((A ++ l' ++ [0]) ++ with_lf ls ++ r ++ 0 :: R) by (now rewrite <- !app_assoc).
    replace (zlen A + zlen l + 1) with (zlen (A ++ l' ++ [0])) by (rewrite !zlen_app; change (zlen [0]) with 1; lia).
    cbn [length] in Hf.
    destruct (IH (A ++ l' ++ [0]) r R fuel (count + (zlen (A ++ l' ++ [0]) - zlen A)) F' Nr N0 ltac:(lia)) as (A' & o & -> & LA & LO).
    cbn [bind]. exists A', (Line l :: map Evt ids ++ o).
    assert (LL : zlen ((l ++ [10]) ++ with_lf ls) = zlen l + 1 + zlen (with_lf ls)) by (rewrite !zlen_app; reflexivity).
    rewrite !zlen_app in LA. change (zlen [0]) with 1 in LA.
    split; [|split].
    + rewrite LL, !zlen_app. change (zlen [0]) with 1. do 3 f_equal. lia.
    + rewrite LL. lia.
    + now constructor.
Qed.

(** Every byte string without NUL splits into lines and a rest. *)
Lemma lines_exist d : exists ls r, d = with_lf ls ++ r /\ Forall (fun l => ~ In 10 l) ls /\ ~ In 10 r.
Proof.
  induction d as [|c d (ls & r & -> & F & N)].
  - exists [], []. cbn. auto.
  - destruct (Z.eq_dec c 10) as [->|Hc].
    + exists ([] :: ls), r. split; [reflexivity|]. split; [constructor; auto|exact N].
    + destruct ls as [|l ls].
      * exists [], (c :: r). split; [reflexivity|]. split; [constructor|]. intros [X|X]; [congruence|contradiction].
      * exists ((c :: l) :: ls), r. split; [reflexivity|]. inversion F; subst. split; [constructor; auto|exact N].
        intros [X|X]; [congruence|contradiction].
Qed.

(** State between reads: [r] is the start of an unfinished line. *)
Definition pending (N : Z) (s : kst) (r : list Z) : Prop :=
  zlen (ks_buf s) = N /\ ks_off s = zlen r /\ ztake (zlen r) (ks_buf s) = r.

Lemma kstep_ok N s r data ls r' : pending N s r -> zlen r + zlen data <= N - 1 -> ~ In 0 (r ++ data) ->
  r ++ data = with_lf ls ++ r' -> Forall (fun l => ~ In 10 l) ls -> ~ In 10 r' -> zlen r' < N - 1 ->
  exists s' o, kstep N s data = Ok (s', o) /\ pending N s' r' /\ relayed ls o.
Proof.
  intros (HB & HO & HT) Hd H0 E F Nr Hr. unfold kstep. rewrite HO.
  pose proof (zlen_nonneg r). pose proof (zlen_nonneg data). pose proof (zlen_nonneg r').
  rewrite mem_write_ok by lia. cbn [bind]. rewrite HT.
  set (tail := zdrop (zlen r + zlen data) (ks_buf s)).
  assert (HTl : zlen tail = N - zlen r - zlen data) by (subst tail; rewrite zlen_zdrop; lia).
  destruct tail as [|x R]; [change (zlen (@nil Z)) with 0 in HTl; lia|]. rewrite zlen_cons in HTl.
  rewrite app_assoc, store_at by (now rewrite zlen_app). cbn [bind]. rewrite E, <- app_assoc.
  assert (N0 : ~ In 0 r') by (intros X; apply H0; rewrite E; apply in_or_app; now right).
  assert (F0 : Forall (fun l => ~ In 10 l /\ ~ In 0 l) ls).
  { apply Forall_forall. intros l Hl. rewrite Forall_forall in F. split; [now apply F|]. intros X. apply H0. rewrite E.
    apply in_or_app. left. unfold with_lf. apply in_concat. exists (l ++ [10]). split; [apply in_map_iff; eauto|apply in_or_app; now left]. }
  assert (HL : (length ls < S (length (with_lf ls ++ r' ++ 0%Z :: R)))%nat).
  { assert (length ls <= length (with_lf ls))%nat.
    { clear. induction ls as [|l ls IH]; [cbn; lia|]. unfold with_lf in *. cbn [map concat length]. rewrite !app_length. cbn [length]. lia. }
    rewrite !app_length. lia. }
  destruct (split_loop_ok ls [] r' R (S (length (with_lf ls ++ r' ++ 0 :: R))) 0 F0 Nr N0 HL) as (A' & o & EQ & LA & LO).
  cbn [app] in EQ. change (zlen (@nil Z)) with 0 in EQ, LA. rewrite EQ. cbn [bind]. rewrite Z.add_0_l in *.
  assert (HS : zlen r + zlen data = zlen (with_lf ls) + zlen r').
  { rewrite <- !zlen_app. now rewrite E. }
  replace (zlen r + zlen data - zlen (with_lf ls)) with (zlen r') by lia.
  destruct (Z.leb_spec (N - 1) (zlen r')); [lia|].
  pose proof (zlen_nonneg (with_lf ls)).
  assert (HN : zlen (A' ++ r' ++ 0 :: R) = N) by (rewrite !zlen_app, zlen_cons; lia).
  destruct (Z.ltb_spec 0 (zlen (with_lf ls))) as [Hw|Hw]; cbn [andb].
  - destruct (Z.ltb_spec (zlen (with_lf ls)) (zlen r + zlen data)) as [Hx|Hx].
    + rewrite mem_read_ok by lia. cbn [bind]. unfold zsub. rewrite zdrop_app_exact by auto.
      rewrite ztake_app_exact by auto. rewrite mem_write_ok by lia. cbn [bind].
      do 2 eexists. split; [reflexivity|]. split; [|exact LO]. rewrite ztake_0. cbn [app]. split; [|split].
      * cbn [ks_buf]. rewrite zlen_app, zlen_zdrop. lia.
      * reflexivity.
      * cbn [ks_buf]. now apply ztake_app_exact.
    + cbn [bind]. do 2 eexists. split; [reflexivity|]. split; [|exact LO]. split; [exact HN|]. split; [reflexivity|].
      assert (zlen r' = 0) by lia. rewrite (zlen_zero_nil r') by auto. reflexivity.
  - cbn [bind]. do 2 eexists. split; [reflexivity|]. split; [|exact LO]. split; [exact HN|]. split; [reflexivity|].
    assert (A' = []) by (apply zlen_zero_nil; lia). subst A'. cbn [ks_buf app]. now apply ztake_app_exact.
Qed.

Lemma krun_ok N : forall avail s r stream, pending N s r -> zlen r < N - 1 -> ~ In 0 (r ++ stream) ->
  (forall a l b, r ++ stream = a ++ l ++ b -> ~ In 10 l -> zlen l < N - 1) ->
  exists s' rest o r' ls, krun N s stream avail = Ok (s', rest, o) /\ relayed ls o /\
    r ++ stream = with_lf ls ++ r' ++ rest /\ Forall (fun l => ~ In 10 l) ls /\ (~ In 10 r -> ~ In 10 r') /\ pending N s' r' /\
    (Forall (fun n => 0 < n) avail -> zlen rest <= Z.max 0 (zlen stream - zlen avail)).
Proof.
  induction avail as [|n avail IH]; intros s r stream HP Hr H0 HL; cbn [krun].
  - exists s, stream, [], r, []. split; [reflexivity|]. split; [constructor|]. split; [reflexivity|].
    split; [constructor|]. split; [auto|]. split; [auto|]. intros _. change (zlen (@nil Z)) with 0. lia.
  - destruct HP as (HB & HO & HT). rewrite HO.
    set (got := ztake (Z.min n (N - 1 - zlen r)) stream).
    assert (Hg : zlen got <= N - 1 - zlen r) by (subst got; rewrite zlen_ztake; pose proof (zlen_nonneg r); lia).
    assert (Es : stream = got ++ zdrop (zlen got) stream).
    { subst got. rewrite zlen_ztake. rewrite <- (ztake_zdrop (Z.min n (N - 1 - zlen r)) stream) at 1. f_equal.
      pose proof (zlen_nonneg stream).
      destruct (Z.leb_spec (Z.min n (N - 1 - zlen r)) 0).
      - rewrite !zdrop_nonpos by lia. reflexivity.
      - destruct (Z.leb_spec (Z.min n (N - 1 - zlen r)) (zlen stream)).
        + f_equal. lia.
        + rewrite !zdrop_all by lia. reflexivity. }
    set (rest := zdrop (zlen got) stream) in *.
    destruct (lines_exist (r ++ got)) as (ls & r' & E & F & Nr).
    assert (Hr' : zlen r' < N - 1).
    { apply (HL (with_lf ls) r' rest); auto. rewrite Es, app_assoc, E. now rewrite <- app_assoc. }
    assert (H0g : ~ In 0 (r ++ got)).
    { intros X. apply H0. rewrite Es, app_assoc. apply in_or_app. now left. }
    destruct (kstep_ok N s r got ls r' (conj HB (conj HO HT)) ltac:(lia) H0g E F Nr Hr') as (s1 & o1 & -> & HP1 & LO1). cbn [bind].
    assert (ER : r ++ stream = with_lf ls ++ r' ++ rest) by (rewrite Es, app_assoc, E; now rewrite <- app_assoc).
    destruct (IH s1 r' rest HP1 Hr') as (s2 & rest2 & o2 & r2 & ls2 & -> & LO2 & E2 & F2 & N2 & HP2 & G2).
    + intros X. apply H0. rewrite ER. apply in_or_app. now right.
    + intros a l b El. apply (HL (with_lf ls ++ a) l b). rewrite ER, El. now rewrite <- !app_assoc.
    + cbn [bind]. exists s2, rest2, (o1 ++ o2), r2, (ls ++ ls2). split; [reflexivity|].
      split; [now apply relayed_app|]. split; [rewrite ER, E2, with_lf_app; now rewrite <- !app_assoc|].
      split; [now apply Forall_app|]. split; [auto|]. split; [exact HP2|].
      intros FA. pose proof (Forall_inv FA) as Hn. cbn beta in Hn. specialize (G2 (Forall_inv_tail FA)). rewrite zlen_cons.
      pose proof (f_equal zlen Es) as X. rewrite zlen_app in X.
      assert (Z.min 1 (zlen stream) <= zlen got).
      { unfold got. rewrite zlen_ztake. pose proof (zlen_nonneg stream). pose proof (zlen_nonneg r). lia. }
      pose proof (zlen_nonneg avail). pose proof (zlen_nonneg rest). lia.
Qed.
