From Coq Require Import ZArith String List Bool Lia ZifyBool ZifyNat Arith.
From Verif Require Import Bytes BytesProofs Parse Iov Py PySpec.
Import ListNotations.
Open Scope Z_scope.

Lemma no_eol_rev l : no_eol (rev l) <-> no_eol l.
Proof. unfold no_eol. now rewrite <- !in_rev. Qed.
Lemma split_ok : forall n l cur, (length l < n)%nat -> no_eol cur ->
  exists l0, exists l1, l = l0 ++ l1 /\ no_eol l0 /\
    ((l1 = [] /\ split cur l = match rev cur ++ l0 with [] => [] | x => [x] end) \/
     (exists t m, l1 = t ++ m /\ (t = [10] \/ t = [13; 10] \/ t = [13] /\ hd 0 m <> 10) /\ split cur l = (rev cur ++ l0) :: split [] m)).
Proof.
  induction n; intros l cur Hn Hc; [lia|]. destruct l as [|c r].
  - exists [], []. split; [reflexivity|]. split; [split; intros []|]. left. split; [reflexivity|]. cbn [split]. rewrite app_nil_r.
    destruct cur as [|z cur]; [reflexivity|]. cbn [rev]. destruct (rev cur ++ [z]) eqn:E; [destruct (rev cur); discriminate|reflexivity].
  - cbn [split]. destruct (Z.eqb_spec c 10) as [->|N10].
    + exists [], (10 :: r). split; [reflexivity|]. split; [split; intros []|]. right. exists [10], r. split; [reflexivity|]. split; [auto|]. now rewrite app_nil_r.
    + destruct (Z.eqb_spec c 13) as [->|N13].
      * exists [], (13 :: r). split; [reflexivity|]. split; [split; intros []|]. right. destruct r as [|d r'].
        -- exists [13], []. split; [reflexivity|]. split; [right; right; split; [reflexivity|cbn; lia]|]. now rewrite app_nil_r.
        -- destruct (Z.eqb_spec d 10) as [->|Nd].
           ++ exists [13; 10], r'. split; [reflexivity|]. split; [auto|]. now rewrite app_nil_r.
           ++ exists [13], (d :: r'). split; [reflexivity|]. split; [right; right; split; [reflexivity|exact Nd]|]. now rewrite app_nil_r.
      * destruct (IHn r (c :: cur)) as (l0 & l1 & E & NE & H); [cbn in Hn; lia| |].
        { destruct Hc as (A & B). split; intros [X|X]; auto. }
        exists (c :: l0), l1. split; [cbn; now rewrite E|]. split; [destruct NE as (A & B); split; intros [X|X]; auto|].
        cbn [rev] in H. rewrite <- !app_assoc in H. cbn [app] in H. exact H.
Qed.
Lemma splitlines_ok : forall n l, (length l < n)%nat -> lines_of l (splitlines l).
Proof.
  induction n; intros l Hn; [lia|]. unfold splitlines.
  destruct (split_ok (S (length l)) l []) as (l0 & l1 & E & NE & H); [lia|split; intros []|]. cbn [rev app] in H.
  destruct H as [(E1 & ->)|(t & m & E1 & Ht & ->)].
  - subst l1. rewrite app_nil_r in E. subst l. destruct l0; [constructor|]. constructor; [discriminate|exact NE].
  - subst l1 l. constructor; [exact NE|exact Ht|]. apply IHn.
    assert (1 <= length t)%nat by (destruct Ht as [->|[->|(-> & _)]]; cbn; lia). rewrite !app_length in Hn. lia.
Qed.

Lemma utf8_char_ok c : scalar c -> exists b, utf8_char c = Some b /\ ~ In 0 b.
Proof.
  intros H. unfold scalar in H. unfold utf8_char.
  assert (M : forall x, 0 <= x mod 64) by (intros; apply Z.mod_pos_bound; lia).
  assert (D : forall k, 0 < k -> 0 <= c / k) by (intros; apply Z.div_pos; lia).
  pose proof (M c); pose proof (M (c / 64)); pose proof (M (c / 4096)).
  pose proof (D 64 ltac:(lia)); pose proof (D 4096 ltac:(lia)); pose proof (D 262144 ltac:(lia)).
  destruct (Z.ltb_spec c 0x80); [eexists; split; [reflexivity|]; cbn; lia|].
  destruct (Z.ltb_spec c 0x800); [eexists; split; [reflexivity|]; intros [X|[X|[]]]; lia|].
  destruct (Z.leb_spec 0xd800 c); destruct (Z.ltb_spec c 0xe000); cbn [andb]; try lia;
  (destruct (Z.ltb_spec c 0x10000); eexists; (split; [reflexivity|]); intros X; cbn [In] in X; lia).
Qed.
Lemma utf8_ok s : Forall scalar s -> exists b, utf8 s = Some b /\ ~ In 0 b.
Proof.
  induction 1 as [|c s Hc HF (b & E & N)]; [exists []; split; [reflexivity|intros []]|].
  destruct (utf8_char_ok c Hc) as (a & Ea & Na). exists (a ++ b). cbn [utf8]. rewrite Ea, E. split; [reflexivity|].
  rewrite in_app_iff. tauto.
Qed.
Lemma utf8_ascii s : Forall (fun c => 0 < c < 128) s -> utf8 s = Some s.
Proof.
  induction 1 as [|c s Hc HF IH]; [reflexivity|]. cbn [utf8]. rewrite IH. unfold utf8_char.
  destruct (Z.ltb_spec c 0x80); [reflexivity|lia].
Qed.
Lemma lines_in m ls : lines_of m ls -> forall l c, In l ls -> In c l -> In c m.
Proof.
  induction 1 as [|l0 N E|l0 t m ls E T H IH]; intros l c Hl Hc; [destruct Hl| |].
  - destruct Hl as [<-|[]]. exact Hc.
  - rewrite !in_app_iff. destruct Hl as [<-|Hl]; [now left|]. right. right. eapply IH; eassumption.
Qed.

Lemma encoded_char c b : encoded c b -> utf8_char c = Some b.
Proof.
  unfold utf8_char. intros H. destruct H as [c H|a b T H|a b c T1 T2 H N|a b c d T1 T2 T3 H]; unfold tail in *.
  - destruct (Z.ltb_spec c 0x80); [reflexivity|lia].
  - set (v := 64 * a + b) in *. assert (E1 : v / 64 = a) by (unfold v; rewrite Z.mul_comm, Z.div_add_l, Z.div_small by lia; lia).
    assert (E2 : v mod 64 = b) by (unfold v; rewrite Z.add_comm, Z.mul_comm, Z.mod_add, Z.mod_small by lia; lia).
    destruct (Z.ltb_spec v 0x80); [lia|]. destruct (Z.ltb_spec v 0x800); [|lia]. now rewrite E1, E2.
  - set (v := 4096 * a + 64 * b + c) in *. assert (E0 : v / 64 = 64 * a + b) by (replace v with ((64 * a + b) * 64 + c) by (unfold v; lia); rewrite Z.div_add_l, Z.div_small by lia; lia).
    assert (E2 : v mod 64 = c) by (replace v with (c + (64 * a + b) * 64) by (unfold v; lia); rewrite Z.mod_add, Z.mod_small by lia; lia).
    assert (E1 : v / 4096 = a) by (replace v with (a * 4096 + (64 * b + c)) by (unfold v; lia); rewrite Z.div_add_l, Z.div_small by lia; lia).
    assert (E3 : (64 * a + b) mod 64 = b) by (rewrite Z.add_comm, Z.mul_comm, Z.mod_add, Z.mod_small by lia; lia).
    destruct (Z.ltb_spec v 0x80); [lia|]. destruct (Z.ltb_spec v 0x800); [lia|].
    replace ((0xd800 <=? v) && (v <? 0xe000)) with false by (clear - N; lia). destruct (Z.ltb_spec v 0x10000); [|lia]. now rewrite E1, E0, E2, E3.
  - set (v := 262144 * a + 4096 * b + 64 * c + d) in *.
    assert (E0 : v / 64 = 4096 * a + 64 * b + c) by (replace v with ((4096 * a + 64 * b + c) * 64 + d) by (unfold v; lia); rewrite Z.div_add_l, Z.div_small by lia; lia).
    assert (E1 : v / 4096 = 64 * a + b) by (replace v with ((64 * a + b) * 4096 + (64 * c + d)) by (unfold v; lia); rewrite Z.div_add_l, Z.div_small by lia; lia).
    assert (E2 : v / 262144 = a) by (replace v with (a * 262144 + (4096 * b + 64 * c + d)) by (unfold v; lia); rewrite Z.div_add_l, Z.div_small by lia; lia).
    assert (E3 : v mod 64 = d) by (replace v with (d + (4096 * a + 64 * b + c) * 64) by (unfold v; lia); rewrite Z.mod_add, Z.mod_small by lia; lia).
    assert (E4 : (4096 * a + 64 * b + c) mod 64 = c) by (replace (4096 * a + 64 * b + c) with (c + (64 * a + b) * 64) by lia; rewrite Z.mod_add, Z.mod_small by lia; lia).
    assert (E5 : (64 * a + b) mod 64 = b) by (rewrite Z.add_comm, Z.mul_comm, Z.mod_add, Z.mod_small by lia; lia).
    destruct (Z.ltb_spec v 0x80); [lia|]. destruct (Z.ltb_spec v 0x800); [lia|]. replace ((0xd800 <=? v) && (v <? 0xe000)) with false by (clear - H; lia).
    destruct (Z.ltb_spec v 0x10000); [lia|]. now rewrite E2, E1, E0, E3, E4, E5.
Qed.
Lemma encoding_utf8 s b : encoding s b -> utf8 s = Some b.
Proof. induction 1 as [|c s b r H E IH]; [reflexivity|]. cbn [utf8]. now rewrite (encoded_char _ _ H), IH. Qed.

Lemma lstrip_ok l : exists a, l = a ++ lstrip l /\ eols a /\ forall c r, lstrip l = c :: r -> c <> 10 /\ c <> 13.
Proof.
  induction l as [|c l (a & E & H & N)]; [exists []; split; [reflexivity|]; split; [constructor|discriminate]|].
  cbn [lstrip]. unfold crlf. destruct (Z.eqb_spec c 10) as [->|N1].
  - exists (10 :: a). cbn [orb app]. split; [now rewrite <- E|]. split; [constructor; [now left|exact H]|exact N].
  - destruct (Z.eqb_spec c 13) as [->|N2].
    + exists (13 :: a). cbn [orb app]. split; [now rewrite <- E|]. split; [constructor; [now right|exact H]|exact N].
    + exists []. split; [reflexivity|]. split; [constructor|]. cbn [orb]. intros x r X. injection X as <- <-. auto.
Qed.
Lemma strip_trimmed m : trimmed m (strip m).
Proof.
  unfold strip. destruct (lstrip_ok m) as (a & E & Ha & Na). set (u := lstrip m) in *. clearbody u.
  destruct (lstrip_ok (rev u)) as (b & F & Hb & Nb). set (w := lstrip (rev u)) in *. clearbody w.
  assert (G : u = rev w ++ rev b) by (rewrite <- (rev_involutive u), F, rev_app_distr; reflexivity).
  exists a, (rev b). split; [now rewrite <- G|]. split; [exact Ha|]. split; [now apply Forall_rev|]. split.
  - intros c r X. apply (Na c (r ++ rev b)). rewrite G, X. reflexivity.
  - intros c r X. apply (Nb c (rev r)). rewrite <- (rev_involutive w), X, rev_app_distr. reflexivity.
Qed.

Lemma device_lines_ok h prio tag : forall lines times ps, length times = length lines -> device_lines h prio tag times lines = inr ps ->
  Forall2 (fun q p => device_line h (fst (fst q)) (snd (fst q)) prio tag (snd q) = inr p) (combine times lines) ps.
Proof.
  induction lines as [|x lines IH]; intros [|[s n] times] ps HL E; try discriminate; cbn [device_lines combine] in *; [injection E as <-; constructor|].
  destruct (device_line h s n prio tag x) as [|p] eqn:EL; [discriminate|]. destruct (device_lines h prio tag times lines) as [|l] eqn:ED; [discriminate|].
  injection E as <-. constructor; [exact EL|]. apply IH; [now injection HL|exact ED].
Qed.

(** ** The bridge *)
Lemma mem_in x l : mem x l = true <-> In x l.
Proof. unfold mem. rewrite existsb_exists. split; [intros (y & H & E); apply Nat.eqb_eq in E; congruence|]. intros H. exists x. split; [exact H|apply Nat.eqb_refl]. Qed.
Lemma remove1_in x l : NoDup l -> forall y, In y (remove1 x l) <-> In y l /\ y <> x.
Proof.
  induction 1 as [|z l NI ND IH]; intros y; cbn [remove1]; [cbn; tauto|].
  destruct (Nat.eqb_spec x z) as [->|N].
  - cbn. split; [intros H; split; [now right|]; intros ->; contradiction|]. intros ([E|H] & N); [congruence|exact H].
  - cbn. rewrite IH. split; [intros [->|(A & B)]; auto|]. intros ([->|A] & B); auto.
Qed.
Lemma remove1_nodup x l : NoDup l -> NoDup (remove1 x l).
Proof.
  induction 1 as [|z l NI ND IH]; cbn [remove1]; [constructor|]. destruct (Nat.eqb_spec x z); [exact ND|]. constructor; [|exact IH].
  rewrite remove1_in by exact ND. tauto.
Qed.
Definition good (l : list bop) (s : bridge) : Prop :=
  NoDup (b_loggers s) /\ (forall x, In x (b_loggers s) <-> is_on x l = true) /\
  (b_current s = Native <-> forall x f, ~ In (Enable x f) l) /\
  b_kernel s = (if muted l then None else if existsb (fun o => match o with Enable _ _ => true | _ => false end) l then Some Native else None).
Lemma settled_snoc l o : settled (l ++ [o]) -> settled l /\ match o with Enable _ true => muted l = false | _ => True end.
Proof.
  induction l as [|a l IH]; cbn [app settled]; intros H.
  - split; [exact I|]. destruct o as [y [|]|]; [reflexivity|exact I|exact I].
  - destruct a as [y [|]|y].
    + destruct (IH H) as (A & B). split; [exact A|]. exact B.
    + destruct H as (H1 & H2). destruct (IH H2) as (A & B). split; [split; [|exact A]|].
      * intros z Hz. apply (H1 z). apply in_or_app. now left.
      * destruct o as [z [|]|]; try exact I. exfalso. apply (H1 z). apply in_or_app. right. now left.
    + destruct (IH H) as (A & B). split; [exact A|]. exact B.
Qed.
Lemma good_ops l : settled l -> good l (after_ops l).
Proof.
  induction l as [|o l IH] using rev_ind; intros HS.
  - split; [constructor|]. split; [intros x; cbn; intuition discriminate|]. split; [|reflexivity]. cbn. split; [intros _ x f []|reflexivity].
  - apply settled_snoc in HS. destruct HS as (HS & HO). destruct (IH HS) as (G1 & G2 & G3 & G4). unfold after_ops in *. rewrite fold_left_app. cbn [fold_left].
    set (s := fold_left bstep l b_init) in *. clearbody s. unfold good. unfold is_on, muted. setoid_rewrite fold_left_app. rewrite !existsb_app. cbn [fold_left existsb].
    fold (muted l). rewrite !orb_false_r.
    destruct o as [y f|y]; cbn [bstep].
    + unfold enable_bridge. cbn [b_loggers b_current b_kernel].
      split.
      { destruct (mem y (b_loggers s)) eqn:EM; [exact G1|]. assert (NI : ~ In y (b_loggers s)) by (rewrite <- mem_in; congruence).
        clear - G1 NI. induction G1; cbn; [constructor; [intros []|constructor]|]. constructor; [|apply IHG1; intros H1; apply NI; now right].
        rewrite in_app_iff. cbn. intros [A|[A|[]]]; [contradiction|]. apply NI. now left. }
      split.
      { intros x. fold (is_on x l). destruct (Nat.eqb_spec x y) as [->|N].
        - split; [reflexivity|]. intros _. destruct (mem y (b_loggers s)) eqn:EM; [now apply mem_in|]. apply in_or_app. right. now left.
        - rewrite <- G2. destruct (mem y (b_loggers s)); [tauto|]. rewrite in_app_iff. cbn. intuition congruence. }
      split. { split; [discriminate|]. intros H. exfalso. apply (H y f). apply in_or_app. right. now left. }
      destruct f; cbn [negb orb]; rewrite ?orb_true_r, ?orb_false_r; [|reflexivity].
      rewrite HO in *. rewrite G4. destruct (existsb _ l) eqn:EE; [reflexivity|]. f_equal. apply G3.
      intros x f Hx. assert (existsb (fun o => match o with Enable _ _ => true | _ => false end) l = true) by (apply existsb_exists; exists (Enable x f); auto). congruence.
    + unfold disable_bridge. cbn [b_loggers b_current b_kernel]. rewrite !orb_false_r.
      split. { destruct (mem y _); [now apply remove1_nodup|exact G1]. }
      split.
      { intros x. fold (is_on x l). destruct (Nat.eqb_spec x y) as [->|N].
        - split; [|discriminate]. intros H. exfalso. destruct (mem y (b_loggers s)) eqn:EM; [apply remove1_in in H; tauto|]. apply mem_in in H. congruence.
        - rewrite <- G2. destruct (mem y (b_loggers s)); [|tauto]. rewrite remove1_in by exact G1. tauto. }
      split; [|exact G4]. rewrite G3. split; intros H x f Hx; [|apply (H x f); apply in_or_app; now left].
      apply in_app_or in Hx. destruct Hx as [Hx|[Hx|[]]]; [exact (H x f Hx)|discriminate].
Qed.

(** ** Throttled logs *)
Lemma get_put k v k' t : get k (put k' v t) = if bytes_eqb k k' then Some v else get k t.
Proof. reflexivity. Qed.
Lemma suffix_inj a b : bytes_eqb (a ++ SUFFIX) (b ++ SUFFIX) = bytes_eqb a b.
Proof.
  destruct (bytes_eqb a b) eqn:E.
  - apply bytes_eqb_eq in E. subst. apply bytes_eqb_refl.
  - destruct (bytes_eqb (a ++ SUFFIX) (b ++ SUFFIX)) eqn:F; [|reflexivity]. apply bytes_eqb_eq in F. apply app_inv_tail in F. subst. rewrite bytes_eqb_refl in E. discriminate.
Qed.

(** The machine of one text. *)
Fixpoint cell (c : option (Z * Z)) (l : list (Z * Z * Z * lout)) : Prop :=
  match l with
  | [] => True
  | (now, delay, lv, x) :: l =>
    match c with
    | None => x = Logged lv /\ cell (Some (now, 0)) l
    | Some (last, masked) =>
      if now - last >? delay then x = (if masked =? 0 then Logged lv else Counted lv masked) /\ cell (Some (now, 0)) l
      else x = Nothing /\ cell (Some (last, masked + 1)) l
    end
  end.
Lemma cell_ok text : forall l t c, (forall lv v msg, In (Changed lv v msg) l -> msg <> text ++ SUFFIX) ->
  get (text ++ SUFFIX) t = match c with None => None | Some (a, b) => Some (Times a b) end ->
  cell c (throttled_of text l (lrun t l)).
Proof.
  induction l as [|o l IH]; intros t c HC HG; [destruct c as [[]|]; exact I|].
  cbn [lrun]. destruct (lstep t o) as [t' x] eqn:ES. cbn [throttled_of].
  assert (HC' : forall lv v msg, In (Changed lv v msg) l -> msg <> text ++ SUFFIX) by (intros lv v msg H; apply (HC lv v); now right).
  destruct o as [lv now delay tx|lv v msg].
  - destruct (bytes_eqb tx text) eqn:EB.
    + apply bytes_eqb_eq in EB. subst tx. cbn [lstep] in ES. rewrite HG in ES. cbn [cell]. destruct c as [[la ma]|].
      * destruct (now - la >? delay).
        -- injection ES as <- <-. split; [reflexivity|]. apply IH; [exact HC'|]. rewrite get_put, bytes_eqb_refl. reflexivity.
        -- injection ES as <- <-. split; [reflexivity|]. apply IH; [exact HC'|]. rewrite get_put, bytes_eqb_refl. reflexivity.
      * injection ES as <- <-. split; [reflexivity|]. apply IH; [exact HC'|]. rewrite get_put, bytes_eqb_refl. reflexivity.
    + apply IH; [exact HC'|]. rewrite <- HG. cbn [lstep] in ES.
      assert (NB : bytes_eqb (text ++ SUFFIX) (tx ++ SUFFIX) = false).
      { rewrite suffix_inj. destruct (bytes_eqb text tx) eqn:F; [|reflexivity]. apply bytes_eqb_eq in F. subst. rewrite bytes_eqb_refl in EB. discriminate. }
      destruct (get (tx ++ SUFFIX) t) as [[la ma|w]|]; [destruct (now - la >? delay)| |]; injection ES as <- _; rewrite ?get_put, ?NB; reflexivity.
  - apply IH; [exact HC'|]. rewrite <- HG. cbn [lstep] in ES.
    assert (NB : bytes_eqb (text ++ SUFFIX) msg = false).
    { destruct (bytes_eqb (text ++ SUFFIX) msg) eqn:F; [|reflexivity]. apply bytes_eqb_eq in F. exfalso. apply (HC lv v msg); [now left|now symmetry]. }
    destruct (get msg t) as [[la ma|w]|]; [|destruct (v =? w)|]; injection ES as <- _; rewrite ?get_put, ?NB; reflexivity.
Qed.
Definition is_nothing (x : lout) : Prop := x = Nothing.
Lemma cell_next : forall b last masked now delay lv y c, 0 <= masked -> Forall (fun q => snd q = Nothing) b ->
  cell (Some (last, masked)) (b ++ (now, delay, lv, y) :: c) ->
  y = if now - last >? delay then (if masked + Z.of_nat (length b) =? 0 then Logged lv else Counted lv (masked + Z.of_nat (length b))) else Nothing.
Proof.
  induction b as [|[[[n d] v] x] b IH]; intros last masked now delay lv y c HM HF HC.
  - cbn [app cell length] in HC. rewrite Z.add_0_r. destruct (now - last >? delay); apply HC.
  - cbn [app cell] in HC. inversion_clear HF. cbn in H. subst x.
    destruct (n - last >? d); [destruct HC as (HC & _); destruct (masked =? 0); discriminate|].
    destruct HC as (_ & HC). apply IH in HC; [|lia|assumption]. cbn [length]. replace (masked + Z.of_nat (S (length b))) with (masked + 1 + Z.of_nat (length b)) by lia. exact HC.
Qed.
Lemma cell_state : forall a c n d v x r, cell c (a ++ (n, d, v, x) :: r) -> (c = None \/ exists q, c = Some q) -> x <> Nothing -> cell (Some (n, 0)) r.
Proof.
  induction a as [|[[[n0 d0] v0] x0] a IH]; intros c n d v x r HC _ HX.
  - cbn [app cell] in HC. destruct c as [[la ma]|]; [|apply HC]. destruct (n - la >? d); [apply HC|]. destruct HC. congruence.
  - cbn [app cell] in HC. destruct c as [[la ma]|].
    + destruct (n0 - la >? d0); destruct HC as (_ & HC); eapply IH; eauto.
    + destruct HC as (_ & HC). eapply IH; eauto.
Qed.

Fixpoint vcell (c : option Z) (l : list (Z * Z * lout)) : Prop :=
  match l with
  | [] => True
  | (v, lv, x) :: l => x = match c with Some w => if v =? w then Nothing else Logged lv | None => Logged lv end /\ vcell (Some v) l
  end.
Lemma vcell_ok msg : forall l t c, (forall lv now delay text, In (Throttled lv now delay text) l -> text ++ SUFFIX <> msg) ->
  get msg t = match c with None => None | Some a => Some (Value a) end ->
  vcell c (changed_of msg l (lrun t l)).
Proof.
  induction l as [|o l IH]; intros t c HC HG; [exact I|].
  cbn [lrun]. destruct (lstep t o) as [t' x] eqn:ES. cbn [changed_of].
  assert (HC' : forall lv now delay text, In (Throttled lv now delay text) l -> text ++ SUFFIX <> msg) by (intros lv n d tx H; apply (HC lv n d); now right).
  destruct o as [lv now delay tx|lv v m].
  - apply IH; [exact HC'|]. rewrite <- HG. cbn [lstep] in ES.
    assert (NB : bytes_eqb msg (tx ++ SUFFIX) = false).
    { destruct (bytes_eqb msg (tx ++ SUFFIX)) eqn:F; [|reflexivity]. apply bytes_eqb_eq in F. exfalso. apply (HC lv now delay tx); [now left|now symmetry]. }
    destruct (get (tx ++ SUFFIX) t) as [[la ma|w]|]; [destruct (now - la >? delay)| |]; injection ES as <- _; rewrite ?get_put, ?NB; reflexivity.
  - destruct (bytes_eqb m msg) eqn:EB.
    + apply bytes_eqb_eq in EB. subst m. cbn [lstep] in ES. rewrite HG in ES. cbn [vcell]. destruct c as [w|].
      * destruct (Z.eqb_spec v w) as [->|N]; injection ES as <- <-; (split; [reflexivity|]); (apply IH; [exact HC'|]); [exact HG|]. rewrite get_put, bytes_eqb_refl. reflexivity.
      * injection ES as <- <-. split; [reflexivity|]. apply IH; [exact HC'|]. rewrite get_put, bytes_eqb_refl. reflexivity.
    + apply IH; [exact HC'|]. rewrite <- HG. cbn [lstep] in ES.
      assert (NB : bytes_eqb msg m = false).
      { destruct (bytes_eqb msg m) eqn:F; [|reflexivity]. apply bytes_eqb_eq in F. subst. rewrite bytes_eqb_refl in EB. discriminate. }
      destruct (get m t) as [[la ma|w]|]; [|destruct (v =? w)|]; injection ES as <- _; rewrite ?get_put, ?NB; reflexivity.
Qed.
Lemma vcell_next : forall a c v lv x w lw y r, vcell c (a ++ (v, lv, x) :: (w, lw, y) :: r) -> y = if w =? v then Nothing else Logged lw.
Proof.
  induction a as [|[[v0 l0] x0] a IH]; intros c v lv x w lw y r H; cbn [app vcell] in H.
  - destruct H as (_ & H & _). exact H.
  - destruct H as (_ & H). eapply IH. exact H.
Qed.
