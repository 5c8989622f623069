(** Dump over devices whose content does not change: merging and tail (C43, C44). *)
From Coq Require Import ZArith String List Bool Permutation Sorted Lia ZifyBool ZifyNat Arith.
From Verif Require Import Bytes BytesProofs Cat CatSpec CatProofs.
Import ListNotations.
Open Scope Z_scope.

Arguments lastn : simpl never.
Arguments shown_of : simpl never.

(** ** The reader without frames, counters and output *)
Notation adev := (Z * bool)%type.
Definition ad0 : adev := (0, false).
Definition md (d : dev) : adev := (d_mark d, d_pending d).

Fixpoint aread (k i : nat) (w : world) (ds : list adev) (pq : list mitem) : world * list adev * list mitem * bool :=
  match k with
  | O => (w, ds, pq, true)
  | S k =>
    let m := fst (nth i ds ad0) in
    if snd (nth i ds ad0) then aread k (S i) w ds pq
    else match nth i w [] with
         | [] => aread k (S i) w (set_nth i (if 0 <? m then 0 else m, false) ds) pq
         | x :: r =>
           let w' := set_nth i r w in
           if i_show x then aread k (S i) w' (set_nth i (m - i_dec x, true) ds) (pq ++ [(i, x)])
           else (w', set_nth i (m - i_dec x, false) ds, pq, false)
         end
  end.

Fixpoint aold (res : option mitem) (q : list mitem) : option mitem :=
  match q with
  | [] => res
  | f :: r => aold (match res with
                    | None => Some f
                    | Some g => if i_stamp (snd f) <? i_stamp (snd g) then Some f else Some g
                    end) r
  end.
Fixpoint aunlink (d : nat) (q : list mitem) : list mitem :=
  match q with
  | [] => []
  | f :: r => if Nat.eqb (fst f) d then r else f :: aunlink d r
  end.

Definition ast := (world * list adev * list mitem * list mitem)%type.
Definition astep (a : ast) : ast * bool :=
  let '(w, ds, pq, Q) := a in
  let '(w, ds, pq, full) := aread (length ds) 0 w ds pq in
  if full then
    let '(ds, pq, Q) :=
      match aold None pq with
      | None => (ds, pq, Q)
      | Some m => (set_nth (fst m) (fst (nth (fst m) ds ad0), false) ds, aunlink (fst m) pq, Q ++ [m])
      end in
    ((w, ds, pq, Q), negb (existsb (fun d => 0 <? fst d) ds))
  else ((w, ds, pq, Q), false).
Fixpoint aloop (fuel : nat) (a : ast) : option (list mitem) :=
  match fuel with
  | O => None
  | S n => let (a, mk) := astep a in if mk then Some (snd a) else aloop n a
  end.

(** ** The reader follows it *)
Definition fr (f : frame) (m : mitem) : Prop :=
  f_dev f = fst m /\ f_stamp f = i_stamp (snd m) /\ f_data f = i_data (snd m) /\ f_ok f = i_ok (snd m).

Lemma map_set_nth {A B} (g : A -> B) n x l : map g (set_nth n x l) = set_nth n (g x) (map g l).
Proof. revert n; induction l; destruct n; cbn; congruence. Qed.
Lemma set_nth_same {A} n (l : list A) d : set_nth n (nth n l d) l = l.
Proof. revert n; induction l; destruct n; cbn; congruence. Qed.

Lemma md_nth c i : nth i (map md (c_devs c)) ad0 = md (get_dev c i).
Proof. change ad0 with (md dflt). apply map_nth. Qed.

Lemma Forall2_snoc {A B} (R : A -> B -> Prop) l l' x y :
  Forall2 R l l' -> R x y -> Forall2 R (l ++ [x]) (l' ++ [y]).
Proof. intros F H. apply Forall2_app; auto. Qed.

Lemma F2_length {A B} (R : A -> B -> Prop) l l' : Forall2 R l l' -> length l = length l'.
Proof. induction 1; cbn; congruence. Qed.

Lemma oldest_rel q aq : Forall2 fr q aq -> forall res ares,
  match res, ares with None, None => True | Some f, Some m => fr f m | _, _ => False end ->
  match oldest_from res q, aold ares aq with None, None => True | Some f, Some m => fr f m | _, _ => False end.
Proof.
  induction 1 as [|f m q aq Hf F IH]; intros res ares H; cbn; auto.
  apply IH. destruct res as [g|], ares as [h|]; try contradiction; auto.
  destruct Hf as (? & E & ?), H as (? & E' & ?). rewrite E, E'. destruct (_ <? _); repeat split; tauto.
Qed.

Lemma unlink_rel q aq f m : Forall2 fr q aq -> NoDup (map f_id q) -> NoDup (map f_dev q) -> In f q -> fr f m ->
  Forall2 fr (unlink (f_id f) q) (aunlink (fst m) aq).
Proof.
  induction 1 as [|g h q aq Hg F IH]; cbn; intros N1 N2 Hi Hm; auto.
  inversion N1; inversion N2; subst.
  destruct Hi as [->|Hi].
  - destruct Hg as [E _], Hm as [E' _]. rewrite Nat.eqb_refl, <- E, <- E', Nat.eqb_refl. auto.
  - destruct (Nat.eqb_spec (f_id g) (f_id f)) as [E|E].
    { exfalso. apply H1. rewrite E. now apply in_map. }
    destruct Hg as [Eg Hg], Hm as [Em Hm].
    destruct (Nat.eqb_spec (fst h) (fst m)) as [E2|E2].
    { exfalso. apply H5. replace (f_dev g) with (f_dev f) by congruence. now apply in_map. }
    constructor; [split; auto|]. apply IH; auto. split; auto.
Qed.

Lemma read_rel n fds rev k : forall i w c f0 ds pq,
  inv n c -> (i + k <= length ds)%nat -> map md (c_devs c) = ds -> length w = length ds ->
  Forall2 fr (c_pq c) pq ->
  (forall j, (i <= j < length ds)%nat ->
     nth j fds false = negb (snd (nth j ds ad0)) /\
     nth j rev false = nth j fds false && match nth j w [] with [] => false | _ => true end) ->
  0 <= f0 ->
  exists w1 ds1 pq1 full c1 x,
    aread k i w ds pq = (w1, ds1, pq1, full) /\
    read_devices static_env k i fds rev w c f0 = (w1, c1, x) /\
    map md (c_devs c1) = ds1 /\ length w1 = length ds1 /\ Forall2 fr (c_pq c1) pq1 /\ inv n c1 /\
    c_tail c1 = c_tail c /\ c_rq c1 = c_rq c /\ c_render c1 = c_render c /\ c_mark c1 = c_mark c /\
    c_out c1 = c_out c /\ (if full then exists z, x = inr z /\ 0 <= z else x = inl 0).
Proof.
  induction k as [|k IH]; intros i w c f0 ds pq I Hl Hds Hw Hq Hr H0; cbn.
  { do 6 eexists. split; [reflexivity|]. split; [reflexivity|]. do 4 (split; [assumption|]). do 5 (split; [reflexivity|]). eauto. }
  assert (Hld : length (c_devs c) = length ds) by (rewrite <- Hds; symmetry; apply map_length).
  destruct (Hr i ltac:(lia)) as [Rf Rr].
  assert (Inv1 : inv n (snd (fst (read_devices static_env 1 i fds rev w c f0)))).
  { apply read_devices_inv; auto; [lia|]. intros j Hj Rj.
    destruct (Nat.lt_ge_cases j (length ds)) as [Hlj|Hlj].
    - destruct (Hr j ltac:(lia)) as [A B]. rewrite Rj in B. rewrite A in B.
      rewrite <- Hds, md_nth in B. cbn in B. destruct (d_pending (get_dev c j)); auto; discriminate.
    - unfold get_dev. rewrite nth_overflow; auto. lia. }
  cbn in Inv1.
  assert (Hmi : nth i ds ad0 = md (get_dev c i)) by (rewrite <- Hds; apply md_nth).
  rewrite Hmi in *. cbn [md fst snd] in *.
  destruct (d_pending (get_dev c i)) eqn:Hp; cbn [negb] in *.
  - rewrite Rr, Rf in *. cbn [andb negb] in *. apply IH; auto; try lia.
    intros j Hj. apply Hr. lia.
  - rewrite Rf in *. cbn [andb] in *. rewrite Rr in *. clear Rf Rr.
    destruct (nth i w []) as [|x r] eqn:Hx; cbn [negb] in *.
    + replace (set_nth i (if 0 <? d_mark (get_dev c i) then 0 else d_mark (get_dev c i), false) ds)
        with (map md (c_devs (if 0 <? d_mark (get_dev c i) then
                 set_dev c i (mkDev 0 false (d_printed (get_dev c i))) else c))).
      2:{ destruct (0 <? d_mark (get_dev c i)).
          - cbn. rewrite map_set_nth. cbn. now rewrite Hds.
          - rewrite Hds. replace (d_mark (get_dev c i), false) with (nth i ds ad0).
            + now rewrite set_nth_same.
            + rewrite <- Hds, md_nth. unfold md. now rewrite Hp. }
      set (c2 := if 0 <? d_mark (get_dev c i) then _ else c) in *.
      assert (S2 : length (c_devs c2) = length ds /\ c_pq c2 = c_pq c /\ c_tail c2 = c_tail c /\ c_rq c2 = c_rq c /\
                   c_render c2 = c_render c /\ c_mark c2 = c_mark c /\ c_out c2 = c_out c /\
                   (forall j, snd (nth j (map md (c_devs c2)) ad0) = snd (nth j ds ad0))).
      { subst c2. destruct (0 <? d_mark (get_dev c i)); cbn; rewrite ?set_nth_length; repeat split; auto.
        - intros j. rewrite map_set_nth, nth_set_nth, Hds.
          destruct (Nat.eqb_spec j i) as [->|]; cbn [andb]; auto.
          destruct (_ <? _)%nat; auto. rewrite <- Hds, md_nth. cbn. auto.
        - intros j. now rewrite Hds. }
      destruct S2 as (E1 & E2 & E3 & E4 & E5 & E6 & E7 & E8).
      destruct (IH (S i) w c2 f0 (map md (c_devs c2)) pq) as (w1 & ds1 & pq1 & full & c1 & y & A1 & A2 & A3 & A4 & A5 & A6 & A7 & A8 & A9 & A10 & A11 & A12);
        rewrite ?map_length; auto; try lia; try congruence.
      * intros j Hj. rewrite E8. apply Hr. lia.
      * do 6 eexists. split; [exact A1|]. split; [exact A2|]. do 4 (split; [assumption|]). repeat (split; [congruence|]). exact A12.
    + unfold alloc_frame in *. destruct (c_free c) as [|f fs] eqn:Ef; [destruct (inv_alloc _ _ I Ef)|].
      unfold rx_of in *. destruct (i_show x) eqn:Hs.
      * cbn in Inv1.
        match type of Inv1 with inv n ?x => set (c3 := x) in * end.
        destruct (IH (S i) (set_nth i r w) c3 (f0 + 1) (set_nth i (d_mark (get_dev c i) - i_dec x, true) ds) (pq ++ [(i, x)]))
          as (w1 & ds1 & pq1 & full & c1 & y & A1 & A2 & A3 & A4 & A5 & A6 & A7 & A8 & A9 & A10 & A11 & A12); auto.
        { rewrite set_nth_length. lia. }
        { cbn. rewrite map_set_nth. cbn. now rewrite Hds. }
        { now rewrite !set_nth_length. }
        { cbn. apply Forall2_snoc; auto. repeat split. }
        { intros j Hj. rewrite set_nth_length in Hj. destruct (Hr j ltac:(lia)) as [A B].
          rewrite !nth_set_nth. destruct (Nat.eqb_spec j i); [lia|]. cbn [andb]. auto. }
        { lia. }
        do 6 eexists. split; [exact A1|]. split; [exact A2|]. do 4 (split; [assumption|]). do 5 (split; [assumption|]). exact A12.
      * cbn in Inv1. cbn. do 6 eexists. split; [reflexivity|]. split; [reflexivity|].
        cbn. rewrite map_set_nth. cbn. rewrite Hds, !set_nth_length.
        split; [reflexivity|]. split; [auto|]. split; [auto|]. split; [exact Inv1|].
        repeat split.
Qed.

Lemma printed_app a b : printed (a ++ b) = printed a ++ printed b.
Proof. induction a as [|[] a IH]; cbn; congruence. Qed.
Lemma shown_app a b : shown_of (a ++ b) = shown_of a ++ shown_of b.
Proof. unfold shown_of. now rewrite filter_app, map_app. Qed.

Lemma flush_frame_out c f m : fr f m ->
  printed (c_out (flush_frame c f)) = printed (c_out c) ++ shown_of [m].
Proof.
  intros (A & B & C & D). unfold flush_frame, shown_of. cbn.
  rewrite <- D. destruct (negb _ && _), (f_ok f); cbn; rewrite ?printed_app; cbn;
    rewrite ?app_nil_r, ?A, ?B, ?C; auto.
Qed.

Lemma lastn_snoc {A} n (l : list A) x :
  lastn n (l ++ [x]) = if (length l <? n)%nat then lastn n l ++ [x] else
                       match lastn n l ++ [x] with [] => [] | _ :: r => r end.
Proof.
  unfold lastn. rewrite app_length. cbn [length].
  destruct (Nat.ltb_spec (length l) n) as [H|H].
  - replace (length l + 1 - n)%nat with O by lia. replace (length l - n)%nat with O by lia. reflexivity.
  - replace (length l + 1 - n)%nat with (S (length l - n)) by lia.
    set (k := (length l - n)%nat). assert (Hk : (k <= length l)%nat) by lia. clearbody k. clear H.
    revert k Hk; induction l as [|a l IH]; intros k Hk.
    + cbn in Hk. replace k with O by lia. reflexivity.
    + destruct k as [|k]; [reflexivity|]. cbn in Hk.
      change (skipn (S (S k)) ((a :: l) ++ [x])) with (skipn (S k) (l ++ [x])).
      change (skipn (S k) (a :: l)) with (skipn k l). apply IH. lia.
Qed.
Lemma lastn_0 {A} (l : list A) : lastn 0 l = [].
Proof. unfold lastn. rewrite Nat.sub_0_r. apply skipn_all. Qed.
Lemma lastn_length {A} n (l : list A) : length (lastn n l) = Nat.min n (length l).
Proof. unfold lastn. rewrite skipn_length. lia. Qed.

Record rel (n : nat) (T : Z) (c : ctx) (a : ast) : Prop := {
  r_inv : inv n c;
  r_devs : map md (c_devs c) = snd (fst (fst a));
  r_w : length (fst (fst (fst a))) = length (c_devs c);
  r_pq : Forall2 fr (c_pq c) (snd (fst a));
  r_mark : c_mark c = false;
  r_tail : c_tail c = T;
  r_rq : Forall2 fr (c_rq c) (lastn (Z.to_nat T) (snd a));
  r_out : printed (c_out c) = if T =? 0 then shown_of (snd a) else [] }.

Definition final_out (T : Z) (Q : list mitem) : list (nat * Z * fdata) :=
  shown_of (if T =? 0 then Q else lastn (Z.to_nat T) Q).

(** Flushing the tail queue prints it. *)
Lemma flush_render_queue_out n fuel : forall c Q, inv n c -> c_render c <= Z.of_nat fuel ->
  Forall2 fr (c_rq c) Q ->
  exists c', flush_render_queue fuel c = Ok c' /\ printed (c_out c') = printed (c_out c) ++ shown_of Q /\
    inv n c' /\ c_pending c' = c_pending c /\ c_mark c' = c_mark c /\ c_render c' = 0.
Proof.
  induction fuel as [|k IH]; intros c Q I Hf F; cbn; pose proof (iv_tail _ _ I) as Ht; pose proof (iv_rend _ _ I) as Hr.
  - destruct (Z.ltb_spec 0 (c_render c)); [lia|]. exists c. rewrite Hr in *.
    destruct (c_rq c) as [|g q]; [|rewrite zlen_cons in *; pose proof (zlen_nonneg q); lia].
    inversion F; subst. split; [reflexivity|]. rewrite app_nil_r. split; [reflexivity|]. split; [exact I|].
    repeat split; auto.
  - destruct (Z.ltb_spec 0 (c_render c)) as [H|H].
    2:{ exists c. rewrite Hr in *.
        destruct (c_rq c) as [|g q]; [|rewrite zlen_cons in *; pose proof (zlen_nonneg q); lia].
        inversion F; subst. split; [reflexivity|]. rewrite app_nil_r. split; [reflexivity|]. split; [exact I|].
        repeat split; auto. }
    destruct (flush_render_inv n c false I) as (c1 & E1 & I1 & R1 & P1 & T1 & M1).
    rewrite E1. cbn.
    destruct (c_rq c) as [|f q] eqn:Eq; [rewrite Hr in H; change (zlen (@nil frame)) with 0 in H; lia|].
    inversion F as [|? m ? Q' Hfm F']; subst.
    assert (X : c_rq c1 = q /\ printed (c_out c1) = printed (c_out c) ++ shown_of [m]).
    { unfold flush_render_frame in E1. destruct (Z.ltb_spec 0 (c_render c)); [|lia].
      rewrite Eq in E1. cbn zeta iota in E1.
      destruct (flush_frame_same c f) as (?&?&?&?&?&Q2&?).
      assert (E2 := f_equal (fun x => match x with Ok y => c_rq y | _ => [] end) E1).
      assert (E3 := f_equal (fun x => match x with Ok y => c_out y | _ => [] end) E1).
      cbn in E2, E3. rewrite Q2, Eq in E2. cbn in E2. rewrite Nat.eqb_refl in E2.
      rewrite <- E2, <- E3. split; auto. now apply flush_frame_out. }
    destruct X as [X1 X2].
    destruct (IH c1 Q') as (c2 & E2 & O2 & I2 & P2 & M2 & R2); auto; [lia|congruence|].
    exists c2. split; [exact E2|]. split.
    { rewrite O2, X2, <- app_assoc. f_equal. change (m :: Q') with ([m] ++ Q'). now rewrite shown_app. }
    split; [exact I2|]. repeat split; congruence.
Qed.

(** One round of the reader is one step of the reader without frames. *)
Lemma pull_rel n T c w ds pq Q :
  0 <= T -> rel n T c (w, ds, pq, Q) ->
  let '(ds', pq', Q') :=
      match aold None pq with
      | None => (ds, pq, Q)
      | Some m => (set_nth (fst m) (fst (nth (fst m) ds ad0), false) ds, aunlink (fst m) pq, Q ++ [m])
      end in
  let mk := negb (existsb (fun d => 0 <? fst d) ds') in
  exists c', pull c = Ok c' /\
    (mk = false -> rel n T c' (w, ds', pq', Q')) /\
    (mk = true -> pq' = [] -> c_mark c' = true /\ c_pending c' = 0 /\ printed (c_out c') = final_out T Q').
Proof.
  intros HT [I Rd Rw Rp Rm Rt Rr Ro]. cbn [fst snd] in *.
  unfold pull.
  destruct (match aold None pq with None => _ | Some m => _ end) as [[ds' pq'] Q'] eqn:EA.
  assert (R1 : rel n T (pull_oldest c) (w, ds', pq', Q')).
  { pose proof (oldest_rel _ _ Rp None None Logic.I) as O.
    pose proof (pull_oldest_inv n c I) as I1.
    change (oldest_from None (c_pq c)) with (find_oldest c) in O.
    unfold pull_oldest in *.
    destruct (find_oldest c) as [f|] eqn:F, (aold None pq) as [m|] eqn:A; try contradiction.
    2:{ injection EA as <- <- <-. constructor; auto. }
    assert (ds' = set_nth (fst m) (fst (nth (fst m) ds ad0), false) ds /\ pq' = aunlink (fst m) pq /\ Q' = Q ++ [m])
      as (-> & -> & ->) by (repeat split; congruence).
    clear EA.
    destruct (find_oldest_some _ _ F) as [Hf _].
    pose proof (unlink_rel _ _ f m Rp (inv_pq_ids _ _ I) (iv_nodup _ _ I) Hf O) as U.
    assert (Ed : f_dev f = fst m) by apply O.
    cbn [set_pq set_dev c_tail c_pq c_pending] in *. rewrite Rt in *.
    destruct (Z.ltb_spec 0 T) as [Ht|Ht].
    - unfold enqueue_render in *. cbn [set_pq set_dev c_tail c_pq c_pending c_rq c_render] in *. rewrite Rt in *.
      pose proof (iv_rend _ _ I) as Hren. pose proof (iv_tail _ _ I) as Htl.
      pose proof (F2_length _ _ _ Rr) as Lr. rewrite lastn_length in Lr.
      assert (Hlt : (c_render c <? T) = (length Q <? Z.to_nat T)%nat).
      { rewrite Hren. unfold zlen. rewrite Lr. lia. }
      assert (E0 : (T =? 0) = false) by lia. rewrite E0 in *.
      pose proof (lastn_snoc (Z.to_nat T) Q m) as LS. rewrite <- Hlt in LS.
      destruct (c_render c <? T).
      + constructor; auto; cbn.
        * rewrite map_set_nth. cbn. rewrite Rd, Ed. f_equal. f_equal.
          change (nth (fst m) (c_devs c) dflt) with (get_dev c (fst m)). now rewrite <- Rd, md_nth.
        * now rewrite set_nth_length.
        * rewrite LS. now apply Forall2_snoc.
        * rewrite E0. exact Ro.
      + assert (F2 : Forall2 fr (c_rq c ++ [f]) (lastn (Z.to_nat T) Q ++ [m])) by now apply Forall2_snoc.
        destruct (c_rq c ++ [f]) as [|g r] eqn:Er; [destruct (c_rq c); discriminate|].
        inversion F2 as [|? h ? q2 Hgh F2' E1 E2]; subst. rewrite <- E2 in LS.
        constructor; auto; cbn.
        * rewrite map_set_nth. cbn. rewrite Ed. f_equal. f_equal.
          change (nth (fst m) (c_devs c) dflt) with (get_dev c (fst m)). now rewrite md_nth.
        * now rewrite set_nth_length.
        * now rewrite LS.
        * rewrite E0. exact Ro.
    - assert (HT0 : T = 0) by lia. rewrite HT0 in *. clear HT0.
      match type of I1 with inv n (free_frame (flush_frame ?x f) f) => set (c1 := x) in * end.
      destruct (flush_frame_same c1 f) as (S1 & S2 & S3 & S4 & S5 & S6 & S7 & S8 & S9 & S10).
      assert (L : length (c_devs (flush_frame c1 f)) = length (c_devs c)).
      { rewrite <- (map_length d_mark), S8. rewrite map_length. apply set_nth_length. }
      assert (Emd : map md (c_devs (flush_frame c1 f)) = map md (c_devs c1)).
      { clear - S8 S9. revert S8 S9. generalize (c_devs (flush_frame c1 f)) (c_devs c1).
        induction l as [|a l IH]; intros [|b l']; cbn; intros A B; try discriminate; auto.
        injection A as A1 A2. injection B as B1 B2. f_equal; auto. unfold md. now rewrite A1, B1. }
      constructor; auto; cbn; cbn in *; rewrite ?S1, ?S5, ?S6, ?S7; auto.
      + rewrite Emd. cbn. rewrite map_set_nth. cbn. rewrite Rd, Ed. f_equal. f_equal.
        change (nth (fst m) (c_devs c) dflt) with (get_dev c (fst m)). now rewrite <- Rd, md_nth.
      + now rewrite L.
      + change (Z.to_nat 0) with O in *. rewrite lastn_0 in *. exact Rr.
      + rewrite (flush_frame_out c1 f m O). change (printed (c_out c1)) with (printed (c_out c)). rewrite Ro, shown_app. reflexivity. }
  clear EA I Rd Rw Rp Rm Rt Rr Ro. destruct R1 as [I Rd Rw Rp Rm Rt Rr Ro]. cbn [fst snd] in *.
  revert I Rd Rw Rp Rm Rt Rr Ro. generalize (pull_oldest c) as c1. intros c1 I Rd Rw Rp Rm Rt Rr Ro. clear c.
  unfold update_mark_reached. rewrite Rm. cbn [orb].
  match goal with |- context [negb (existsb ?g ds')] =>
    assert (Emk : existsb (fun d => 0 <? d_mark d) (c_devs c1) = existsb g ds') end.
  { rewrite <- Rd. clear. induction (c_devs c1); cbn; congruence. }
  rewrite Emk. destruct (existsb _ ds'); cbn [negb].
  - unfold process_tail_flush. rewrite Rm, orb_true_r. exists c1. split; [reflexivity|].
    split; [|discriminate]. intros _. constructor; auto.
  - match goal with |- context [process_tail_flush ?x] => set (c2 := x) end.
    assert (I2 : inv n c2) by (destruct I; constructor; auto).
    unfold process_tail_flush. cbn [c_tail c_mark c2 negb orb]. rewrite orb_false_r, Rt.
    destruct (Z.eqb_spec T 0) as [->|Hne].
    + exists c2. split; [reflexivity|]. split; [discriminate|]. intros _ ->. inversion Rp as [Epq|].
      cbn. split; [reflexivity|]. split; [|exact Ro].
      rewrite (iv_pend _ _ I), <- Epq. reflexivity.
    + pose proof (iv_tail _ _ I2) as Ht2. pose proof (iv_pend _ _ I2) as Hp2.
      pose proof (zlen_nonneg (c_pq c2)) as Hnn.
      destruct pq' as [|m0 pq'].
      2:{ destruct (process_tail_flush_inv n c2 I2) as (c3 & E3 & _).
          unfold process_tail_flush in E3. cbn [c_tail c_mark c2 negb orb] in E3. rewrite orb_false_r, Rt in E3.
          destruct (Z.eqb_spec T 0); [contradiction|].
          exists c3. split; [exact E3|]. split; [discriminate|]. discriminate. }
      inversion Rp as [Epq|].
      assert (Hz : c_pending c2 = 0) by (rewrite Hp2; cbn; rewrite <- Epq; reflexivity).
      assert (TD : tail_drop (Z.to_nat (c_render c2 + c_pending c2)) c2 = Ok c2).
      { destruct (Z.to_nat (c_render c2 + c_pending c2)); cbn [tail_drop];
          destruct (Z.ltb_spec (c_tail c2) (c_render c2 + c_pending c2)); try reflexivity; lia. }
      rewrite TD. cbn [bind].
      destruct (flush_render_queue_out n (Z.to_nat (c_render c2)) c2 (lastn (Z.to_nat T) Q') I2)
        as (c3 & E3 & O3 & I3 & P3 & M3 & R3); [lia|exact Rr|].
      rewrite E3. cbn [bind].
      eexists. split; [reflexivity|]. split; [discriminate|]. intros _ _. cbn.
      split; [rewrite M3; reflexivity|]. split; [congruence|].
      rewrite O3. cbn. rewrite Ro. unfold final_out. destruct (Z.eqb_spec T 0); [contradiction|]. reflexivity.
Qed.

(** One round. *)
Lemma round_rel n T c a : 0 <= T -> rel n T c a ->
  let '(a', mk) := astep a in
  exists c' r, process_devices static_env (fst (fst (fst a))) c = Ok (fst (fst (fst a')), c', r) /\ 0 <= r /\
    (mk = false -> rel n T c' a' /\ c_mark c' = false) /\
    (mk = true -> snd (fst a') = [] ->
       c_mark c' = true /\ c_pending c' = 0 /\ printed (c_out c') = final_out T (snd a')).
Proof.
  destruct a as [[[w ds] pq] Q]. intros HT [I Rd Rw Rp Rm Rt Rr Ro]. cbn [fst snd] in *.
  unfold process_devices. cbn [static_env e_poll].
  set (fds := map (fun d => negb (d_pending d)) (c_devs c)).
  set (rev := map _ (combine fds w)).
  assert (Ld : length ds = length (c_devs c)) by (rewrite <- Rd; apply map_length).
  destruct (read_rel n fds rev (length (c_devs c)) 0 w c 0 ds pq)
    as (w1 & ds1 & pq1 & full & c1 & x & A1 & A2 & A3 & A4 & A5 & A6 & A7 & A8 & A9 & A10 & A11 & A12); auto; try lia.
  { intros j Hj.
    assert (Hf : nth j fds false = negb (snd (nth j ds ad0))).
    { rewrite <- Rd, md_nth. subst fds. rewrite (nth_indep _ _ (negb (d_pending dflt))) by (rewrite map_length; lia).
      now rewrite (map_nth (fun d => negb (d_pending d))). }
    split; auto. subst rev.
    set (g := fun p : bool * list item => fst p && negb match snd p with [] => true | _ => false end).
    change false with (g (false, [])) at 1. rewrite map_nth, combine_nth by (subst fds; rewrite map_length; lia).
    unfold g. cbn [fst snd]. destruct (nth j w []); reflexivity. }
  unfold astep. rewrite Ld, A1. rewrite A2.
  destruct full.
  - destruct A12 as (z & -> & Hz).
    assert (R1 : rel n T c1 (w1, ds1, pq1, Q)).
    { constructor; cbn [fst snd]; auto; try congruence.
      - rewrite A4, <- A3. apply map_length. }
    pose proof (pull_rel n T c1 w1 ds1 pq1 Q HT R1) as PR.
    destruct (match aold None pq1 with None => _ | Some m => _ end) as [[ds' pq'] Q'].
    destruct PR as (c' & E & H1 & H2). rewrite E. cbn [bind fst snd].
    exists c', z. split; [reflexivity|]. split; [exact Hz|]. split; [|exact H2].
    intros Hm. specialize (H1 Hm). split; [exact H1|apply H1].
  - subst x. cbn [fst snd]. exists c1, 0. split; [reflexivity|]. split; [lia|]. split; [|discriminate].
    intros _. split; [|congruence]. constructor; cbn [fst snd]; auto; try congruence.
    rewrite A4, <- A3. apply map_length.
Qed.

(** ** What the reader without frames computes *)
Definition ofdev (d : nat) (q : list mitem) : list item := map snd (filter (fun m => Nat.eqb (fst m) d) q).

Record ainv (w0 w : world) (ds : list adev) (pq Q : list mitem) : Prop := {
  a_w : length w = length ds;
  a_dev : forall m, In m pq -> (fst m < length ds)%nat;
  a_pend : forall d, snd (nth d ds ad0) = true <-> In d (map fst pq);
  a_nodup : NoDup (map fst pq);
  a_cons : forall d, filter i_show (nth d w0 []) = ofdev d Q ++ ofdev d pq ++ filter i_show (nth d w []);
  a_pick : forall f rest, (forall d, f d = ofdev d pq ++ filter i_show (nth d w [])) -> picks i_stamp f rest ->
           picks i_stamp (fun d => filter i_show (nth d w0 [])) (Q ++ rest);
  a_mark : forall d, nth d w [] <> [] \/ snd (nth d ds ad0) = true ->
           sum_dec (nth d w []) < fst (nth d ds ad0) /\ Forall (fun x => 0 <= i_dec x) (nth d w []) }.

Lemma ofdev_app d a b : ofdev d (a ++ b) = ofdev d a ++ ofdev d b.
Proof. unfold ofdev. now rewrite filter_app, map_app. Qed.
Lemma ofdev_one d m : ofdev d [m] = if Nat.eqb (fst m) d then [snd m] else [].
Proof. unfold ofdev. cbn. now destruct (Nat.eqb _ _). Qed.
Lemma ofdev_none d q : ~ In d (map fst q) -> ofdev d q = [].
Proof.
  unfold ofdev. induction q as [|m q IH]; cbn; auto. intros H.
  destruct (Nat.eqb_spec (fst m) d); [tauto|]. apply IH. tauto.
Qed.
Lemma in_ofdev d x q : In x (ofdev d q) <-> In (d, x) q.
Proof.
  unfold ofdev. rewrite in_map_iff. split.
  - intros ([e y] & <- & H). apply filter_In in H. destruct H as [H E]. cbn in E.
    apply Nat.eqb_eq in E. cbn. now subst.
  - intros H. exists (d, x). split; auto. apply filter_In. cbn. now rewrite Nat.eqb_refl.
Qed.

Lemma nth_set_w {A} i j (r : A) w d : (i < length w)%nat ->
  nth j (set_nth i r w) d = if Nat.eqb j i then r else nth j w d.
Proof. intros H. rewrite nth_set_nth. destruct (Nat.ltb_spec i (length w)); [|lia]. now rewrite andb_true_r. Qed.

Definition acost (w : world) (pq : list mitem) : nat := (2 * total w + length pq)%nat.
Lemma total_set_nth i w x r : nth i w [] = x :: r -> (total (set_nth i r w) + 1 = total w)%nat.
Proof.
  revert i; induction w as [|l w IH]; intros [|i]; cbn; try discriminate.
  - intros ->. cbn. lia.
  - intros H. specialize (IH i H). unfold total in IH. lia.
Qed.

Lemma aread_inv w0 Q k : forall i w ds pq, (i + k <= length ds)%nat -> ainv w0 w ds pq Q ->
  let '(w1, ds1, pq1, full) := aread k i w ds pq in
  ainv w0 w1 ds1 pq1 Q /\ length ds1 = length ds /\
  (forall d, (d < i)%nat -> nth d w1 [] = nth d w [] /\ nth d ds1 ad0 = nth d ds ad0) /\
  (full = true -> forall d, (i <= d < i + k)%nat -> snd (nth d ds1 ad0) = true \/ nth d w1 [] = [] /\ fst (nth d ds1 ad0) <= 0) /\
  (acost w1 pq1 <= acost w pq)%nat /\ (full = false -> (acost w1 pq1 < acost w pq)%nat) /\
  (acost w1 pq1 = acost w pq -> pq1 = pq).
Proof.
  induction k as [|k IH]; intros i w ds pq Hl A; cbn [aread]; cbv zeta.
  { split; [exact A|]. repeat split; auto; try discriminate. intros _ d Hd. lia. }
  assert (Hi : (i < length ds)%nat) by lia.
  assert (Hiw : (i < length w)%nat) by (rewrite (a_w _ _ _ _ _ A); auto).
  destruct (snd (nth i ds ad0)) eqn:Hp.
  - specialize (IH (S i) w ds pq ltac:(lia) A).
    destruct (aread k (S i) w ds pq) as [[[w1 ds1] pq1] full].
    destruct IH as (B1 & B2 & B3 & B4 & B5 & B6 & B7).
    split; auto. split; auto. split; [intros d Hd; apply B3; lia|]. split; [|auto].
    intros Hf d Hd. destruct (Nat.eq_dec d i) as [->|].
    + left. destruct (B3 i ltac:(lia)) as [_ ->]. auto.
    + apply B4; auto. lia.
  - destruct (nth i w []) as [|x r] eqn:Hx.
    + match goal with |- context [@set_nth ?T i ?v ds] => set (ds' := @set_nth T i v ds) end.
      assert (Hn : forall d, nth d ds' ad0 = if Nat.eqb d i then (if 0 <? fst (nth i ds ad0) then 0 else fst (nth i ds ad0), false) else nth d ds ad0)
        by (intros d; subst ds'; apply nth_set_w; auto).
      assert (A' : ainv w0 w ds' pq Q).
      { destruct A; constructor; auto; subst ds'; rewrite ?set_nth_length; auto.
        - intros d. rewrite Hn. destruct (Nat.eqb_spec d i) as [->|]; auto.
          cbn. rewrite <- a_pend0. rewrite Hp. tauto.
        - intros d. rewrite Hn. destruct (Nat.eqb_spec d i) as [->|]; [|apply a_mark0].
          intros Hd. cbn in Hd. destruct Hd as [Hd|Hd]; [congruence|discriminate]. }
      specialize (IH (S i) w ds' pq). 
      destruct (aread k (S i) w ds' pq) as [[[w1 ds1] pq1] full].
      destruct IH as (B1 & B2 & B3 & B4 & B5 & B6 & B7); auto.
      { subst ds'. rewrite set_nth_length. lia. }
      assert (Hld : length ds' = length ds) by (subst ds'; apply set_nth_length).
      split; auto. split; [etransitivity; [exact B2|exact Hld]|]. split.
      { intros d Hd. destruct (B3 d ltac:(lia)) as [C1 C2]. split; auto. rewrite C2, Hn.
        destruct (Nat.eqb_spec d i); [lia|auto]. }
      split; [|auto].
      intros Hf d Hd. destruct (Nat.eq_dec d i) as [->|].
      * right. destruct (B3 i ltac:(lia)) as [-> ->]. rewrite Hn, Nat.eqb_refl. cbn. split; auto.
        destruct (Z.ltb_spec 0 (fst (nth i ds ad0))); lia.
      * apply B4; auto. lia.
    + pose proof (total_set_nth i w x r Hx) as Ht.
      assert (Hw' : forall d, nth d (set_nth i r w) [] = if Nat.eqb d i then r else nth d w []) by (intros; now apply nth_set_w).
      assert (Hmk : sum_dec r < fst (nth i ds ad0) - i_dec x /\ Forall (fun y => 0 <= i_dec y) r).
      { destruct (a_mark _ _ _ _ _ A i) as [M1 M2]; [left; congruence|]. rewrite Hx in *. cbn in M1.
        inversion M2; subst. split; auto. lia. }
      destruct (i_show x) eqn:Hs.
      * match goal with |- context [@set_nth ?T i ?v ds] => set (ds' := @set_nth T i v ds) end.
        assert (Hn : forall d, nth d ds' ad0 = if Nat.eqb d i then (fst (nth i ds ad0) - i_dec x, true) else nth d ds ad0)
          by (intros d; subst ds'; apply nth_set_w; auto).
        assert (Hni : ~ In i (map fst pq)).
        { intros X. apply (a_pend _ _ _ _ _ A) in X. congruence. }
        assert (A' : ainv w0 (set_nth i r w) ds' (pq ++ [(i, x)]) Q).
        { destruct A; constructor; subst ds'; rewrite ?set_nth_length; auto.
          - intros m Hm. apply in_app_or in Hm. destruct Hm as [Hm|[<-|[]]]; auto.
          - intros d. rewrite Hn, map_app, in_app_iff. cbn. destruct (Nat.eqb_spec d i) as [->|]; cbn; [tauto|].
            rewrite a_pend0. split; [auto|intros [X|[X|[]]]; auto; congruence].
          - rewrite map_app. cbn. apply NoDup_Add with (a := i) (l := map fst pq); auto.
            rewrite <- (app_nil_r (map fst pq)) at 1. apply Add_app.
          - intros d. rewrite a_cons0, ofdev_app, ofdev_one, Hw'. cbn [fst snd].
            rewrite (Nat.eqb_sym i d). destruct (Nat.eqb_spec d i) as [->|].
            + rewrite Hx. cbn. rewrite Hs. rewrite <- !app_assoc. reflexivity.
            + now rewrite app_nil_r.
          - intros f rest Hf. apply a_pick0. intros d. rewrite (Hf d), ofdev_app, ofdev_one, Hw'. cbn [fst snd].
            rewrite (Nat.eqb_sym i d). destruct (Nat.eqb_spec d i) as [->|].
            + rewrite Hx. cbn. rewrite Hs. rewrite <- !app_assoc. reflexivity.
            + now rewrite app_nil_r.
          - intros d. rewrite Hw', Hn. destruct (Nat.eqb_spec d i) as [->|]; cbn; auto. }
        specialize (IH (S i) (set_nth i r w) ds' (pq ++ [(i, x)])).
        destruct (aread k (S i) _ ds' _) as [[[w1 ds1] pq1] full].
        assert (Hld : length ds' = length ds) by (subst ds'; apply set_nth_length).
        destruct IH as (B1 & B2 & B3 & B4 & B5 & B6 & B7); auto; [lia|].
        assert (Hc : (acost (set_nth i r w) (pq ++ [(i, x)]) < acost w pq)%nat).
        { unfold acost. rewrite app_length. cbn [length]. lia. }
        split; auto. split; [etransitivity; [exact B2|exact Hld]|]. split.
        { intros d Hd. destruct (B3 d ltac:(lia)) as [-> ->]. rewrite Hw', Hn.
          destruct (Nat.eqb_spec d i); [lia|auto]. }
        split.
        { intros Hf d Hd. destruct (Nat.eq_dec d i) as [->|].
          - left. destruct (B3 i ltac:(lia)) as [_ ->]. rewrite Hn, Nat.eqb_refl. reflexivity.
          - apply B4; auto. lia. }
        split; [lia|]. split; [intros; lia|intros; lia].
      * match goal with |- context [@set_nth ?T i ?v ds] => set (ds' := @set_nth T i v ds) end.
        assert (Hn : forall d, nth d ds' ad0 = if Nat.eqb d i then (fst (nth i ds ad0) - i_dec x, false) else nth d ds ad0)
          by (intros d; subst ds'; apply nth_set_w; auto).
        assert (A' : ainv w0 (set_nth i r w) ds' pq Q).
        { destruct A; constructor; subst ds'; rewrite ?set_nth_length; auto.
          - intros d. rewrite Hn. destruct (Nat.eqb_spec d i) as [->|]; cbn; [|auto].
            rewrite <- a_pend0, Hp. tauto.
          - intros d. rewrite a_cons0, Hw'. destruct (Nat.eqb_spec d i) as [->|]; auto.
            rewrite Hx. cbn. now rewrite Hs.
          - intros f rest Hf. apply a_pick0. intros d. rewrite (Hf d), Hw'. destruct (Nat.eqb_spec d i) as [->|]; auto.
            rewrite Hx. cbn. now rewrite Hs.
          - intros d. rewrite Hw', Hn. destruct (Nat.eqb_spec d i) as [->|]; cbn; auto. }
        assert (Hld : length ds' = length ds) by (subst ds'; apply set_nth_length).
        assert (Hc : (acost (set_nth i r w) pq < acost w pq)%nat) by (unfold acost; lia).
        split; auto. split; auto. split.
        { intros d Hd. rewrite Hw', Hn. destruct (Nat.eqb_spec d i); [lia|auto]. }
        split; [discriminate|]. split; [lia|]. split; [auto|lia].
Qed.

Lemma aold_spec q : forall res r, aold res q = r ->
  (r = None -> res = None /\ q = []) /\
  (forall f, r = Some f -> (res = Some f \/ In f q) /\
      (forall g, In g q -> by_time f g) /\ (forall g, res = Some g -> by_time f g)).
Proof.
  unfold by_time.
  induction q as [|g q IH]; cbn; intros res r E.
  - subst. split; [auto|]. intros f ->. repeat split; auto; [contradiction|]. intros ? [= ->]; lia.
  - destruct (IH _ _ E) as [N S]; split.
    + intros ->. destruct (N eq_refl) as [X _]. destruct res as [h|]; [destruct (_ <? _)|]; discriminate.
    + intros f ->. destruct (S f eq_refl) as (I & L & R).
      destruct res as [h|].
      * destruct (Z.ltb_spec (i_stamp (snd g)) (i_stamp (snd h))) as [Hl|Hl].
        { specialize (R g eq_refl). split; [|split].
          - destruct I as [[= ->]|I]; auto.
          - intros k [<-|Hk]; auto.
          - intros k [= <-]; lia. }
        { specialize (R h eq_refl). split; [|split].
          - destruct I as [[= ->]|I]; auto.
          - intros k [<-|Hk]; [lia|auto].
          - intros k [= <-]; lia. }
      * specialize (R g eq_refl). split; [|split].
        { destruct I as [[= ->]|I]; auto. }
        { intros k [<-|Hk]; auto. }
        { discriminate. }
Qed.

Lemma aunlink_split m q : NoDup (map fst q) -> In m q ->
  exists q1 q2, q = q1 ++ m :: q2 /\ aunlink (fst m) q = q1 ++ q2.
Proof.
  induction q as [|g q IH]; cbn; [contradiction|]; intros ND [->|Hi].
  - rewrite Nat.eqb_refl. now exists [], q.
  - inversion ND as [|? ? Hn ND']; subst.
    destruct (Nat.eqb_spec (fst g) (fst m)) as [E|E].
    + exfalso; apply Hn. rewrite E. now apply in_map.
    + destruct (IH ND' Hi) as (q1 & q2 & -> & ->). now exists (g :: q1), q2.
Qed.

Lemma sorted_snoc {A} (R : A -> A -> Prop) l x : StronglySorted R l -> (forall y, In y l -> R y x) -> StronglySorted R (l ++ [x]).
Proof.
  induction 1 as [|a l S IH F]; cbn; intros H; constructor; auto; try constructor.
  apply Forall_app; split; auto.
Qed.
Lemma sorted_app_r {A} (R : A -> A -> Prop) a l : StronglySorted R (a ++ l) -> StronglySorted R l.
Proof. induction a; cbn; auto. intros S. inversion S; auto. Qed.

Lemma astep_inv w0 w ds pq Q : ainv w0 w ds pq Q ->
  let '((w', ds', pq', Q'), mk) := astep (w, ds, pq, Q) in
  ainv w0 w' ds' pq' Q' /\
  (mk = true -> pq' = [] /\ forall d, nth d w' [] = []) /\
  (mk = false -> (acost w' pq' < acost w pq)%nat).
Proof.
  intros A. unfold astep.
  pose proof (aread_inv w0 Q (length ds) 0 w ds pq (le_n _) A) as R.
  destruct (aread (length ds) 0 w ds pq) as [[[w1 ds1] pq1] full].
  destruct R as (A1 & L1 & _ & F1 & C1 & C2 & C3).
  destruct full; [|split; [exact A1|]; split; [discriminate|auto]].
  specialize (F1 eq_refl). cbn [Nat.add] in F1.
  assert (F2 : forall d, snd (nth d ds1 ad0) = true \/ nth d w1 [] = [] /\ fst (nth d ds1 ad0) <= 0).
  { intros d. destruct (Nat.lt_ge_cases d (length ds)) as [H|H]; [apply F1; lia|].
    right. rewrite !nth_overflow; [split; [auto|cbn; lia]| |]; rewrite ?(a_w _ _ _ _ _ A1); lia. }
  (* when all marks are passed, nothing is left *)
  assert (Fin : forall w' ds' pq' Q', ainv w0 w' ds' pq' Q' ->
            negb (existsb (fun d : adev => 0 <? fst d) ds') = true -> pq' = [] /\ forall d, nth d w' [] = []).
  { intros w' ds' pq' Q' A' E. apply negb_true_iff in E.
    assert (Hm : forall d, fst (nth d ds' ad0) <= 0).
    { intros d. destruct (Nat.lt_ge_cases d (length ds')) as [H|H].
      - assert (X : In (nth d ds' ad0) ds') by (now apply nth_In).
        destruct (Z.ltb_spec 0 (fst (nth d ds' ad0))) as [Hlt|]; [|lia].
        assert (existsb (fun d : adev => 0 <? fst d) ds' = true); [|congruence].
        apply existsb_exists. exists (nth d ds' ad0). split; auto. lia.
      - rewrite nth_overflow by lia. cbn. lia. }
    assert (Hz : forall d, ~ (nth d w' [] <> [] \/ snd (nth d ds' ad0) = true)).
    { intros d Hd. destruct (a_mark _ _ _ _ _ A' d Hd) as [M1 M2]. specialize (Hm d).
      assert (0 <= sum_dec (nth d w' [])); [|lia].
      clear - M2. induction M2; cbn; lia. }
    split.
    - destruct pq' as [|m pq']; auto. exfalso. apply (Hz (fst m)). right.
      apply (a_pend _ _ _ _ _ A'). now left.
    - intros d. destruct (nth d w' []) eqn:E'; auto. exfalso. apply (Hz d). left. congruence. }
  destruct (aold None pq1) as [m|] eqn:Ho.
  - destruct (aold_spec _ _ _ Ho) as [_ S]. destruct (S m eq_refl) as (Hin & Hle & _).
    destruct Hin as [|Hin]; [discriminate|].
    destruct (aunlink_split m pq1 (a_nodup _ _ _ _ _ A1) Hin) as (q1 & q2 & Eq & Eu).
    rewrite Eu.
    assert (Hlt : (fst m < length ds1)%nat) by (apply (a_dev _ _ _ _ _ A1 _ Hin)).
    match goal with |- context [@set_nth ?T (fst m) ?v ds1] => set (ds' := @set_nth T (fst m) v ds1) end.
    assert (Hn : forall d, nth d ds' ad0 = if Nat.eqb d (fst m) then (fst (nth (fst m) ds1 ad0), false) else nth d ds1 ad0)
      by (intros d; subst ds'; now apply nth_set_w).
    pose proof (a_nodup _ _ _ _ _ A1) as ND. rewrite Eq, map_app in ND. cbn in ND.
    pose proof (NoDup_remove _ _ _ ND) as [ND1 ND2].
    assert (A2 : ainv w0 w1 ds' (q1 ++ q2) (Q ++ [m])).
    { constructor.
      - subst ds'. rewrite set_nth_length. apply A1.
      - subst ds'. rewrite set_nth_length. intros y Hy. apply (a_dev _ _ _ _ _ A1). rewrite Eq.
        apply in_app_or in Hy. apply in_or_app. cbn. tauto.
      - intros d. rewrite Hn, map_app. destruct (Nat.eqb_spec d (fst m)) as [->|Hd]; cbn.
        + split; [discriminate|contradiction].
        + rewrite (a_pend _ _ _ _ _ A1), Eq, map_app, !in_app_iff. cbn.
          split; intros [X|X]; auto. destruct X as [X|X]; auto. congruence.
      - now rewrite map_app.
      - intros d. rewrite (a_cons _ _ _ _ _ A1 d), Eq, !ofdev_app, <- !app_assoc. f_equal.
        change (m :: q2) with ([m] ++ q2). rewrite ofdev_app, ofdev_one.
        destruct (Nat.eqb_spec (fst m) d) as [<-|]; cbn; auto.
        rewrite (ofdev_none (fst m) q1). { reflexivity. }
        intros X. apply ND2, in_or_app. auto.
      - intros f rest Hf HP. rewrite <- app_assoc. cbn [app].
        apply (a_pick _ _ _ _ _ A1 (fun d => ofdev d pq1 ++ filter i_show (nth d w1 []))); [reflexivity|].
        assert (E1 : forall d, ofdev d pq1 = ofdev d q1 ++ (if Nat.eqb (fst m) d then [snd m] else []) ++ ofdev d q2).
        { intros d. rewrite Eq. change (m :: q2) with ([m] ++ q2). now rewrite !ofdev_app, ofdev_one. }
        assert (E2 : ofdev (fst m) q1 = []) by (apply ofdev_none; intros X; apply ND2, in_or_app; auto).
        rewrite (surjective_pairing m). apply (pk_next i_stamp _ f (fst m) (snd m) (f (fst m))).
        + rewrite E1, E2, Nat.eqb_refl, Hf, ofdev_app, E2. reflexivity.
        + intros e y s0 Ey. destruct (F2 e) as [Hp|[Hp _]].
          * apply (a_pend _ _ _ _ _ A1) in Hp. apply in_map_iff in Hp. destruct Hp as ([e' z] & Ee & Hz). cbn in Ee. subst e'.
            apply in_ofdev in Hz. destruct (ofdev e pq1) as [|z0 l0] eqn:Eo; [destruct Hz|]. cbn [app] in Ey.
            assert (z0 = y) by congruence. subst z0. apply (Hle (e, y)). apply in_ofdev. rewrite Eo. now left.
          * rewrite Hp in Ey. cbn [filter] in Ey. rewrite app_nil_r in Ey. apply (Hle (e, y)). apply in_ofdev. rewrite Ey. now left.
        + intros e. destruct (Nat.eqb_spec e (fst m)) as [->|Hd]; [reflexivity|].
          rewrite Hf, ofdev_app, E1. destruct (Nat.eqb_spec (fst m) e); [congruence|]. reflexivity.
        + exact HP.
      - intros d. rewrite Hn. destruct (Nat.eqb_spec d (fst m)) as [->|].
        + intros Hd. cbn in *. apply (a_mark _ _ _ _ _ A1). right. apply (a_pend _ _ _ _ _ A1). now apply in_map.
        + now apply (a_mark _ _ _ _ _ A1). }
    split; [exact A2|]. split; [apply (Fin _ _ _ _ A2)|].
    intros _. unfold acost in *. rewrite Eq in C1. rewrite !app_length in *. cbn in *. lia.
  - destruct (aold_spec _ _ _ Ho) as [N _]. destruct (N eq_refl) as [_ ->].
    split; [exact A1|]. split; [apply (Fin _ _ _ _ A1)|].
    intros E. exfalso.
    assert (X : existsb (fun d : adev => 0 <? fst d) ds1 = false).
    { apply not_true_iff_false. intros X. apply existsb_exists in X. destruct X as (y & Hy & Hlt).
      apply (In_nth _ _ ad0) in Hy. destruct Hy as (d & Hd & <-).
      destruct (F2 d) as [Hp|[_ Hp]]; [|lia].
      apply (a_pend _ _ _ _ _ A1) in Hp. destruct Hp. }
    rewrite X in E. discriminate.
Qed.

Lemma aloop_spec w0 fuel : forall w ds pq Q, ainv w0 w ds pq Q -> (acost w pq < fuel)%nat ->
  exists Q', aloop fuel (w, ds, pq, Q) = Some Q' /\ picks i_stamp (fun d => filter i_show (nth d w0 [])) Q'.
Proof.
  induction fuel as [|k IH]; intros w ds pq Q A Hf; [lia|]. cbn [aloop].
  pose proof (astep_inv w0 w ds pq Q A) as S.
  destruct (astep (w, ds, pq, Q)) as [[[[w' ds'] pq'] Q'] mk].
  destruct S as (A' & S1 & S2). destruct mk.
  - exists Q'. split; [reflexivity|]. destruct (S1 eq_refl) as [-> Hw]. rewrite <- (app_nil_r Q').
    apply (a_pick _ _ _ _ _ A' (fun _ => [])); [|constructor; reflexivity]. intros d. now rewrite (Hw d).
  - apply IH; auto. specialize (S2 eq_refl). lia.
Qed.

(** What picking gives: the sequence of each device, and if these are in time, a sequence in time. *)
Lemma picks_devs {A} (time : A -> Z) f q : picks time f q -> forall d, map snd (filter (fun m => Nat.eqb (fst m) d) q) = f d.
Proof.
  induction 1 as [f H|f g d x r q Hd Hm Hg P IH]; intros e; cbn [filter map]; [now rewrite H|].
  cbn [fst]. specialize (IH e). rewrite Hg in IH. rewrite (Nat.eqb_sym d e).
  destruct (Nat.eqb e d) eqn:Q; cbn [map snd]; rewrite IH; [|reflexivity]. apply Nat.eqb_eq in Q. now rewrite Q, Hd.
Qed.
Lemma picks_in {A} (time : A -> Z) f q : picks time f q -> forall m, In m q -> In (snd m) (f (fst m)).
Proof.
  intros P m Hm. rewrite <- (picks_devs time f q P (fst m)). apply in_map, filter_In. split; [exact Hm|apply Nat.eqb_refl].
Qed.
Lemma picks_sorted {A} (time : A -> Z) f q : picks time f q ->
  (forall d, StronglySorted (fun a b => time a <= time b) (f d)) -> StronglySorted (fun a b => time (snd a) <= time (snd b)) q.
Proof.
  induction 1 as [f H|f g d x r q Hd Hm Hg P IH]; intros HS; [constructor|].
  assert (Sg : forall e, StronglySorted (fun a b => time a <= time b) (g e)).
  { intros e. rewrite Hg. destruct (Nat.eqb_spec e d) as [->|]; [|apply HS]. specialize (HS d). rewrite Hd in HS. now inversion HS. }
  constructor; [now apply IH|]. apply Forall_forall. intros m Hin. cbn [snd]. pose proof (picks_in _ _ _ P m Hin) as I. rewrite Hg in I.
  destruct (Nat.eqb_spec (fst m) d) as [E|E].
  - specialize (HS d). rewrite Hd in HS. inversion HS as [|? ? _ F]; subst. rewrite Forall_forall in F. now apply F.
  - destruct (f (fst m)) as [|y s] eqn:Ef; [destruct I|]. specialize (Hm _ _ _ Ef). destruct I as [<-|I]; [exact Hm|].
    specialize (HS (fst m)). rewrite Ef in HS. inversion HS as [|? ? _ F]; subst. rewrite Forall_forall in F. specialize (F _ I). lia.
Qed.
Lemma picks_merges w0 q : timed w0 -> picks i_stamp (fun d => filter i_show (nth d w0 [])) q -> merges w0 q.
Proof.
  intros HT P. split; [|exact (picks_devs _ _ _ P)]. apply (picks_sorted _ _ _ P). intros d.
  destruct (nth_in_or_default d w0 []) as [X| ->]; [|constructor]. apply (proj1 (Forall_forall _ _) HT _ X).
Qed.

Lemma aloop_mono k1 k2 : forall a Q, aloop k1 a = Some Q -> (k1 <= k2)%nat -> aloop k2 a = Some Q.
Proof.
  revert k2; induction k1 as [|k1 IH]; intros k2 a Q H Hl; [discriminate|].
  destruct k2 as [|k2]; [lia|]. cbn in *. destruct (astep a) as [a' []]; auto. apply IH; auto. lia.
Qed.

(** The whole run. *)
Lemma run_rel n T w0 fuel : 0 <= T -> forall c w ds pq Q f0,
  rel n T c (w, ds, pq, Q) -> ainv w0 w ds pq Q -> (acost w pq < fuel)%nat ->
  exists w' c' Q', process_logs fuel static_env true 0 w c f0 = Ok (Some (w', c', 0)) /\
    aloop fuel (w, ds, pq, Q) = Some Q' /\ printed (c_out c') = final_out T Q'.
Proof.
  intros HT. induction fuel as [|k IH]; intros c w ds pq Q f0 R A Hf; [lia|].
  cbn [aloop process_logs].
  pose proof (round_rel n T c _ HT R) as RR. pose proof (astep_inv w0 w ds pq Q A) as S.
  destruct (astep (w, ds, pq, Q)) as [[[[w' ds'] pq'] Q'] mk]. cbn [fst snd] in RR.
  destruct RR as (c' & r & E & Hr & R1 & R2). rewrite E. cbn [bind].
  destruct (Z.ltb_spec r 0); [lia|]. destruct S as (A' & S1 & S2).
  destruct mk.
  - destruct (S1 eq_refl) as [-> _]. destruct (R2 eq_refl eq_refl) as (M & P & O).
    rewrite M, P. cbn [andb Z.to_nat flush_pending_queue]. rewrite P. cbn. exists w', c', Q'. auto.
  - destruct (R1 eq_refl) as [R1' M]. rewrite M. cbn [andb Z.eqb orb].
    specialize (S2 eq_refl). apply IH; auto. lia.
Qed.

Lemma picks_ext {A} (time : A -> Z) f q : picks time f q -> forall g, (forall d, g d = f d) -> picks time g q.
Proof.
  induction 1 as [f H|f h d x r q Hd Hm Hh P IH]; intros g Hg; [constructor; intros d; now rewrite Hg|].
  apply (pk_next time g h d x r); [now rewrite Hg| |intros e; now rewrite Hh, Hg|exact P].
  intros e y s0 E. rewrite Hg in E. exact (Hm _ _ _ E).
Qed.
Lemma open_ainv w0 marks : marks_cover w0 marks -> ainv w0 w0 (map (fun m => (m, false)) marks) [] [].
Proof.
  intros [L C].
  assert (Hn : forall d, nth d (map (fun m : Z => (m, false)) marks) ad0 = (nth d marks 0, false)).
  { intros d. change ad0 with ((fun m : Z => (m, false)) 0). apply map_nth. }
  constructor; cbn; try rewrite map_length; auto; try contradiction; try constructor.
  - intros X. rewrite Hn in X. discriminate.
  - contradiction.
  - intros f rest Hf P. apply (picks_ext _ _ _ P). intros d. now rewrite Hf.
  - destruct H as [H|H]; [|rewrite Hn in H; discriminate]. rewrite Hn. now apply C.
  - destruct H as [H|H]; [|rewrite Hn in H; discriminate]. now apply C.
Qed.

Lemma dump_any w0 marks : marks_cover w0 marks ->
  exists Q, picks i_stamp (fun d => filter i_show (nth d w0 [])) Q /\ forall T, 0 <= T -> forall fuel, (2 * total w0 < fuel)%nat ->
    exists w' c', process_logs fuel static_env true 0 w0 (open_ctx T marks) 0 = Ok (Some (w', c', 0)) /\
      printed (c_out c') = final_out T Q.
Proof.
  intros Hm. pose proof (open_ainv _ _ Hm) as A.
  destruct (aloop_spec w0 (S (2 * total w0)) _ _ _ _ A) as (Q & E & M).
  { unfold acost. cbn [length]. lia. }
  exists Q. split; [exact M|]. intros T HT fuel Hf.
  destruct (run_rel (Z.to_nat (T + zlen marks + 1)) T w0 fuel HT (open_ctx T marks) w0 (map (fun m => (m, false)) marks) [] [] 0)
    as (w' & c' & Q' & E1 & E2 & O); auto.
  - constructor; cbn [fst snd]; auto.
    + now apply open_inv.
    + cbn. rewrite map_map. reflexivity.
    + cbn. rewrite map_length. apply Hm.
    + constructor.
    + cbn. unfold lastn. cbn. destruct (Z.to_nat T); constructor.
    + destruct (T =? 0); reflexivity.
  - unfold acost. cbn [length]. lia.
  - exists w', c'. split; [exact E1|].
    rewrite (aloop_mono _ fuel _ _ E) in E2 by lia. congruence.
Qed.

Lemma dump_static w0 marks : timed w0 -> marks_cover w0 marks ->
  exists Q, merges w0 Q /\ forall T, 0 <= T -> forall fuel, (2 * total w0 < fuel)%nat ->
    exists w' c', process_logs fuel static_env true 0 w0 (open_ctx T marks) 0 = Ok (Some (w', c', 0)) /\
      printed (c_out c') = final_out T Q.
Proof.
  intros Ht Hm. destruct (dump_any w0 marks Hm) as (Q & P & H). exists Q. split; [now apply picks_merges|exact H].
Qed.
