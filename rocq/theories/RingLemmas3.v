(** Lemmas behind the theorems of PropsRing.v (end): independence of files, versions, opening. *)
From Coq Require Import ZArith String List Bool Lia ZifyBool ZifyNat.
From Verif Require Import Bytes BytesProofs Ring RingSpec RingProofs RingRefine RingHistory RingInv RingObs RingLemmas RingLemmas2 RingRetain.
Import ListNotations.
Open Scope Z_scope.

(** ** Independence (C14) *)

(** Same devices except for the reading position of the file [fid]. *)
Definition same_file (fid : Z) (p1 p2 : Z * afile) : Prop :=
  fst p1 = fst p2 /\ (fst p1 <> fid -> snd p1 = snd p2) /\
  a_wr (snd p1) = a_wr (snd p2) /\ a_raw (snd p1) = a_raw (snd p2) /\
  (a_rd (snd p1) = None <-> a_rd (snd p2) = None).
Definition same_but (fid : Z) (a1 a2 : adev) : Prop :=
  a_cap a1 = a_cap a2 /\ a_name a1 = a_name a2 /\ a_keep a1 = a_keep a2 /\ a_gone a1 = a_gone a2 /\
  Forall2 (same_file fid) (a_files a1) (a_files a2).

Lemma same_file_refl : forall fid p, same_file fid p p.
Proof. intros. repeat split; auto. Qed.

Lemma same_but_refl : forall fid a, same_but fid a a.
Proof.
  intros. repeat split; auto. induction (a_files a); constructor; auto using same_file_refl.
Qed.

Definition same_value (x1 x2 : afile) : Prop :=
  a_wr x1 = a_wr x2 /\ a_raw x1 = a_raw x2 /\ (a_rd x1 = None <-> a_rd x2 = None).

Lemma same_lookup : forall fid l1 l2 k, Forall2 (same_file fid) l1 l2 ->
  match alookup k l1, alookup k l2 with
  | None, None => True
  | Some x1, Some x2 => (k <> fid -> x1 = x2) /\ same_value x1 x2
  | _, _ => False
  end.
Proof.
  intros fid l1 l2 k H. induction H as [|[i x] [j y] l1 l2 (E & H1 & H2 & H3 & H4) H IH]; cbn; [trivial|].
  cbn in *. subst j. destruct (Z.eqb_spec i k); [subst; repeat split; try assumption; apply H4|exact IH].
Qed.

Lemma same_update : forall fid l1 l2 k x1 x2, Forall2 (same_file fid) l1 l2 ->
  (k <> fid -> x1 = x2) -> same_value x1 x2 -> Forall2 (same_file fid) (aupdate k x1 l1) (aupdate k x2 l2).
Proof.
  intros fid l1 l2 k x1 x2 H Hx (V1 & V2 & V3). induction H as [|[i x] [j y] l1 l2 (E & H1 & H2 & H3 & H4) H IH]; cbn; [constructor|].
  cbn in *. subst j. destruct (Z.eqb_spec i k).
  - subst. constructor; [|assumption]. repeat split; cbn; auto; apply V3.
  - constructor; [|assumption]. repeat split; cbn; auto; apply H4.
Qed.

Lemma same_remove : forall fid l1 l2 k, Forall2 (same_file fid) l1 l2 ->
  Forall2 (same_file fid) (aremove k l1) (aremove k l2).
Proof.
  intros fid l1 l2 k H. induction H as [|[i x] [j y] l1 l2 E H IH]; cbn; [constructor|].
  pose proof E as (Ei & _). cbn in Ei. subst j. destruct (i =? k); [assumption|constructor; assumption].
Qed.

Lemma same_on_files : forall fid g l1 l2, Forall2 (same_file fid) l1 l2 ->
  (forall x, a_wr (g x) = a_wr x /\ a_raw (g x) = a_raw x /\ (a_rd (g x) = None <-> a_rd x = None)) ->
  Forall2 (same_file fid) (on_files g l1) (on_files g l2).
Proof.
  intros fid g l1 l2 H Hg. induction H as [|[i x] [j y] l1 l2 (E & H1 & H2 & H3 & H4) H IH]; cbn; [constructor|].
  cbn in *. subst j. constructor; [|exact IH].
  destruct (Hg x) as (G1 & G2 & G3), (Hg y) as (K1 & K2 & K3).
  repeat split; cbn; try congruence; try tauto. intros Hi. rewrite (H1 Hi). reflexivity.
Qed.

Lemma amake_room_same : forall cap need x,
  a_wr (amake_room cap need x) = a_wr x /\ a_raw (amake_room cap need x) = a_raw x /\
  (a_rd (amake_room cap need x) = None <-> a_rd x = None).
Proof.
  intros cap need x. unfold amake_room. destruct (a_rd x) as [r|] eqn:E; [|rewrite E; tauto].
  destruct (make_room cap need (a_q r)). cbn. repeat split; discriminate.
Qed.
Lemma aappend_same : forall e x,
  a_wr (aappend e x) = a_wr x /\ a_raw (aappend e x) = a_raw x /\ (a_rd (aappend e x) = None <-> a_rd x = None).
Proof.
  intros e x. unfold aappend. destruct (a_rd x) as [r|] eqn:E; [|rewrite E; tauto]. cbn. repeat split; discriminate.
Qed.
Lemma aflush_same : forall x,
  a_wr (aflush x) = a_wr x /\ a_raw (aflush x) = a_raw x /\ (a_rd (aflush x) = None <-> a_rd x = None).
Proof.
  intros x. unfold aflush. destruct (a_rd x) as [r|] eqn:E; [|rewrite E; tauto]. cbn. repeat split; discriminate.
Qed.

Lemma same_put : forall fid a1 a2 k x1 x2, same_but fid a1 a2 -> (k <> fid -> x1 = x2) -> same_value x1 x2 ->
  same_but fid (mkADev (a_cap a1) (a_name a1) (a_keep a1) (a_gone a1) (aupdate k x1 (a_files a1)))
               (mkADev (a_cap a2) (a_name a2) (a_keep a2) (a_gone a2) (aupdate k x2 (a_files a2))).
Proof.
  intros fid a1 a2 k x1 x2 (H1 & H2 & H3 & H4 & H5) Hx Hv. unfold same_but. cbn.
  repeat (split; [assumption|]). apply same_update; assumption.
Qed.

Lemma awrite_same : forall fid a1 a2 raw t sec nsec it, same_but fid a1 a2 ->
  same_but fid (fst (awrite a1 raw t sec nsec it)) (fst (awrite a2 raw t sec nsec it)) /\
  snd (awrite a1 raw t sec nsec it) = snd (awrite a2 raw t sec nsec it).
Proof.
  intros fid a1 a2 raw t sec nsec it H. pose proof H as (H1 & H2 & H3 & H4 & H5). unfold awrite.
  destruct (_ && _); [auto|]. destruct (_ =? 0); [auto|]. rewrite <- H1, <- H3.
  destruct (make_room _ _ _) as [keep n]. rewrite H4.
  assert (Hr : forall need, Forall2 (same_file fid) (on_files (amake_room (a_cap a1) need) (a_files a1))
                                 (on_files (amake_room (a_cap a1) need) (a_files a2))).
  { intros need. apply same_on_files; [exact H5|]. apply amake_room_same. }
  destruct (iter_fault _ _); cbn [fst snd]; (split; [|reflexivity]); unfold same_but; cbn.
  - repeat (split; [auto|]). apply Hr.
  - repeat (split; [auto|]). apply same_on_files; [apply Hr|]. apply aappend_same.
Qed.

Lemma astep_same : forall fid a1 a2 o, same_but fid a1 a2 ->
  same_but fid (fst (astep a1 o)) (fst (astep a2 o)) /\
  (op_file o <> fid -> snd (astep a1 o) = snd (astep a2 o)).
Proof.
  intros fid a1 a2 o H. pose proof H as (H1 & H2 & H3 & H4 & H5).
  pose proof (same_lookup fid _ _ (op_file o) H5) as HL.
  destruct o; cbn [op_file] in *; cbn [astep];
  destruct (alookup fid0 (a_files a1)) as [x1|] eqn:L1; destruct (alookup fid0 (a_files a2)) as [x2|] eqn:L2;
  try contradiction; try (split; [exact H|reflexivity]).
  - (* open *) destruct (rd && nomem); [split; [exact H|reflexivity]|]. cbn [fst snd]. split; [|reflexivity].
    unfold same_but. cbn. rewrite H3, H4. repeat (split; [auto|]). apply Forall2_app; [exact H5|].
    constructor; [|constructor]. apply same_file_refl.
  - (* close *) cbn [fst snd]. split; [|reflexivity]. unfold same_but. cbn. repeat (split; [auto|]). apply same_remove. exact H5.
  - (* check *) destruct HL as (HL & _ & _ & HV). destruct x1 as [w1 m1 [r1|]], x2 as [w2 m2 [r2|]]; cbn [fst snd];
    (split; [exact H|]); intros Hne; try (specialize (HL Hne); congruence); try reflexivity.
    specialize (HL Hne). injection HL as -> -> ->. reflexivity.
  - (* read *) destruct HL as (HL & Hw & Hm & HV). destruct x1 as [w1 m1 [r1|]], x2 as [w2 m2 [r2|]]; cbn in Hw, Hm, HV.
    + destruct (aread (a_name a1) r1 euid count valid) as [r1' y1] eqn:A1.
      destruct (aread (a_name a2) r2 euid count valid) as [r2' y2] eqn:A2. cbn [fst snd].
      assert (Hd : fid0 <> fid -> r1' = r2' /\ y1 = y2).
      { intros Hne. specialize (HL Hne). injection HL as _ _ ->. rewrite H2 in A1. split; congruence. }
      split; [|intros Hne; apply Hd; exact Hne]. apply same_put; [exact H| |].
      * intros Hne. destruct (Hd Hne). congruence.
      * repeat split; cbn; auto; discriminate.
    + destruct HV as [_ HV]. specialize (HV eq_refl). discriminate.
    + destruct HV as [HV _]. specialize (HV eq_refl). discriminate.
    + split; [exact H|reflexivity].
  - (* write *) destruct HL as (_ & Hw & Hm & _). rewrite Hw, Hm. destruct (a_wr x2); [|split; [exact H|reflexivity]].
    destruct (awrite_same fid a1 a2 (a_raw x2) t sec nsec it H) as [A B]. split; [exact A|]. intros _. exact B.
  - (* poll *) destruct HL as (HL & Hw & Hm & HV). destruct x1 as [w1 m1 [r1|]], x2 as [w2 m2 [r2|]]; cbn in Hw, Hm, HV.
    + cbn [fst snd]. split.
      * apply same_put; [exact H| |].
        { intros Hne. specialize (HL Hne). congruence. }
        { repeat split; cbn; auto; discriminate. }
      * intros Hne. specialize (HL Hne). injection HL as -> -> ->. reflexivity.
    + destruct HV as [_ HV]. specialize (HV eq_refl). discriminate.
    + destruct HV as [HV _]. specialize (HV eq_refl). discriminate.
    + split; [exact H|reflexivity].
  - (* ioctl *) destruct HL as (HL & Hw & Hm & HV).
    assert (Hid : same_but fid (fst (a1, AErr 0)) (fst (a2, AErr 0))) by exact H.
    destruct x1 as [w1 m1 o1], x2 as [w2 m2 o2]; cbn in Hw, Hm, HV. subst w2 m2.
    assert (HO : fid0 <> fid -> o1 = o2) by (intros Hne; specialize (HL Hne); congruence).
    assert (HN : match o1, o2 with None, None => True | Some _, Some _ => True | _, _ => False end).
    { destruct o1, o2; auto; [destruct HV as [_ HV]|destruct HV as [HV _]]; specialize (HV eq_refl); discriminate. }
    destruct o1 as [r1|], o2 as [r2|]; try contradiction; destruct c; cbn [aioctl a_rd a_wr a_raw];
    try (split; [exact H|reflexivity]);
    try (split; [exact H|intros Hne; specialize (HO Hne); cbn; congruence]).
    + split.
      * cbn [fst]. apply same_put; [exact H| |]. { intros Hne. specialize (HO Hne). congruence. }
        repeat split; cbn; auto; discriminate.
      * intros Hne. specialize (HO Hne). injection HO as ->. reflexivity.
    + destruct w1; (split; [|reflexivity]); cbn [fst]; [|exact H].
      unfold same_but. cbn. repeat (split; [auto|]). apply same_on_files; [exact H5|]. apply aflush_same.
    + destruct arg as [v|]; [|split; [exact H|reflexivity]].
      destruct ((v =? 1) || (v =? 2)); (split; [|reflexivity]); cbn [fst]; [|exact H].
      apply same_put; [exact H| |]. { intros Hne. specialize (HO Hne). congruence. }
      repeat split; cbn; auto; discriminate.
    + destruct (negb w1); [split; [exact H|reflexivity]|]. destruct (strict && negb capable); [split; [exact H|reflexivity]|].
      destruct arg as [v|]; [|split; [exact H|reflexivity]].
      destruct ((v =? 0) || (v =? 1)); (split; [|reflexivity]); cbn [fst]; [|exact H].
      apply same_put; [exact H| |]. { intros Hne. specialize (HO Hne). congruence. }
      repeat split; cbn; auto; discriminate.
    + destruct w1; (split; [|reflexivity]); cbn [fst]; [|exact H].
      unfold same_but. cbn. repeat (split; [auto|]). apply same_on_files; [exact H5|]. apply aflush_same.
    + destruct arg; (split; [exact H|reflexivity]).
    + destruct (negb w1); [split; [exact H|reflexivity]|]. destruct (strict && negb capable); [split; [exact H|reflexivity]|].
      destruct arg as [v|]; [|split; [exact H|reflexivity]].
      destruct ((v =? 0) || (v =? 1)); (split; [|reflexivity]); cbn [fst]; [|exact H].
      apply same_put; [exact H| |]. { intros Hne. specialize (HO Hne). congruence. }
      repeat split; cbn; auto; discriminate.
Qed.

Fixpoint aouts_except (fid : Z) (ops : list op) (xs : list aout) : list aout :=
  match ops, xs with
  | o :: ops', x :: xs' =>
    if op_file o =? fid then aouts_except fid ops' xs' else x :: aouts_except fid ops' xs'
  | _, _ => []
  end.

Lemma outputs_except_map : forall fid ops xs,
  outputs_except fid ops (map render xs) = map render (aouts_except fid ops xs).
Proof.
  induction ops as [|o ops IH]; intros [|x xs]; cbn; try reflexivity.
  destruct (op_file o =? fid); cbn; rewrite IH; reflexivity.
Qed.

Lemma arun_same : forall ops fid a1 a2, same_but fid a1 a2 ->
  aouts_except fid ops (snd (arun a1 ops)) = aouts_except fid ops (snd (arun a2 ops)).
Proof.
  induction ops as [|o ops IH]; intros fid a1 a2 H; cbn [arun]; [reflexivity|].
  destruct (astep_same fid a1 a2 o H) as [S1 S2].
  destruct (astep a1 o) as [b1 x1], (astep a2 o) as [b2 x2]. cbn [fst snd] in *.
  specialize (IH fid b1 b2 S1). destruct (arun b1 ops) as [c1 y1], (arun b2 ops) as [c2 y2]. cbn [snd] in *.
  cbn [aouts_except]. destruct (Z.eqb_spec (op_file o) fid); [exact IH|]. rewrite (S2 n), IH. reflexivity.
Qed.

Lemma update_same_but : forall a fid f x, alookup fid (a_files a) = Some f -> same_value f x ->
  same_but fid a (mkADev (a_cap a) (a_name a) (a_keep a) (a_gone a) (aupdate fid x (a_files a))).
Proof.
  intros a fid f x El HV. unfold same_but. cbn. repeat (split; [reflexivity|]).
  revert El. induction (a_files a) as [|[i y] l IH]; intros El; cbn in *; [constructor|].
  destruct (Z.eqb_spec i fid).
  - injection El as ->. constructor; [|clear; induction l; constructor; auto using same_file_refl].
    destruct HV as (? & ? & ?). repeat split; cbn; auto; try contradiction; tauto.
  - constructor; [apply same_file_refl|]. apply IH. exact El.
Qed.

Lemma passive_same : forall a o, passive o -> same_but (op_file o) a (fst (astep a o)).
Proof.
  intros a o Hp. destruct o; try contradiction; cbn [astep op_file].
  - destruct (alookup fid (a_files a)) as [[w m [r|]]|]; apply same_but_refl.
  - destruct (alookup fid (a_files a)) as [[w m [r|]]|] eqn:El; try apply same_but_refl.
    destruct (aread (a_name a) r euid count valid) as [r' x]. cbn [fst].
    eapply update_same_but; [exact El|]. repeat split; cbn; try discriminate.
  - destruct (alookup fid (a_files a)) as [[w m [r|]]|] eqn:El; try apply same_but_refl. cbn [fst].
    eapply update_same_but; [exact El|]. repeat split; cbn; try discriminate.
  - destruct (alookup fid (a_files a)) as [[w m rd]|] eqn:El; [|apply same_but_refl].
    destruct c; try contradiction; cbn [aioctl a_rd]; try apply same_but_refl;
    destruct rd as [r|]; try apply same_but_refl.
    + cbn [fst]. eapply update_same_but; [exact El|]. repeat split; cbn; try discriminate.
    + destruct arg as [v|]; [|apply same_but_refl]. destruct (_ || _); [|apply same_but_refl]. cbn [fst].
      eapply update_same_but; [exact El|]. repeat split; cbn; try discriminate.
    + destruct arg; apply same_but_refl.
Qed.

Lemma passive_user : forall o, passive o -> user_op o.
Proof. intros [] H; cbn in *; auto; contradiction. Qed.

Lemma same_runs : forall d1 d2 a1 a2 fid ops, R d1 a1 -> R d2 a2 -> vers_ok a1 -> vers_ok a2 ->
  same_but fid a1 a2 -> Forall user_op ops ->
  exists d1' d2' x1 x2, run d1 ops = Ok (d1', x1) /\ run d2 ops = Ok (d2', x2) /\
    outputs_except fid ops x1 = outputs_except fid ops x2.
Proof.
  intros d1 d2 a1 a2 fid ops R1 R2 V1 V2 HS Hu.
  destruct (run_R ops d1 a1 Hu R1 V1) as (d1' & E1 & _).
  destruct (run_R ops d2 a2 Hu R2 V2) as (d2' & E2 & _).
  exists d1', d2', (map render (snd (arun a1 ops))), (map render (snd (arun a2 ops))).
  split; [exact E1|]. split; [exact E2|]. rewrite !outputs_except_map. f_equal. apply arun_same. exact HS.
Qed.

Lemma passive_independent : forall d o d' x ops, reachable d -> passive o -> step d o = Ok (d', x) ->
  Forall user_op ops ->
  exists d1 d2 x1 x2, run d ops = Ok (d1, x1) /\ run d' ops = Ok (d2, x2) /\
    outputs_except (op_file o) ops x1 = outputs_except (op_file o) ops x2.
Proof.
  intros d o d' x ops Hr Hp E Hu.
  destruct (reach_step d o d' x Hr (passive_user o Hp) E) as (a & HR & Hv & HR' & Hv' & _).
  eapply same_runs; try eassumption. apply passive_same. exact Hp.
Qed.

(** Opening and closing another file. *)
Definition same_without (fid : Z) (a1 a2 : adev) : Prop :=
  a_cap a1 = a_cap a2 /\ a_name a1 = a_name a2 /\ a_keep a1 = a_keep a2 /\ a_gone a1 = a_gone a2 /\
  filter (fun p => negb (fst p =? fid)) (a_files a1) = filter (fun p => negb (fst p =? fid)) (a_files a2).

Lemma lookup_without : forall l1 l2 fid k, k <> fid ->
  filter (fun p : Z * afile => negb (fst p =? fid)) l1 = filter (fun p => negb (fst p =? fid)) l2 ->
  alookup k l1 = alookup k l2.
Proof.
  assert (L : forall l fid k, k <> fid ->
     alookup k l = alookup k (filter (fun p : Z * afile => negb (fst p =? fid)) l)).
  { induction l as [|[i x] l IH]; intros fid k Hk; cbn; [reflexivity|].
    destruct (Z.eqb_spec i fid); cbn.
    - subst. destruct (Z.eqb_spec fid k); [congruence|]. apply IH. exact Hk.
    - destruct (i =? k); [reflexivity|]. apply IH. exact Hk. }
  intros l1 l2 fid k Hk H. rewrite (L l1 fid k Hk), (L l2 fid k Hk), H. reflexivity.
Qed.

Lemma filter_update : forall l fid k x, k <> fid ->
  filter (fun p : Z * afile => negb (fst p =? fid)) (aupdate k x l) =
  aupdate k x (filter (fun p => negb (fst p =? fid)) l).
Proof.
  induction l as [|[i y] l IH]; intros fid k x Hk; cbn; [reflexivity|].
  destruct (Z.eqb_spec i k); cbn.
  - subst. destruct (Z.eqb_spec k fid); [contradiction|]. cbn. rewrite Z.eqb_refl. reflexivity.
  - destruct (Z.eqb_spec i fid); cbn; [apply IH; exact Hk|].
    destruct (Z.eqb_spec i k); [contradiction|]. f_equal. apply IH. exact Hk.
Qed.

Lemma filter_remove : forall l fid k, k <> fid ->
  filter (fun p : Z * afile => negb (fst p =? fid)) (aremove k l) =
  aremove k (filter (fun p => negb (fst p =? fid)) l).
Proof.
  induction l as [|[i y] l IH]; intros fid k Hk; cbn; [reflexivity|].
  destruct (Z.eqb_spec i k); cbn.
  - subst. destruct (Z.eqb_spec k fid); [contradiction|]. cbn. rewrite Z.eqb_refl. reflexivity.
  - destruct (Z.eqb_spec i fid); cbn; [apply IH; exact Hk|].
    destruct (Z.eqb_spec i k); [contradiction|]. f_equal. apply IH. exact Hk.
Qed.

Lemma filter_on_files : forall l fid g,
  filter (fun p : Z * afile => negb (fst p =? fid)) (on_files g l) =
  on_files g (filter (fun p => negb (fst p =? fid)) l).
Proof.
  induction l as [|[i y] l IH]; intros fid g; cbn; [reflexivity|].
  destruct (negb (i =? fid)); cbn; [f_equal|]; apply IH.
Qed.

Lemma without_put : forall fid a1 a2 k x, same_without fid a1 a2 -> k <> fid ->
  same_without fid (mkADev (a_cap a1) (a_name a1) (a_keep a1) (a_gone a1) (aupdate k x (a_files a1)))
                   (mkADev (a_cap a2) (a_name a2) (a_keep a2) (a_gone a2) (aupdate k x (a_files a2))).
Proof.
  intros fid a1 a2 k x (H1 & H2 & H3 & H4 & H5) Hk. unfold same_without. cbn.
  repeat (split; [assumption|]). rewrite !filter_update by exact Hk. rewrite H5. reflexivity.
Qed.

Lemma astep_without : forall fid a1 a2 o, same_without fid a1 a2 -> op_file o <> fid ->
  same_without fid (fst (astep a1 o)) (fst (astep a2 o)) /\ snd (astep a1 o) = snd (astep a2 o).
Proof.
  intros fid a1 a2 o H Hk. pose proof H as (H1 & H2 & H3 & H4 & H5).
  pose proof (lookup_without _ _ _ _ Hk H5) as HL.
  destruct o; cbn [op_file] in *; cbn [astep]; rewrite HL;
  destruct (alookup fid0 (a_files a2)) as [[w m rd0]|] eqn:L2; try (split; [exact H|reflexivity]).
  - destruct (rd && nomem); [split; [exact H|reflexivity]|]. cbn [fst snd]. split; [|reflexivity].
    unfold same_without. cbn. rewrite H3, H4. repeat (split; [auto|]). rewrite !filter_app, H5. reflexivity.
  - cbn [fst snd]. split; [|reflexivity]. unfold same_without. cbn. repeat (split; [auto|]).
    rewrite !filter_remove by exact Hk. rewrite H5. reflexivity.
  - destruct rd0; (split; [exact H|reflexivity]).
  - destruct rd0 as [r|]; [|split; [exact H|reflexivity]]. rewrite H2.
    destruct (aread (a_name a2) r euid count valid) as [r' x]. cbn [fst snd]. split; [|reflexivity].
    pose proof (without_put fid a1 a2 fid0 (mkAFile w m (Some r')) H Hk) as W. rewrite H2 in W. exact W.
  - destruct w; cbn [a_wr a_raw]; [|split; [exact H|reflexivity]]. unfold awrite.
    destruct (_ && _); [split; [exact H|reflexivity]|]. destruct (_ =? 0); [split; [exact H|reflexivity]|].
    rewrite <- H1, <- H3. destruct (make_room _ _ _) as [keep n]. rewrite H4.
    destruct (iter_fault _ _); cbn [fst snd]; (split; [|reflexivity]); unfold same_without; cbn;
    repeat (split; [auto|]); rewrite !filter_on_files, H5; reflexivity.
  - destruct rd0 as [r|]; [|split; [exact H|reflexivity]]. cbn [fst snd]. split; [|reflexivity]. apply without_put; assumption.
  - destruct c; cbn [aioctl a_rd a_wr a_raw]; try destruct rd0 as [r|];
    try (split; [exact H|reflexivity]); try (split; [exact H|cbn; congruence]).
    + cbn [fst snd]. split; [apply without_put; assumption|reflexivity].
    + destruct w; [|split; [exact H|reflexivity]]. cbn [fst snd]. split; [|reflexivity].
      unfold same_without. cbn. repeat (split; [auto|]). rewrite !filter_on_files, H5. reflexivity.
    + destruct w; [|split; [exact H|reflexivity]]. cbn [fst snd]. split; [|reflexivity].
      unfold same_without. cbn. repeat (split; [auto|]). rewrite !filter_on_files, H5. reflexivity.
    + destruct arg as [v|]; [|split; [exact H|reflexivity]]. destruct (_ || _); [|split; [exact H|reflexivity]].
      cbn [fst snd]. split; [apply without_put; assumption|reflexivity].
    + destruct arg; split; try exact H; reflexivity.
    + destruct (negb w); [split; [exact H|reflexivity]|]. destruct (strict && negb capable); [split; [exact H|reflexivity]|].
      destruct arg as [v|]; [|split; [exact H|reflexivity]]. destruct (_ || _); [|split; [exact H|reflexivity]].
      cbn [fst snd]. split; [apply without_put; assumption|reflexivity].
    + destruct (negb w); [split; [exact H|reflexivity]|]. destruct (strict && negb capable); [split; [exact H|reflexivity]|].
      destruct arg as [v|]; [|split; [exact H|reflexivity]]. destruct (_ || _); [|split; [exact H|reflexivity]].
      cbn [fst snd]. split; [apply without_put; assumption|reflexivity].
Qed.

Lemma arun_without : forall ops fid a1 a2, same_without fid a1 a2 ->
  Forall (fun o => op_file o <> fid) ops -> snd (arun a1 ops) = snd (arun a2 ops).
Proof.
  induction ops as [|o ops IH]; intros fid a1 a2 H Ho; cbn [arun]; [reflexivity|].
  inversion Ho; subst.
  destruct (astep_without fid a1 a2 o H H2) as [S1 S2].
  destruct (astep a1 o) as [b1 x1], (astep a2 o) as [b2 x2]. cbn [fst snd] in *.
  specialize (IH fid b1 b2 S1 H3). destruct (arun b1 ops), (arun b2 ops). cbn [snd] in *. congruence.
Qed.

Lemma open_close_independent : forall d o d' x ops, reachable d ->
  match o with OpOpen _ _ _ _ _ | OpClose _ => True | _ => False end ->
  step d o = Ok (d', x) -> Forall user_op ops -> Forall (fun p => op_file p <> op_file o) ops ->
  exists d1 d2 xs, run d ops = Ok (d1, xs) /\ run d' ops = Ok (d2, xs).
Proof.
  intros d o d' x ops Hr Ho E Hu Hf.
  assert (user_op o) as Huo by (destruct o; try contradiction; exact I).
  destruct (reach_step d o d' x Hr Huo E) as (a & HR & Hv & HR' & Hv' & _).
  assert (HS : same_without (op_file o) a (fst (astep a o))).
  { destruct o; try contradiction; cbn [astep op_file].
    - destruct (alookup fid (a_files a)); [repeat split; reflexivity|].
      destruct (rd && nomem); [repeat split; reflexivity|]. unfold same_without. cbn.
      repeat (split; [reflexivity|]). rewrite filter_app. cbn. rewrite Z.eqb_refl. cbn. rewrite app_nil_r. reflexivity.
    - destruct (alookup fid (a_files a)); [|repeat split; reflexivity]. unfold same_without. cbn.
      repeat (split; [reflexivity|]). clear. induction (a_files a) as [|[i y] l IH]; cbn; [reflexivity|].
      destruct (i =? fid) eqn:Ei; cbn; [reflexivity|]. rewrite Ei. cbn. f_equal. exact IH. }
  destruct (run_R ops d a Hu HR Hv) as (d1 & E1 & _). destruct (run_R ops d' _ Hu HR' Hv') as (d2 & E2 & _).
  exists d1, d2, (map render (snd (arun a ops))). split; [exact E1|]. rewrite E2. do 3 f_equal.
  symmetry. eapply arun_without; eassumption.
Qed.

(** ** Versions (C15) *)

Lemma set_version : forall d fid v euid d' x ver, reachable d -> version d fid ver ->
  step d (OpIoctl fid (SetVersion (Some v)) euid) = Ok (d', x) ->
  (v <> 1 /\ v <> 2 -> x = OutErr EINVAL /\ d' = d) /\
  (v = 1 \/ v = 2 -> x = OutVal 0 /\ version d' fid v /\
     forall uid, exists n q, drains d fid uid (stream (name (d_log d)) ver n q) /\
                             drains d' fid uid (stream (name (d_log d)) v n q)).
Proof.
  intros d fid v euid d' x ver Hr (r & Hrd & Hver) E.
  destruct (reach_step d (OpIoctl fid (SetVersion (Some v)) euid) d' _ Hr I E) as (a & HR & Hv & HR1 & Hv1 & Hx).
  destruct (R_reader_of d a fid r HR Hrd) as ([w m rd] & ar & El & Er & (_ & _ & _ & _ & Ev)). cbn in Er. subst rd.
  split.
  - intros [N1 N2]. unfold step in E. unfold reader_of in Hrd.
    destruct (lookup fid (d_files d)) as [g|] eqn:Eg; [|discriminate]. cbn [ulogger_ioctl] in E. rewrite Hrd in E.
    replace ((v <? 1) || (v >? 2)) with true in E by lia. cbn [bind] in E. rewrite update_same in E by exact Eg.
    destruct d as [l fs]; cbn [d_log d_files] in E. change (ret_out (- EINVAL)) with (OutErr EINVAL) in E. split; congruence.
  - intros HV. cbn [astep] in *. rewrite El in *. cbn [aioctl a_rd] in *.
    replace ((v =? 1) || (v =? 2)) with true in * by lia. cbn [fst snd render] in *. split; [exact Hx|].
    set (ar' := mkAReader (a_q ar) (a_lost ar) (a_all ar) v) in *.
    assert (El' : alookup fid (a_files (mkADev (a_cap a) (a_name a) (a_keep a) (a_gone a)
                (aupdate fid (mkAFile w m (Some ar')) (a_files a)))) = Some (mkAFile w m (Some ar'))).
    { cbn [a_files]. eapply alookup_update_id. exact El. }
    split.
    + destruct (R_reader_back d' _ fid _ ar' HR1 El' eq_refl) as (r' & Hr' & (_ & _ & _ & _ & V')).
      exists r'. split; [exact Hr'|exact V'].
    + intros uid. exists (a_lost ar), (mine ar uid). pose proof HR as (_ & _ & -> & _). split.
      * rewrite <- Hver, Ev. eapply drains_R; try eassumption; try reflexivity. 
      * exact (drains_R _ d' _ fid _ ar' uid (le_n _) HR1 Hv1 El' eq_refl).
Qed.

(** ** Flush and open (C08, C16) *)

Lemma flush_empties : forall d fid euid d' v, reachable d ->
  step d (OpIoctl fid FlushLog euid) = Ok (d', OutVal v) ->
  (forall rd uid, is_reader d' rd -> drains d' rd uid []) /\
  (forall rd wr all d2, step d' (OpOpen rd true wr all false) = Ok (d2, OutVal 0) -> forall uid, drains d2 rd uid []).
Proof.
  intros d fid euid d' v Hr E.
  destruct (reach_step d (OpIoctl fid FlushLog euid) d' _ Hr I E) as (a & HR & Hv & HR1 & Hv1 & Hx).
  cbn [astep] in *. destruct (alookup fid (a_files a)) as [f|]; [|discriminate]. cbn [aioctl] in *.
  assert (Hx2 : a_wr f = true) by (destruct (a_wr f); [reflexivity|discriminate]).
  rewrite Hx2 in *. cbn [fst snd] in *. split.
  - intros rd uid (r & Hrd). destruct (R_reader_of d' _ rd r HR1 Hrd) as (g & ar & El & Er & _).
    pose proof (drains_R _ d' _ rd g ar uid (le_n _) HR1 Hv1 El Er) as H.
    cbn [a_files] in El. rewrite alookup_on_files in El. destruct (alookup rd (a_files a)) as [g0|]; [|discriminate].
    cbn in El. injection El as <-. unfold aflush in Er. destruct (a_rd g0) as [r0|] eqn:E0; [|rewrite E0 in Er; discriminate].
    cbn in Er. injection Er as <-. unfold mine in H. cbn in H. destruct (a_all r0); exact H.
  - intros rd wr all d2 E2 uid.
    pose proof (step_R d' _ (OpOpen rd true wr all false) I HR1 Hv1) as (d2' & E2' & HR2).
    pose proof (vers_step _ (OpOpen rd true wr all false) Hv1) as Hv2.
    rewrite E2 in E2'. cbn [astep] in *.
    match type of E2' with context [alookup rd ?fs] => destruct (alookup rd fs) eqn:El end; [discriminate|].
    cbn [andb fst snd render a_keep a_gone a_cap a_name a_files] in *. assert (d2' = d2) as -> by congruence.
    match type of HR2 with R _ ?A => set (a2 := A) in * end.
    pose proof (drains_R _ d2 a2 rd (mkAFile wr false (Some (mkAReader [] 0 all 2))) (mkAReader [] 0 all 2) uid (le_n _) HR2 Hv2) as H.
    cbn [a2 a_files] in H. rewrite alookup_app, El in H. cbn [alookup] in H. rewrite Z.eqb_refl in H.
    specialize (H eq_refl eq_refl). unfold mine in H. cbn in H. destruct all; exact H.
Qed.

Lemma open_gets : forall nm mem pow2 ops, init_ok nm mem pow2 -> Forall user_op ops ->
  exists h d, explains h nm mem pow2 ops d /\
  forall fid wr all d', step d (OpOpen fid true wr all false) = Ok (d', OutVal 0) ->
  exists gone kept, m_acc (ledger_of h) = gone ++ kept /\
    (gone = [] \/ 2 ^ pow2 - 12300 < total kept) /\
    forall uid, drains d' fid uid (stream nm 2 (zlen gone)
       (if all then kept else filter (fun e => e_euid e =? u32 uid) kept)).
Proof.
  intros nm mem pow2 ops Hi Hu.
  destruct (history_kept nm mem pow2 ops Hi Hu) as (h & d & a & H1 & HR & Hv & HI & Hn & _ & HK).
  exists h, d. split; [exact H1|]. intros fid wr all d' E.
  pose proof (step_R d a (OpOpen fid true wr all false) I HR Hv) as (d2 & E2 & HR2).
  pose proof (vers_step a (OpOpen fid true wr all false) Hv) as Hv2.
  rewrite E in E2. cbn [astep] in *. destruct (alookup fid (a_files a)) eqn:El; [discriminate|].
  cbn [andb fst snd render] in *. assert (d2 = d') as -> by congruence.
  destruct HI as (_ & (gone & Hacc & Hg) & _). exists gone, (a_keep a). split; [exact Hacc|].
  split. { destruct HK as [HK|HK]; [left|right; exact HK]. apply length_zero_iff_nil. unfold zlen in Hg. lia. }
  intros uid.
  set (r := mkAReader (a_keep a) (a_gone a) all 2) in *.
  match type of HR2 with R _ ?A => set (a2 := A) in * end.
  pose proof (drains_R _ d' a2 fid (mkAFile wr false (Some r)) r uid (le_n _) HR2 Hv2) as H.
  cbn [a2 a_files] in H. rewrite alookup_app, El in H. cbn [alookup] in H. rewrite Z.eqb_refl in H.
  specialize (H eq_refl eq_refl). unfold mine in H. cbn [r a_ver a_lost a_all a_q a2 a_name] in H.
  rewrite Hn in H. rewrite Hg. exact H.
Qed.

(** ** Reports cannot be confused with entries that do not imitate them *)

Lemma enc_meta16 : forall ver e, wf_entry e -> zsub 4 16 (enc ver e) = ztake 16 (e_meta e).
Proof.
  intros ver e [Hm _]. unfold enc, zsub. destruct (ver <? 2).
  - rewrite app_assoc. rewrite zdrop_app_exact by reflexivity. rewrite ztake_app_exact; [reflexivity|].
    rewrite zlen_ztake. lia.
  - rewrite app_assoc. rewrite zdrop_app_exact by reflexivity. rewrite ztake_app_le by lia. reflexivity.
Qed.

Lemma report_ids : forall nm n e, e_pid (report nm n e) = -1 /\ e_tid (report nm n e) = -1.
Proof. intros. split; reflexivity. Qed.

Lemma ids_of_meta16 : forall m1 m2 : list Z, ztake 16 m1 = ztake 16 m2 ->
  zsub 0 4 m1 = zsub 0 4 m2 /\ zsub 4 4 m1 = zsub 4 4 m2.
Proof.
  intros m1 m2 H.
  assert (L : forall o (l : list Z), 0 <= o -> o + 4 <= 16 -> zsub o 4 l = zsub o 4 (ztake 16 l)).
  { intros o l H0 H1. apply zlist_ext.
    - rewrite !zlen_zsub, zlen_ztake. pose proof (zlen_nonneg l). lia.
    - intros i Hi. rewrite !znth_zsub by lia. destruct (i <? 4) eqn:Ei; [|reflexivity].
      rewrite znth_ztake by lia. destruct (Z.ltb_spec (o + i) 16); [reflexivity|lia]. }
  split; rewrite (L _ m1), (L _ m2), H by lia; reflexivity.
Qed.

Lemma report_distinct : forall ver nm n next e, wf_entry e -> wf_entry next -> zlen nm <= 15 ->
  ~ (e_pid e = -1 /\ e_tid e = -1) -> enc ver e <> enc ver (report nm n next).
Proof.
  intros ver nm n next e We Wn Hn Hid H. apply Hid.
  assert (Wr : wf_entry (report nm n next)) by (apply wf_report; assumption).
  pose proof (f_equal (zsub 4 16) H) as H2. rewrite !enc_meta16 in H2 by assumption.
  destruct (ids_of_meta16 _ _ H2) as [A B]. destruct (report_ids nm n next) as [C D].
  unfold e_pid, e_tid in *. rewrite A, B. auto.
Qed.

Lemma enc_layouts : forall e, zlen (e_meta e) = 20 ->
  let v2 := enc 2 e in
  enc 1 e = ztake 2 v2 ++ [0; 0] ++ zsub 4 16 v2 ++ zdrop 24 v2 /\
  zdrop 24 v2 = e_payload e /\ zsub 2 2 v2 = [24; 0] /\ of_le (zsub 20 4 v2) = e_euid e.
Proof.
  intros e Hm v2.
  assert (E : v2 = (le 2 (zlen (e_payload e)) ++ [24; 0]) ++ e_meta e ++ e_payload e).
  { unfold v2, enc. cbn [Z.ltb Z.compare Pos.compare Pos.compare_cont]. rewrite <- !app_assoc. reflexivity. }
  assert (E2 : v2 = ((le 2 (zlen (e_payload e)) ++ [24; 0]) ++ e_meta e) ++ e_payload e).
  { rewrite E, <- !app_assoc. reflexivity. }
  assert (L4 : zlen (le 2 (zlen (e_payload e)) ++ [24; 0]) = 4) by reflexivity.
  assert (P : zdrop 24 v2 = e_payload e).
  { rewrite E2. apply zdrop_app_exact. rewrite zlen_app, L4, Hm. reflexivity. }
  split; [|split; [exact P|split]].
  - rewrite P. unfold zsub. rewrite E at 2. rewrite zdrop_app_exact by (symmetry; exact L4).
    rewrite ztake_app_le by lia.
    replace (ztake 2 v2) with (le 2 (zlen (e_payload e))) by reflexivity. reflexivity.
  - reflexivity.
  - unfold e_euid. unfold zsub at 1. rewrite E, zdrop_app by lia. rewrite L4.
    assert (zdrop 20 (le 2 (zlen (e_payload e)) ++ [24; 0]) = []) as -> by reflexivity. cbn [app].
    change (20 - 4) with 16. rewrite zdrop_app by lia. rewrite Hm.
    unfold zsub. rewrite ztake_app_le; [reflexivity|]. rewrite zlen_zdrop. lia.
Qed.
