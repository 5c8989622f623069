(** Invariants of the abstract device with respect to the ledger of a history. *)
From Coq Require Import ZArith String List Bool Lia ZifyBool ZifyNat.
From Verif Require Import Bytes BytesProofs Ring RingSpec RingProofs RingRefine RingHistory.
Import ListNotations.
Open Scope Z_scope.

(** ** Subsequences *)

Lemma subseq_refl : forall {A} (l : list A), subseq l l.
Proof. induction l; constructor; assumption. Qed.

Lemma subseq_app_r : forall {A} (a b c : list A), subseq a b -> subseq a (b ++ c).
Proof. intros A a b c H. induction H; cbn; constructor; assumption. Qed.

Lemma subseq_app : forall {A} (a b c d : list A), subseq a b -> subseq c d -> subseq (a ++ c) (b ++ d).
Proof.
  intros A a b c d H Hc. induction H; cbn [app].
  - induction l as [|x l IH]; [exact Hc|]. cbn. apply subseq_skip. exact IH.
  - apply subseq_keep. assumption.
  - apply subseq_skip. assumption.
Qed.

(** ** Files *)

Lemma alookup_update : forall xs fid fid' x,
  alookup fid' (aupdate fid x xs) =
  if fid' =? fid then match alookup fid xs with Some _ => Some x | None => None end else alookup fid' xs.
Proof.
  induction xs as [|[i y] xs IH]; intros fid fid' x; cbn.
  - destruct (fid' =? fid); reflexivity.
  - destruct (Z.eqb_spec i fid), (Z.eqb_spec fid' fid); cbn [alookup];
    destruct (Z.eqb_spec i fid'); subst; try lia; try reflexivity.
    + rewrite IH. rewrite Z.eqb_refl. reflexivity.
    + rewrite IH. destruct (Z.eqb_spec fid' fid); [lia|reflexivity].
Qed.

Lemma alookup_in : forall xs fid x, alookup fid xs = Some x -> In fid (map fst xs).
Proof.
  induction xs as [|[i y] xs IH]; intros fid x H; cbn in *; [discriminate|].
  destruct (Z.eqb_spec i fid); [left; assumption|right; eapply IH; eassumption].
Qed.

Lemma alookup_notin : forall xs fid, ~ In fid (map fst xs) -> alookup fid xs = None.
Proof.
  intros xs fid H. destruct (alookup fid xs) eqn:E; [|reflexivity].
  exfalso. apply H. eapply alookup_in; eassumption.
Qed.

Lemma alookup_none : forall xs fid, alookup fid xs = None -> ~ In fid (map fst xs).
Proof.
  induction xs as [|[i y] xs IH]; intros fid H; cbn in *; [tauto|].
  destruct (Z.eqb_spec i fid); [discriminate|]. intros [E|E]; [lia|]. exact (IH fid H E).
Qed.

Lemma alookup_remove : forall xs fid fid', NoDup (map fst xs) ->
  alookup fid' (aremove fid xs) = if fid' =? fid then None else alookup fid' xs.
Proof.
  induction xs as [|[i y] xs IH]; intros fid fid' H; cbn.
  - destruct (fid' =? fid); reflexivity.
  - inversion H; subst. destruct (Z.eqb_spec i fid).
    + subst. destruct (Z.eqb_spec fid' fid).
      * subst. apply alookup_notin. assumption.
      * destruct (Z.eqb_spec fid fid'); [lia|reflexivity].
    + cbn [alookup]. rewrite IH by assumption.
      destruct (Z.eqb_spec i fid'), (Z.eqb_spec fid' fid); try lia; reflexivity.
Qed.

Lemma alookup_app : forall xs ys fid, alookup fid (xs ++ ys) =
  match alookup fid xs with Some x => Some x | None => alookup fid ys end.
Proof.
  induction xs as [|[i y] xs IH]; intros ys fid; cbn; [reflexivity|].
  destruct (i =? fid); [reflexivity|apply IH].
Qed.

Lemma alookup_on_files : forall g xs fid, alookup fid (on_files g xs) = option_map g (alookup fid xs).
Proof.
  intros g xs fid. induction xs as [|[i y] xs IH]; cbn; [reflexivity|].
  destruct (i =? fid); [reflexivity|exact IH].
Qed.

Lemma fst_update : forall xs fid x, map fst (aupdate fid x xs) = map fst xs.
Proof.
  induction xs as [|[i y] xs IH]; intros fid x; cbn; [reflexivity|].
  destruct (i =? fid); cbn; [reflexivity|]. f_equal. apply IH.
Qed.

Lemma fst_on_files : forall g xs, map fst (on_files g xs) = map fst xs.
Proof. intros. unfold on_files. rewrite map_map. reflexivity. Qed.

Lemma remove_nodup : forall xs fid, NoDup (map fst xs) -> NoDup (map fst (aremove fid xs)).
Proof.
  induction xs as [|[i y] xs IH]; intros fid H; cbn; [constructor|].
  inversion H; subst. destruct (i =? fid); [assumption|]. cbn. constructor; [|apply IH; assumption].
  intros Hin. apply H2. clear - Hin. induction xs as [|[j z] xs IH]; cbn in *; [contradiction|].
  destruct (j =? fid); cbn in *; tauto.
Qed.

Lemma NoDup_app_snoc : forall {A} (l : list A) x, NoDup l -> ~ In x l -> NoDup (l ++ [x]).
Proof.
  induction l as [|y l IH]; intros x H Hx; cbn.
  - constructor; [tauto|constructor].
  - inversion H; subst. constructor.
    + intros Hin. apply in_app_or in Hin. cbn in Hin. destruct Hin as [Hin|[Hin|[]]]; [contradiction|].
      subst. apply Hx. left. reflexivity.
    + apply IH; [assumption|]. intros Hin. apply Hx. right. exact Hin.
Qed.

(** ** Queues *)

Lemma drop_oldest_split : forall q need q' n, drop_oldest need q = (q', n) ->
  exists d, q = d ++ q' /\ zlen d = n /\ 0 <= n.
Proof.
  induction q as [|e q IH]; intros need q' n H; cbn in H.
  - injection H as <- <-. exists []. repeat split; lia.
  - destruct (esize e <? need).
    + destruct (drop_oldest (need - esize e) q) as [q1 n1] eqn:E. injection H as <- <-.
      destruct (IH _ _ _ E) as (d & -> & H1 & H2). exists (e :: d).
      rewrite zlen_cons. repeat split; lia.
    + injection H as <- <-. exists [e]. repeat split; lia.
Qed.

Lemma make_room_split : forall cap need q q' n, make_room cap need q = (q', n) ->
  exists d, q = d ++ q' /\ zlen d = n /\ 0 <= n.
Proof.
  intros cap need q q' n H. unfold make_room in H. destruct (total q + need <? cap).
  - injection H as <- <-. exists []. repeat split; lia.
  - eapply drop_oldest_split; eassumption.
Qed.

Lemma skip_others_split : forall q euid, exists d, q = d ++ skip_others euid q.
Proof.
  induction q as [|e q IH]; intros euid; cbn [skip_others]; [exists []; reflexivity|].
  destruct (e_euid e =? u32 euid); [exists []; reflexivity|].
  destruct (IH euid) as (d & H). exists (e :: d). cbn. f_equal. exact H.
Qed.

Lemma skip_others_own : forall q euid e r, skip_others euid q = e :: r -> e_euid e = u32 euid.
Proof.
  induction q as [|x q IH]; intros euid e r H; cbn [skip_others] in H; [discriminate|].
  destruct (Z.eqb_spec (e_euid x) (u32 euid)); [injection H as <- <-; assumption|]. eapply IH; eassumption.
Qed.

Lemma skip_others_idem : forall q euid, skip_others euid (skip_others euid q) = skip_others euid q.
Proof.
  induction q as [|e q IH]; intros euid; cbn [skip_others]; [reflexivity|].
  destruct (e_euid e =? u32 euid) eqn:E; [cbn [skip_others]; rewrite E; reflexivity|apply IH].
Qed.

Lemma visible_all : forall r euid, a_all r = true -> visible r euid = r.
Proof. intros r euid H. unfold visible. rewrite H. reflexivity. Qed.

Lemma visible_idem : forall r euid, visible (visible r euid) euid = visible r euid.
Proof.
  intros r euid. unfold visible. destruct (a_all r) eqn:E; [rewrite E; reflexivity|].
  cbn. rewrite skip_others_idem. reflexivity.
Qed.

(** ** Invariant *)

(** Position of a reader in the accepted history. *)
Definition placed (m : ledger) (fid : Z) (r : areader) : Prop :=
  a_all r = m_all m fid /\ 0 <= a_lost r /\
  exists pre, m_acc m = pre ++ a_q r /\ m_seen m fid + a_lost r <= zlen pre /\
    (a_all r = true -> zlen pre = m_seen m fid + a_lost r) /\ subseq (m_got m fid) pre.

Definition file_inv (m : ledger) (fid : Z) (x : afile) : Prop :=
  a_raw x = m_raw m fid /\ 0 <= m_seen m fid /\
  match a_rd x with None => True | Some r => placed m fid r end.

Definition Inv (m : ledger) (a : adev) : Prop :=
  NoDup (map fst (a_files a)) /\
  (exists pre, m_acc m = pre ++ a_keep a /\ zlen pre = a_gone a) /\
  forall fid x, alookup fid (a_files a) = Some x -> file_inv m fid x.

Lemma placed_visible : forall m fid r euid, placed m fid r -> placed m fid (visible r euid).
Proof.
  intros m fid r euid (H1 & H2 & pre & H3 & H4 & H5 & H6). unfold visible. destruct (a_all r) eqn:E.
  - split; [congruence|]. split; [assumption|]. exists pre. auto.
  - split; [exact H1|]. split; [exact H2|]. cbn [a_q a_lost a_all].
    destruct (skip_others_split (a_q r) euid) as (d & Hd).
    exists (pre ++ d). rewrite <- app_assoc, <- Hd, zlen_app. pose proof (zlen_nonneg d).
    split; [assumption|]. split; [lia|]. split; [discriminate|]. apply subseq_app_r. assumption.
Qed.

Lemma Inv_put : forall m a fid x, Inv m a -> file_inv m fid x ->
  Inv m (mkADev (a_cap a) (a_name a) (a_keep a) (a_gone a) (aupdate fid x (a_files a))).
Proof.
  intros m a fid x (H1 & H2 & H3) Hx. split; [cbn; rewrite fst_update; exact H1|]. split; [exact H2|].
  intros fid' y. cbn [a_files]. rewrite alookup_update. destruct (Z.eqb_spec fid' fid).
  - subst. destruct (alookup fid (a_files a)); intros E; [injection E as <-; exact Hx|discriminate].
  - apply H3.
Qed.

(** What a correct event looks like, given the ledger of the past. *)
Definition delivery_ok (m : ledger) (o : op) (x : aout) : Prop :=
  match o, x with
  | OpReadBody fid euid _ _, AEntry _ e =>
    (m_all m fid = true -> nth_error (m_acc m) (Z.to_nat (m_seen m fid)) = Some e) /\
    subseq (m_got m fid ++ [e]) (m_acc m) /\
    (m_all m fid = false -> e_euid e = u32 euid)
  | OpReadBody fid euid _ _, AReport _ _ n next =>
    0 < n /\ m_seen m fid + n < zlen (m_acc m) /\ In next (m_acc m) /\
    (m_all m fid = true -> nth_error (m_acc m) (Z.to_nat (m_seen m fid + n)) = Some next) /\
    (m_all m fid = false -> e_euid next = u32 euid)
  | _, _ => True
  end.

Lemma set_same : forall {A} (f : Z -> A) k v, set f k v k = v.
Proof. intros. unfold set. rewrite Z.eqb_refl. reflexivity. Qed.

Lemma set_other : forall {A} (f : Z -> A) k v i, i <> k -> set f k v i = f i.
Proof. intros. unfold set. destruct (Z.eqb_spec i k); [contradiction|reflexivity]. Qed.

Lemma nth_error_mid : forall {A} (a : list A) x b i, i = zlen a -> nth_error (a ++ x :: b) (Z.to_nat i) = Some x.
Proof.
  intros A a x b i ->. unfold zlen. rewrite Nat2Z.id, nth_error_app2 by lia.
  rewrite Nat.sub_diag. reflexivity.
Qed.

(** Changing only what the ledger says about one file. *)
Lemma Inv_read : forall m m' a fid f r',
  Inv m a -> alookup fid (a_files a) = Some f ->
  m_acc m' = m_acc m -> m_raw m' = m_raw m -> m_all m' = m_all m ->
  (forall i, i <> fid -> m_seen m' i = m_seen m i /\ m_got m' i = m_got m i) ->
  0 <= m_seen m' fid -> placed m' fid r' ->
  Inv m' (mkADev (a_cap a) (a_name a) (a_keep a) (a_gone a)
            (aupdate fid (mkAFile (a_wr f) (a_raw f) (Some r')) (a_files a))).
Proof.
  intros m m' a fid f r' (H1 & H2 & H3) Hf E1 E2 E3 E4 Hs Hp.
  split; [cbn; rewrite fst_update; exact H1|]. split; [rewrite E1; exact H2|].
  intros fid' y. cbn [a_files]. rewrite alookup_update. destruct (Z.eqb_spec fid' fid).
  - subst. rewrite Hf. intros E; injection E as <-. destruct (H3 _ _ Hf) as (A & B & C).
    split; [cbn; rewrite E2; exact A|]. split; [exact Hs|]. exact Hp.
  - intros E. destruct (H3 _ _ E) as (A & B & C). destruct (E4 fid' n) as [E5 E6].
    split; [rewrite E2; exact A|]. split; [rewrite E5; exact B|].
    destruct (a_rd y) as [r|]; [|exact I]. unfold placed in *.
    rewrite E1, E3, E5, E6. exact C.
Qed.

Lemma aread_inv : forall m a fid f r euid count valid r' x,
  Inv m a -> alookup fid (a_files a) = Some f -> a_rd f = Some r ->
  aread (a_name a) r euid count valid = (r', x) ->
  delivery_ok m (OpReadBody fid euid count valid) x /\
  Inv (record m (OpReadBody fid euid count valid, x))
      (mkADev (a_cap a) (a_name a) (a_keep a) (a_gone a)
              (aupdate fid (mkAFile (a_wr f) (a_raw f) (Some r')) (a_files a))).
Proof.
  intros m a fid f r euid count valid r' x HI Hf Hr E.
  pose proof HI as (H1 & H2 & H3). destruct (H3 _ _ Hf) as (A & B & C). rewrite Hr in C.
  pose proof (placed_visible m fid r euid C) as Hp.
  unfold aread in E. set (r1 := visible r euid) in *.
  assert (Hown : forall e rest, a_q r1 = e :: rest -> m_all m fid = false -> e_euid e = u32 euid).
  { intros e rest Eq Hm. destruct C as (C & _). subst r1. unfold visible in Eq. rewrite C, Hm in Eq. cbn [a_q] in Eq.
    eapply skip_others_own; eassumption. }
  assert (Hkeep : Inv m (mkADev (a_cap a) (a_name a) (a_keep a) (a_gone a)
              (aupdate fid (mkAFile (a_wr f) (a_raw f) (Some r1)) (a_files a)))).
  { apply Inv_put; [exact HI|]. split; [exact A|]. split; [exact B|]. exact Hp. }
  destruct Hp as (P1 & P2 & pre & P3 & P4 & P5 & P6).
  destruct (a_q r1) as [|e rest] eqn:Eq.
  { injection E as <- <-. split; [exact I|]. exact Hkeep. }
  destruct (Z.gtb_spec (a_lost r1) 0) as [Hlost|Hlost].
  - destruct (count <? _). { injection E as <- <-. split; [exact I|]. exact Hkeep. }
    destruct (valid <? _). { injection E as <- <-. split; [exact I|]. exact Hkeep. }
    injection E as <- <-. split.
    + cbn [delivery_ok]. rewrite P3.
      split; [lia|]. split. { rewrite zlen_app, zlen_cons. pose proof (zlen_nonneg rest). lia. }
      split. { apply in_or_app. right. left. reflexivity. }
      split. { intros Ha. apply nth_error_mid. symmetry. apply P5. congruence. }
      intros Ha. eapply Hown; [reflexivity|exact Ha].
    + cbn [record]. eapply Inv_read; try exact HI; try exact Hf; try reflexivity; cbn [m_acc m_raw m_all m_seen m_got].
      * intros i Hi. rewrite set_other by assumption. split; reflexivity.
      * rewrite set_same. lia.
      * split; [exact P1|]. cbn [a_lost a_q a_all]. split; [lia|]. exists pre.
        cbn [m_acc m_raw m_all m_seen m_got]. rewrite set_same.
        split; [exact P3|]. split; [lia|]. split; [|exact P6]. intros Ha. rewrite P5 by assumption. lia.
  - destruct (count <? _). { injection E as <- <-. split; [exact I|]. exact Hkeep. }
    destruct (valid <? _). { injection E as <- <-. split; [exact I|]. exact Hkeep. }
    assert (Hl0 : a_lost r1 = 0) by lia. rewrite Hl0 in *.
    injection E as <- <-. split.
    + cbn [delivery_ok]. rewrite P3.
      split. { intros Ha. apply nth_error_mid. symmetry. rewrite P5 by congruence. lia. }
      split. { replace (pre ++ e :: rest) with ((pre ++ [e]) ++ rest) by (rewrite <- app_assoc; reflexivity).
               apply subseq_app_r. apply subseq_app; [assumption|apply subseq_refl]. }
      intros Ha. eapply Hown; [reflexivity|exact Ha].
    + cbn [record]. eapply Inv_read; try exact HI; try exact Hf; try reflexivity; cbn [m_acc m_raw m_all m_seen m_got].
      * intros i Hi. rewrite !set_other by assumption. split; reflexivity.
      * rewrite set_same. lia.
      * split; [exact P1|]. cbn [a_lost a_q a_all]. split; [lia|]. exists (pre ++ [e]).
        cbn [m_acc m_raw m_all m_seen m_got]. rewrite !set_same, zlen_app, <- app_assoc.
        change (zlen [e]) with 1.
        split; [exact P3|]. split; [lia|].
        split; [|apply subseq_app; [assumption|apply subseq_refl]].
        intros Ha. rewrite P5 by assumption. lia.
Qed.

Lemma placed_make_room : forall m fid r cap need q' n,
  placed m fid r -> make_room cap need (a_q r) = (q', n) ->
  placed m fid (mkAReader q' (a_lost r + n) (a_all r) (a_ver r)).
Proof.
  intros m fid r cap need q' n (H1 & H2 & pre & H3 & H4 & H5 & H6) E.
  destruct (make_room_split _ _ _ _ _ E) as (d & Hd & Hn & Hn0).
  split; [exact H1|]. cbn [a_lost a_q a_all]. split; [lia|].
  exists (pre ++ d). rewrite <- app_assoc, <- Hd, zlen_app.
  split; [exact H3|]. split; [lia|]. split; [|apply subseq_app_r; assumption].
  intros Ha. rewrite H5 by assumption. lia.
Qed.

Lemma Inv_make_room : forall m a need, Inv m a ->
  let (keep, n) := make_room (a_cap a) need (a_keep a) in
  Inv m (mkADev (a_cap a) (a_name a) keep (a_gone a + n) (on_files (amake_room (a_cap a) need) (a_files a))).
Proof.
  intros m a need (H1 & (pre & H2 & H2') & H3).
  destruct (make_room (a_cap a) need (a_keep a)) as [keep n] eqn:E.
  destruct (make_room_split _ _ _ _ _ E) as (d & Hd & Hn & Hn0).
  split; [cbn [a_files]; rewrite fst_on_files; exact H1|].
  split. { exists (pre ++ d). cbn [a_keep a_gone]. rewrite <- app_assoc, <- Hd, zlen_app. split; [exact H2|lia]. }
  intros fid x. cbn [a_files]. rewrite alookup_on_files.
  destruct (alookup fid (a_files a)) as [y|] eqn:Ey; cbn [option_map]; [|discriminate].
  intros Ex; injection Ex as <-. destruct (H3 _ _ Ey) as (A & B & C). unfold amake_room.
  destruct (a_rd y) as [r|] eqn:Er; [|split; [exact A|split; [exact B|rewrite Er; exact I]]].
  destruct (make_room (a_cap a) need (a_q r)) as [q' k] eqn:Ek.
  split; [exact A|]. split; [exact B|]. cbn [a_rd]. eapply placed_make_room; eassumption.
Qed.

Lemma Inv_append : forall m a e, Inv m a ->
  Inv (mkLedger (m_acc m ++ [e]) (m_raw m) (m_all m) (m_seen m) (m_got m))
      (mkADev (a_cap a) (a_name a) (a_keep a ++ [e]) (a_gone a) (on_files (aappend e) (a_files a))).
Proof.
  intros m a e (H1 & (pre & H2 & H2') & H3).
  split; [cbn [a_files]; rewrite fst_on_files; exact H1|].
  split. { exists pre. cbn. rewrite H2, <- app_assoc. split; [reflexivity|exact H2']. }
  intros fid x. cbn [a_files]. rewrite alookup_on_files.
  destruct (alookup fid (a_files a)) as [y|] eqn:Ey; cbn [option_map]; [|discriminate].
  intros Ex; injection Ex as <-. destruct (H3 _ _ Ey) as (A & B & C). unfold aappend.
  destruct (a_rd y) as [r|] eqn:Er; [|split; [exact A|split; [exact B|rewrite Er; exact I]]].
  split; [exact A|]. split; [exact B|]. cbn [a_rd].
  destruct C as (C1 & C2 & p & C3 & C4 & C5 & C6). split; [exact C1|]. split; [exact C2|].
  exists p. cbn [m_acc a_q a_lost a_all m_seen m_got]. rewrite C3, <- app_assoc. auto.
Qed.

Lemma Inv_same_files : forall m a, Inv m a ->
  forall fid x, alookup fid (a_files a) = Some x -> a_raw x = m_raw m fid.
Proof. intros m a (_ & _ & H) fid x E. apply (H _ _ E). Qed.

Lemma astep_inv : forall m a o a' x, Inv m a -> astep a o = (a', x) ->
  delivery_ok m o x /\ Inv (record m (o, x)) a'.
Proof.
  intros m a o a' x HI E. pose proof HI as (H1 & H2 & H3).
  destruct o; cbn [astep] in E.
  - (* open *)
    destruct (alookup fid (a_files a)) eqn:El; [injection E as <- <-; split; [exact I|exact HI]|].
    destruct (rd && nomem); [injection E as <- <-; split; [exact I|exact HI]|].
    injection E as <- <-. split; [exact I|]. cbn [record].
    split. { cbn [a_files]. rewrite map_app. cbn. apply NoDup_app_snoc; [exact H1|]. apply alookup_none. exact El. }
    split; [exact H2|].
    intros fid' y. cbn [a_files]. rewrite alookup_app.
    destruct (alookup fid' (a_files a)) as [z|] eqn:Ez.
    + intros Ey; injection Ey as <-. assert (fid' <> fid) by congruence.
      destruct (H3 _ _ Ez) as (A & B & C). unfold file_inv, placed in *. cbn [m_acc m_raw m_all m_seen m_got].
      rewrite !set_other by assumption. auto.
    + cbn [alookup]. destruct (Z.eqb_spec fid fid'); [|discriminate]. subst fid'.
      intros Ey; injection Ey as <-. split; [cbn; rewrite set_same; reflexivity|].
      cbn [m_acc m_raw m_all m_seen m_got]. rewrite set_same. split; [lia|].
      destruct rd; cbn [a_rd]; [|exact I]. destruct H2 as (pre & H2 & H2').
      split; [cbn; rewrite set_same; reflexivity|]. cbn [a_lost]. pose proof (zlen_nonneg pre). split; [lia|].
      exists pre. cbn [m_acc m_seen m_got a_q a_lost]. rewrite !set_same.
      split; [exact H2|]. split; [lia|]. split; [lia|constructor].
  - (* close *)
    destruct (alookup fid (a_files a)) eqn:El; injection E as <- <-; (split; [exact I|]); [|exact HI].
    split; [cbn; apply remove_nodup; exact H1|]. split; [exact H2|].
    intros fid' y. cbn [a_files record]. rewrite alookup_remove by assumption.
    destruct (fid' =? fid); [discriminate|]. apply H3.
  - (* read check *)
    destruct (alookup fid (a_files a)) as [[w mm [r|]]|]; injection E as <- <-; split; try exact I; exact HI.
  - (* read body *)
    destruct (alookup fid (a_files a)) as [[w mm [r|]]|] eqn:El; try (injection E as <- <-; split; try exact I; exact HI).
    destruct (aread (a_name a) r euid count valid) as [r' x'] eqn:Er. injection E as <- <-.
    apply (aread_inv m a fid (mkAFile w mm (Some r)) r euid count valid r' x' HI El eq_refl Er).
  - (* write *)
    destruct (alookup fid (a_files a)) as [f|] eqn:El; [|injection E as <- <-; split; [exact I|exact HI]].
    destruct (a_wr f); [|injection E as <- <-; split; [exact I|exact HI]].
    unfold awrite in E.
    destruct (a_raw f && _); [injection E as <- <-; split; [exact I|exact HI]|].
    destruct (H3 _ _ El) as (A & _). rewrite A in E.
    set (e := requested (m_raw m fid) t sec nsec it) in *.
    destruct (zlen (e_payload e) =? 0) eqn:Ez.
    { injection E as <- <-. split; [exact I|]. cbn [record]. fold e. rewrite Ez. exact HI. }
    pose proof (Inv_make_room m a (esize e) HI) as Hm.
    destruct (make_room (a_cap a) (esize e) (a_keep a)) as [keep n].
    destruct (iter_fault it _).
    + injection E as <- <-. split; [exact I|]. exact Hm.
    + injection E as <- <-. split; [exact I|]. cbn [record]. fold e. rewrite Ez.
      apply (Inv_append m _ e Hm).
  - (* poll *)
    destruct (alookup fid (a_files a)) as [[w mm [r|]]|] eqn:El; injection E as <- <-; split; try exact I; try exact HI.
    cbn [record]. apply Inv_put; [exact HI|]. destruct (H3 _ _ El) as (A & B & C).
    split; [exact A|]. split; [exact B|]. apply placed_visible. exact C.
  - (* ioctl *)
    destruct (alookup fid (a_files a)) as [f|] eqn:El.
    2:{ injection E as <- <-. split; [exact I|]. destruct c; try exact HI. destruct arg; exact HI. }
    destruct (H3 _ _ El) as (A & B & C).
    destruct c; cbn [aioctl] in E.
    + injection E as <- <-. split; [exact I|exact HI].
    + destruct (a_rd f); injection E as <- <-; split; try exact I; exact HI.
    + destruct (a_rd f) as [r|] eqn:Er; injection E as <- <-; split; try exact I; try exact HI.
      cbn [record]. apply Inv_put; [exact HI|]. split; [exact A|]. split; [exact B|]. apply placed_visible. exact C.
    + destruct (a_wr f).
      2:{ destruct (a_rd f); injection E as <- <-; split; try exact I; exact HI. }
      assert (E' : a' = mkADev (a_cap a) (a_name a) [] 0 (on_files aflush (a_files a)) /\ x = AVal 0).
      { destruct (a_rd f); injection E as <- <-; split; reflexivity. }
      destruct E' as [-> ->]. split; [exact I|]. cbn [record].
      split; [cbn [a_files]; rewrite fst_on_files; exact H1|].
      split; [exists []; split; reflexivity|].
      intros fid' x. cbn [a_files]. rewrite alookup_on_files.
      destruct (alookup fid' (a_files a)) as [y|] eqn:Ey; cbn [option_map]; [|discriminate].
      intros Ex; injection Ex as <-. destruct (H3 _ _ Ey) as (A' & B' & C'). unfold aflush.
      destruct (a_rd y) as [r|] eqn:Er; [|split; [exact A'|split; [cbn; lia|rewrite Er; exact I]]].
      split; [exact A'|]. split; [cbn; lia|]. cbn [a_rd]. destruct C' as (C1 & _).
      split; [exact C1|]. split; [cbn; lia|]. exists [].
      cbn [m_acc m_seen m_got a_q a_lost a_all app]. change (zlen (@nil entry)) with 0.
      split; [reflexivity|]. split; [lia|]. split; [lia|constructor].
    + destruct (a_rd f); injection E as <- <-; split; try exact I; exact HI.
    + destruct arg as [v|]; [|destruct (a_rd f); injection E as <- <-; split; try exact I; exact HI].
      destruct (a_rd f) as [r|] eqn:Er; [|injection E as <- <-; split; try exact I; exact HI].
      destruct (_ || _); injection E as <- <-; split; try exact I; try exact HI.
      cbn [record]. apply Inv_put; [exact HI|]. split; [exact A|]. split; [exact B|]. exact C.
    + assert (E' : (a' = a /\ exists e, x = AErr e) \/ (exists v, arg = Some v /\ x = AVal 0 /\
         a' = mkADev (a_cap a) (a_name a) (a_keep a) (a_gone a) (aupdate fid (mkAFile (a_wr f) (v =? 1) (a_rd f)) (a_files a)))).
      { destruct (a_wr f); cbn [negb] in E.
        2:{ left. destruct (a_rd f); injection E as <- <-; eauto. }
        destruct (strict && negb capable). { left. destruct (a_rd f); injection E as <- <-; eauto. }
        destruct arg as [v|]. 2:{ left. destruct (a_rd f); injection E as <- <-; eauto. }
        destruct ((v =? 0) || (v =? 1)).
        - right. exists v. destruct (a_rd f); injection E as <- <-; auto.
        - left. destruct (a_rd f); injection E as <- <-; eauto. }
      destruct E' as [[-> (e & ->)]|(v & -> & -> & ->)].
      * split; [exact I|]. cbn [record]. destruct arg; exact HI.
      * split; [exact I|]. cbn [record].
        split; [cbn; rewrite fst_update; exact H1|]. split; [exact H2|].
        intros fid' y. cbn [a_files]. rewrite alookup_update. destruct (Z.eqb_spec fid' fid).
        -- subst. rewrite El. intros Ey; injection Ey as <-. split; [cbn; rewrite set_same; reflexivity|].
           split; [exact B|]. exact C.
        -- intros Ey. destruct (H3 _ _ Ey) as (A' & B' & C'). split; [cbn; rewrite set_other by assumption; exact A'|].
           split; [exact B'|]. exact C'.
    + destruct (a_rd f); injection E as <- <-; split; try exact I; exact HI.
Qed.
