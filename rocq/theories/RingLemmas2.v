(** Lemmas behind the theorems of PropsRing.v (continued). *)
From Coq Require Import ZArith String List Bool Lia ZifyBool ZifyNat.
From Verif Require Import Bytes BytesProofs Ring RingSpec RingProofs RingRefine RingHistory RingInv RingObs RingLemmas.
Import ListNotations.
Open Scope Z_scope.

(** ** Where entries come from (C07, C08) *)

Lemma ledger_snoc : forall h ev, ledger_of (h ++ [ev]) = record (ledger_of h) ev.
Proof. intros. unfold ledger_of. rewrite fold_left_app. reflexivity. Qed.

Definition is_write (ev : op * aout) : bool :=
  match ev with (OpWrite _ _ _ _ _, AVal _) => true | _ => false end.

Lemma acc_cases : forall m ev, m_acc (record m ev) = m_acc m \/ m_acc (record m ev) = [] \/
  exists fid t sec nsec it v, ev = (OpWrite fid t sec nsec it, AVal v) /\
    m_acc (record m ev) = m_acc m ++ [requested (m_raw m fid) t sec nsec it].
Proof.
  intros m [o x]. destruct o; destruct x; cbn [record]; auto; try (destruct c; auto; destruct arg; auto; fail).
  destruct (zlen _ =? 0); [auto|]. right; right. cbn [m_acc]. do 6 eexists. split; reflexivity.
Qed.

Lemma made_by_app : forall h h2 e, made_by h e -> made_by (h ++ h2) e.
Proof.
  intros h h2 e (pre & fid & t & sec & nsec & it & v & post & -> & ->).
  exists pre, fid, t, sec, nsec, it, v, (post ++ h2). split; [|reflexivity].
  rewrite <- app_assoc. reflexivity.
Qed.

Lemma acc_made_by : forall h e, In e (m_acc (ledger_of h)) -> made_by h e.
Proof.
  induction h as [|ev h IH] using rev_ind; intros e H; [destruct H|].
  rewrite ledger_snoc in H.
  destruct (acc_cases (ledger_of h) ev) as [E|[E|(fid & t & sec & nsec & it & v & -> & E)]]; rewrite E in H.
  - apply made_by_app. auto.
  - destruct H.
  - apply in_app_or in H. destruct H as [H|[<-|[]]].
    + apply made_by_app. auto.
    + exists h, fid, t, sec, nsec, it, v, []. auto.
Qed.

(** After a flush only later writes count. *)
Definition made_after (h0 h : history) (e : entry) : Prop :=
  exists pre fid t sec nsec it v post,
    h = pre ++ (OpWrite fid t sec nsec it, AVal v) :: post /\
    e = requested (m_raw (ledger_of (h0 ++ pre)) fid) t sec nsec it.

Lemma made_after_app : forall h0 h h2 e, made_after h0 h e -> made_after h0 (h ++ h2) e.
Proof.
  intros h0 h h2 e (pre & fid & t & sec & nsec & it & v & post & -> & ->).
  exists pre, fid, t, sec, nsec, it, v, (post ++ h2). split; [|reflexivity].
  rewrite <- app_assoc. reflexivity.
Qed.

Lemma flush_record : forall m fid euid v, m_acc (record m (OpIoctl fid FlushLog euid, AVal v)) = [].
Proof. reflexivity. Qed.

Lemma writes_snoc : forall h ev, writes (h ++ [ev]) = writes h + (if is_write ev then 1 else 0).
Proof.
  intros h ev. unfold writes. rewrite filter_app, zlen_app. f_equal. cbn [filter].
  change (match ev with (OpWrite _ _ _ _ _, AVal _) => true | _ => false end) with (is_write ev).
  destruct (is_write ev); reflexivity.
Qed.

Lemma acc_after_flush : forall h h0, m_acc (ledger_of h0) = [] ->
  (forall e, In e (m_acc (ledger_of (h0 ++ h))) -> made_after h0 h e) /\
  zlen (m_acc (ledger_of (h0 ++ h))) <= writes h.
Proof.
  induction h as [|ev h IH] using rev_ind; intros h0 H0.
  - rewrite app_nil_r, H0. split; [intros e []|]. change (writes []) with 0. change (zlen (@nil entry)) with 0. lia.
  - destruct (IH h0 H0) as [I1 I2]. rewrite app_assoc, ledger_snoc, writes_snoc.
    assert (0 <= writes h) by apply zlen_nonneg.
    destruct (acc_cases (ledger_of (h0 ++ h)) ev) as [E|[E|(fid & t & sec & nsec & it & v & -> & E)]]; rewrite E.
    + split; [intros e He; apply made_after_app; auto|]. destruct (is_write ev); lia.
    + split; [intros e []|]. change (zlen (@nil entry)) with 0. destruct (is_write ev); lia.
    + split.
      * intros e He. apply in_app_or in He. destruct He as [He|[<-|[]]]; [apply made_after_app; auto|].
        exists h, fid, t, sec, nsec, it, v, []. auto.
      * rewrite zlen_app. change (zlen [_]) with 1. cbn [is_write]. lia.
Qed.

Lemma subseq_in : forall {A} (a b : list A) x, subseq a b -> In x a -> In x b.
Proof.
  intros A a b x H. induction H; intros Hin; [destruct Hin| |right; auto].
  destruct Hin as [->|Hin]; [left; reflexivity|right; auto].
Qed.

Lemma delivered_in_acc : forall m nm fid euid count valid ver e,
  good_event m nm (OpReadBody fid euid count valid) (AEntry ver e) -> In e (m_acc m).
Proof.
  intros m nm fid euid count valid ver e ((_ & H & _) & _). eapply subseq_in; [exact H|].
  apply in_or_app. right. left. reflexivity.
Qed.

Lemma seen_nonneg : forall h nm, always (fun m o x => good_event m nm o x) h ->
  forall fid, 0 <= m_seen (ledger_of h) fid.
Proof.
  induction h as [|[o x] h IH] using rev_ind; intros nm H fid; [cbn; lia|].
  assert (Ha : always (fun m o x => good_event m nm o x) h).
  { intros pre o' x' post E. apply (H pre o' x' (post ++ [(o, x)])). rewrite E, <- app_assoc. reflexivity. }
  pose proof (IH nm Ha fid) as I1. pose proof (H h o x [] eq_refl) as HG. rewrite ledger_snoc.
  destruct o; destruct x; cbn [record m_seen]; try exact I1; try (destruct c; cbn [m_seen]; try destruct arg; cbn [m_seen]; lia).
  - unfold set. destruct (fid =? fid0); [lia|exact I1].
  - unfold set. destruct (Z.eqb_spec fid fid0); [subst; lia|exact I1].
  - destruct HG as ((HG & _) & _). unfold set. destruct (Z.eqb_spec fid fid0); [subst; lia|exact I1].
  - destruct (zlen _ =? 0); cbn [m_seen]; exact I1.
Qed.

(** ** Non-blocking reads and poll (C05, C09) *)

Lemma lookup_R_reader : forall d a fid, R d a -> is_reader d fid ->
  exists w m r, alookup fid (a_files a) = Some (mkAFile w m (Some r)).
Proof.
  intros d a fid HR (r & Hr). destruct (R_reader_of d a fid r HR Hr) as ([w m rd] & ar & H1 & H2 & _).
  cbn in H2. subst rd. eauto.
Qed.

Lemma read_nb_R : forall d a fid euid count valid w m r k, R d a -> vers_ok a ->
  alookup fid (a_files a) = Some (mkAFile w m (Some r)) ->
  exists d' x, ulogger_read_nb (S (S k)) d fid euid count valid = Ok (d', x) /\
    (x = OutErr EAGAIN <-> a_q (visible r euid) = []) /\
    (a_q (visible r euid) <> [] -> x = render (snd (aread (a_name a) r euid count valid))).
Proof.
  intros d a fid euid count valid w m r k HR Hv El.
  cbn [ulogger_read_nb].
  pose proof (step_R d a (OpReadCheck fid true false) I HR Hv) as (d1 & E1 & HR1).
  cbn [astep] in *. rewrite El in *. cbn [fst snd] in *. rewrite E1. cbn [bind].
  destruct (a_q r) as [|e0 q0] eqn:Eq.
  { cbn [render]. exists d1, (OutErr EAGAIN). split; [reflexivity|].
    assert (a_q (visible r euid) = []) as Hq.
    { unfold visible. destruct (a_all r); [exact Eq|]. cbn. rewrite Eq. reflexivity. }
    split; [split; auto|]. intros; contradiction. }
  cbn [render].
  pose proof (step_R d1 a (OpReadBody fid euid count valid) I HR1 Hv) as (d2 & E2 & HR2).
  pose proof (vers_step a (OpReadBody fid euid count valid) Hv) as Hv2.
  cbn [astep] in *. rewrite El in *.
  destruct (aread (a_name a) r euid count valid) as [r' x] eqn:Er. cbn [fst snd] in *.
  rewrite E2. cbn [bind]. unfold aread in Er.
  destruct (a_q (visible r euid)) as [|e q] eqn:Ev.
  { injection Er as <- <-. cbn [render].
    pose proof (step_R d2 _ (OpReadCheck fid true false) I HR2 Hv2) as (d3 & E3 & HR3).
    cbn [astep a_files] in *. rewrite (alookup_update_id _ _ _ _ El) in *. rewrite Ev in *. cbn [fst snd render] in *.
    rewrite E3. cbn [bind]. exists d3, (OutErr EAGAIN). split; [reflexivity|]. split; [split; auto|]. intros; contradiction. }
  exists d2, (render x).
  assert (Hx : render x <> OutRetry /\ render x <> OutErr EAGAIN).
  { destruct (a_lost (visible r euid) >? 0);
    repeat match type of Er with context [if ?b then _ else _] => destruct b end;
    injection Er as <- <-; cbn; split; discriminate. }
  destruct Hx as [Hx1 Hx2]. split.
  { destruct (render x); try reflexivity. contradiction. }
  split; [|reflexivity]. split; [contradiction|discriminate].
Qed.

Lemma poll_exact : forall d fid euid d1 b, reachable d -> is_reader d fid ->
  step d (OpPoll fid euid) = Ok (d1, OutPoll b) ->
  forall k count valid, exists d2 x,
    ulogger_read_nb (S (S k)) d1 fid euid count valid = Ok (d2, x) /\ (b = true <-> x <> OutErr EAGAIN).
Proof.
  intros d fid euid d1 b Hr Hrd E k count valid.
  destruct (reach_step d (OpPoll fid euid) d1 _ Hr I E) as (a & HR & Hv & HR1 & Hv1 & Hx).
  destruct (lookup_R_reader d a fid HR Hrd) as (w & m & r & El). cbn [astep] in *. rewrite El in *.
  cbn [fst snd render] in *. injection Hx as ->.
  destruct (read_nb_R d1 _ fid euid count valid w m (visible r euid) k HR1 Hv1) as (d2 & x & E2 & H2 & _).
  { cbn [a_files]. eapply alookup_update_id. exact El. }
  exists d2, x. split; [exact E2|]. rewrite visible_idem in H2. destruct (a_q (visible r euid)).
  - split; [discriminate|]. intros H. exfalso. apply H. apply H2. reflexivity.
  - split; [|reflexivity]. intros _ H. apply H2 in H. discriminate.
Qed.

Lemma read_nb_terminates : forall d fid euid count valid k, reachable d ->
  exists d' x, ulogger_read_nb (S (S k)) d fid euid count valid = Ok (d', x).
Proof.
  intros d fid euid count valid k Hr. destruct (reachable_R d Hr) as (a & m & HR & Hv & _).
  destruct (alookup fid (a_files a)) as [[w mm [r|]]|] eqn:El.
  - destruct (read_nb_R d a fid euid count valid w mm r k HR Hv El) as (d' & x & E & _). eauto.
  - pose proof (step_R d a (OpReadCheck fid true false) I HR Hv) as (d1 & E1 & HR1).
    cbn [astep] in *. rewrite El in *. cbn [ulogger_read_nb]. rewrite E1. cbn. eauto.
  - pose proof (step_R d a (OpReadCheck fid true false) I HR Hv) as (d1 & E1 & HR1).
    cbn [astep] in *. rewrite El in *. cbn [ulogger_read_nb]. rewrite E1. cbn. eauto.
Qed.

(** ** Length queries (C10, C11) *)

Lemma zlen_enc : forall ver e, wf_entry e -> zlen (enc ver e) = enc_len ver e.
Proof.
  intros ver e [H _]. unfold enc, enc_len. destruct (ver <? 2).
  - rewrite !zlen_app, zlen_le, zlen_ztake, H. change (zlen [0;0]) with 2. lia.
  - rewrite !zlen_app, !zlen_le, H. lia.
Qed.

Lemma zlen_report : forall nm n e, zlen nm <= 15 -> zlen (e_payload (report nm n e)) <= 64.
Proof.
  intros nm n e H. unfold report. cbn [e_payload]. rewrite !zlen_app.
  pose proof (zlen_dec_d (s32 n)).
  change (zlen [0]) with 1. change (zlen [4; 0; 0; 0]) with 4. change (zlen [10; 0]) with 2.
  change (zlen (bytes_of_string " log entries dropped")) with 20. lia.
Qed.

Lemma next_len : forall d fid euid d1 x, reachable d -> is_reader d fid ->
  step d (OpIoctl fid GetNextEntryLen euid) = Ok (d1, x) ->
  exists n, x = OutVal n /\ 0 <= n /\
   forall count valid d2 y, step d1 (OpReadBody fid euid count valid) = Ok (d2, y) ->
     (n = 0 <-> y = OutRetry) /\
     (n <> 0 -> ~ report_due d fid ->
        (count < n -> y = OutErr EINVAL) /\
        (n <= count -> n <= valid -> exists bs, y = OutData bs /\ zlen bs = n)) /\
     (n <> 0 -> Z.max n 128 <= count -> Z.max n 128 <= valid -> exists bs, y = OutData bs /\ zlen bs <= Z.max n 128).
Proof.
  intros d fid euid d1 x Hr Hrd E.
  destruct (reach_step d (OpIoctl fid GetNextEntryLen euid) d1 _ Hr I E) as (a & HR & Hv & HR1 & Hv1 & Hx).
  destruct (lookup_R_reader d a fid HR Hrd) as (w & m & r & El).
  pose proof (R_reader_wf d a fid _ r HR El eq_refl) as Hwf. pose proof (visible_wf r euid Hwf) as Hwf'.
  pose proof HR as ((_ & _ & _ & Hnm) & _ & Enm & _). rewrite Enm in Hnm.
  cbn [astep] in *. rewrite El in *. cbn [aioctl a_rd fst snd render a_wr a_raw] in *.
  exists (match a_q (visible r euid) with [] => 0 | e :: _ => enc_len (a_ver (visible r euid)) e end).
  split; [exact Hx|]. split. { destruct (a_q (visible r euid)); [lia|apply a_total_nonneg]. }
  intros count valid d2 y E2.
  pose proof (step_R d1 _ (OpReadBody fid euid count valid) I HR1 Hv1) as (d2' & E2' & HR2).
  rewrite E2 in E2'. cbn [astep a_files a_name] in *. rewrite (alookup_update_id _ _ _ _ El) in *.
  unfold aread in E2'. rewrite visible_idem in E2'. pose proof (visible_ver r euid) as (V1 & V2 & V3).
  assert (Hrep : ~ report_due d fid -> a_lost r = 0).
  { intros H. destruct (R_reader_back d a fid _ r HR El eq_refl) as (rr & Hrr & (_ & Hd & _ & _ & _)).
    destruct (Z.eq_dec (a_lost r) 0); [assumption|]. exfalso. apply H. exists rr. split; [exact Hrr|lia]. }
  assert (Hlost : 0 <= a_lost r).
  { destruct (R_reader_back d a fid _ r HR El eq_refl) as (rr & Hrr & (_ & _ & Hd & _ & _)). exact Hd. }
  destruct (a_q (visible r euid)) as [|e rest] eqn:Eq.
  { assert (y = OutRetry) by (cbn in E2'; congruence). repeat split; auto; intros; try (exfalso; lia). }
  inversion Hwf' as [|? ? We Wr]; subst.
  assert (20 <= enc_len (a_ver (visible r euid)) e).
  { rewrite enc_len_eq. pose proof (hdr_len_pos (a_ver (visible r euid))). pose proof (zlen_nonneg (e_payload e)). lia. }
  rewrite V2 in *.
  set (n := enc_len (a_ver (visible r euid)) e) in *.
  destruct (Z.gtb_spec (a_lost r) 0) as [Hl|Hl].
  - set (k := enc_len (a_ver (visible r euid)) (report (a_name a) (a_lost r) e)) in *.
    assert (k <= 128).
    { unfold k. rewrite enc_len_eq. pose proof (hdr_len_pos (a_ver (visible r euid))).
      pose proof (zlen_report (a_name a) (a_lost r) e Hnm). lia. }
    assert (Hk : zlen (enc (a_ver (visible r euid)) (report (a_name a) (a_lost r) e)) = k).
    { apply zlen_enc. apply wf_report; assumption. }
    split; [|split].
    + split; [intros; lia|]. intros ->. exfalso.
      destruct (count <? k); [discriminate E2'|]. destruct (valid <? k); discriminate E2'.
    + intros _ H'. specialize (Hrep H'). lia.
    + intros _ Hc Hva. destruct (Z.ltb_spec count k); [lia|]. destruct (Z.ltb_spec valid k); [lia|].
      cbn [snd render] in E2'. exists (enc (a_ver (visible r euid)) (report (a_name a) (a_lost r) e)). split; [congruence|]. lia.
  - assert (Hk : zlen (enc (a_ver (visible r euid)) e) = n) by (apply zlen_enc; assumption).
    split; [|split].
    + split; [intros; lia|]. intros ->. exfalso.
      destruct (count <? n); [discriminate E2'|]. destruct (valid <? n); discriminate E2'.
    + intros _ _. split; intros.
      * destruct (Z.ltb_spec count n); [cbn in E2'; congruence|lia].
      * destruct (Z.ltb_spec count n); [lia|]. destruct (Z.ltb_spec valid n); [lia|].
        cbn [snd render] in E2'. exists (enc (a_ver (visible r euid)) e). split; [congruence|exact Hk].
    + intros _ Hc Hva. destruct (Z.ltb_spec count n); [lia|]. destruct (Z.ltb_spec valid n); [lia|].
      cbn [snd render] in E2'. exists (enc (a_ver (visible r euid)) e). split; [congruence|]. lia.
Qed.

Lemma log_len : forall d fid euid d' x, reachable d -> unrestricted d fid ->
  step d (OpIoctl fid GetLogLen euid) = Ok (d', x) ->
  exists n q, owes d fid n q /\ x = OutVal (total q) /\ total q < size (d_log d) /\
    (total q = 0 <-> q = []) /\ d' = d.
Proof.
  intros d fid euid d' x Hr Hun E.
  destruct (reach_step d (OpIoctl fid GetLogLen euid) d' _ Hr I E) as (a & HR & Hv & HR1 & Hv1 & Hx).
  destruct (unrestricted_R d a fid HR Hun) as (f & r & El & Er & Ha).
  exists (a_lost r), (a_q r). split; [eapply owes_R; eassumption|].
  cbn [astep] in *. rewrite El in *. cbn [aioctl] in *. rewrite Er in *. cbn [fst snd render] in *.
  split; [exact Hx|]. destruct (R_reader_back d a fid f r HR El Er) as (rr & Hrr & ((_ & Ht & _) & _)).
  split; [lia|]. split.
  { destruct (a_q r) as [|e q]; [split; reflexivity|]. rewrite total_cons.
    pose proof (esize_pos e). pose proof (total_nonneg q). split; [lia|discriminate]. }
  unfold reader_of in Hrr. unfold step in E. destruct (lookup fid (d_files d)) as [g|] eqn:Eg; [|discriminate].
  cbn [ulogger_ioctl] in E. rewrite Hrr in E. cbn [bind] in E. rewrite update_same in E by exact Eg.
  destruct d as [l fs]; cbn [d_log d_files] in E; congruence.
Qed.
