(** Refinement proof, second part: simulation between [Ring.step] and [RingSpec.astep]. *)
From Coq Require Import ZArith String List Bool Lia ZifyBool ZifyNat.
From Verif Require Import Bytes BytesProofs Ring RingSpec RingProofs.
Import ListNotations.
Open Scope Z_scope.

Definition wf_entry (e : entry) : Prop := zlen (e_meta e) = 20 /\ zlen (e_payload e) <= 4076.

Definition hdr_of (e : entry) : list Z := le 2 (zlen (e_payload e)) ++ le 2 24 ++ e_meta e.

Definition encs (q : list entry) : list Z := List.concat (map (enc 2) q).

(** At offset [off] the ring holds exactly the entries [q], up to the write offset. *)
Definition repr (l : log) (off : Z) (q : list entry) : Prop :=
  0 <= off < size l /\ total q < size l /\ w_off l = wrap (size l) (off + total q) /\
  ring (size l) (buffer l) off (total q) = encs q /\ Forall wf_entry q.

Lemma esize_pos : forall e, 24 <= esize e.
Proof. intros. unfold esize. pose proof (zlen_nonneg (e_payload e)). lia. Qed.

Lemma total_nonneg : forall q, 0 <= total q.
Proof. induction q as [|e q IH]; cbn [total fold_right]; [lia|]. fold (total q). pose proof (esize_pos e). lia. Qed.

Lemma total_cons : forall e q, total (e :: q) = esize e + total q.
Proof. reflexivity. Qed.

Lemma total_app : forall a b, total (a ++ b) = total a + total b.
Proof. induction a as [|e a IH]; intros b; [reflexivity|]. cbn [app]. rewrite !total_cons, IH. lia. Qed.

Lemma enc2_eq : forall e, enc 2 e = hdr_of e ++ e_payload e.
Proof. intros. unfold enc, hdr_of. cbn [Z.ltb Z.compare Pos.compare Pos.compare_cont]. rewrite <- !app_assoc. reflexivity. Qed.

Lemma hdr_of_len : forall e, wf_entry e -> zlen (hdr_of e) = 24.
Proof. intros e [H _]. unfold hdr_of. rewrite !zlen_app, !zlen_le. lia. Qed.

Lemma enc2_len : forall e, wf_entry e -> zlen (enc 2 e) = esize e.
Proof. intros e H. rewrite enc2_eq, zlen_app, hdr_of_len by assumption. reflexivity. Qed.

Lemma encs_cons : forall e q, encs (e :: q) = enc 2 e ++ encs q.
Proof. reflexivity. Qed.

Lemma encs_app : forall a b, encs (a ++ b) = encs a ++ encs b.
Proof. intros. unfold encs. rewrite map_app, concat_app. reflexivity. Qed.

Lemma esize_max : forall e, wf_entry e -> esize e <= 4100.
Proof. intros e [_ H]. unfold esize. lia. Qed.

Lemma app_inj_len : forall (a b c d : list Z), a ++ b = c ++ d -> zlen a = zlen c -> a = c /\ b = d.
Proof.
  induction a as [|x a IH]; intros b c d H HL; destruct c as [|y c].
  - split; [reflexivity|exact H].
  - rewrite zlen_cons, zlen_nil in HL. pose proof (zlen_nonneg c). lia.
  - rewrite zlen_cons, zlen_nil in HL. pose proof (zlen_nonneg a). lia.
  - cbn [app] in H. injection H as -> H. rewrite !zlen_cons in HL.
    destruct (IH b c d H) as [-> ->]; [lia|]. split; reflexivity.
Qed.

Lemma repr_empty_iff : forall l off q, repr l off q -> (w_off l = off <-> q = []).
Proof.
  intros l off q (H1 & H2 & H3 & _). split.
  - intros E. destruct q as [|e r]; [reflexivity|]. exfalso.
    rewrite total_cons in *. pose proof (esize_pos e). pose proof (total_nonneg r).
    rewrite H3 in E. revert E. unfold wrap. zcases; lia.
  - intros ->. cbn [total fold_right] in H3. rewrite H3. unfold wrap. zcases; lia.
Qed.

Lemma repr_eqb : forall l off q, repr l off q ->
  (w_off l =? off) = match q with [] => true | _ => false end.
Proof.
  intros l off q H. pose proof (repr_empty_iff l off q H) as E.
  destruct (Z.eqb_spec (w_off l) off); destruct q; try reflexivity.
  - destruct E as [E _]. specialize (E e). congruence.
  - destruct E as [_ E]. exfalso. apply n. apply E. reflexivity.
Qed.

Lemma repr_cons : forall l off e r, repr l off (e :: r) ->
  wf_entry e /\ esize e < size l /\
  ring (size l) (buffer l) off (esize e) = enc 2 e /\
  repr l (wrap (size l) (off + esize e)) r.
Proof.
  intros l off e r (H1 & H2 & H3 & H4 & H5). inversion H5; subst.
  pose proof (esize_pos e). pose proof (total_nonneg r).
  rewrite total_cons in *.
  assert (Hw : 0 <= wrap (size l) (off + esize e) < size l) by (unfold wrap; zcases; lia).
  rewrite ring_split in H4 by lia. rewrite encs_cons in H4.
  apply app_inj_len in H4; [|rewrite zlen_ring, enc2_len by assumption; lia].
  destruct H4 as [H4 H4']. repeat split; try assumption; try lia; try apply H6.
  rewrite H3. unfold wrap. zcases; lia.
Qed.

Lemma repr_header : forall l off e r, log_ok l -> repr l off (e :: r) ->
  get_entry_header l off = Ok (hdr_of e) /\
  ring (size l) (buffer l) (wrap (size l) (off + 24)) (zlen (e_payload e)) = e_payload e.
Proof.
  intros l off e r (Hp & Hb & Hw & _) H.
  pose proof (pow2_size_bounds _ Hp).
  pose proof H as (Ho & _).
  apply repr_cons in H. destruct H as (Hwf & Hs & Hr & _).
  assert (Hsplit : ring (size l) (buffer l) off 24 = hdr_of e /\
     ring (size l) (buffer l) (wrap (size l) (off + 24)) (zlen (e_payload e)) = e_payload e).
  { unfold esize in *. pose proof (zlen_nonneg (e_payload e)).
    rewrite ring_split in Hr by lia. rewrite enc2_eq in Hr.
    apply app_inj_len in Hr; [assumption|].
    rewrite zlen_ring, hdr_of_len by assumption. reflexivity. }
  destruct Hsplit as [E1 E2]. split; [|assumption].
  unfold get_entry_header, HDR.
  pose proof (ring_read2 (size l) (buffer l) off 24 Hb ltac:(lia) ltac:(lia)) as R. cbn zeta in R.
  destruct (Z.eqb_spec (Z.min 24 (size l - off)) 24) as [Hx|Hx]; cbn [negb].
  - rewrite mem_read_ok by lia. rewrite (ring_read1 (size l)) by lia. rewrite E1. reflexivity.
  - rewrite !mem_read_ok by lia. cbn [bind]. rewrite R, E1. reflexivity.
Qed.

Lemma h_len_hdr : forall e, wf_entry e -> h_len (hdr_of e) = zlen (e_payload e).
Proof.
  intros e [H1 H2]. unfold h_len, hdr_of, zsub. rewrite zdrop_0.
  rewrite ztake_app_exact by (rewrite zlen_le; reflexivity).
  rewrite of_le_le. apply Z.mod_small. pose proof (zlen_nonneg (e_payload e)).
  change (256 ^ Z.of_nat 2) with 65536. lia.
Qed.

Lemma h_euid_hdr : forall e, wf_entry e -> h_euid (hdr_of e) = e_euid e.
Proof.
  intros e [H1 H2]. unfold h_euid, hdr_of, e_euid, zsub.
  rewrite app_assoc. rewrite zdrop_app by lia.
  rewrite zdrop_all by (rewrite zlen_app, !zlen_le; lia).
  rewrite zlen_app, !zlen_le. reflexivity.
Qed.

Lemma user_header_hdr : forall ver e, wf_entry e ->
  user_header ver (hdr_of e) ++ e_payload e = enc ver e.
Proof.
  intros ver e [H1 H2]. unfold user_header, enc. destruct (ver <? 2).
  - unfold hdr_of, zsub. rewrite zdrop_0.
    rewrite ztake_app_exact by (rewrite zlen_le; reflexivity).
    rewrite (app_assoc (le 2 _) (le 2 24)). rewrite zdrop_app_exact by (rewrite zlen_app, !zlen_le; reflexivity).
    rewrite <- !app_assoc. reflexivity.
  - unfold hdr_of. rewrite <- !app_assoc. reflexivity.
Qed.

Lemma user_header_len : forall ver h, zlen h = 24 -> zlen (user_header ver h) = get_user_hdr_len ver.
Proof.
  intros ver h H. unfold user_header, get_user_hdr_len, HDR, HDR_V1. destruct (ver <? 2); [|assumption].
  rewrite !zlen_app, !zlen_zsub, H. reflexivity.
Qed.

(** ** Scans *)

Lemma get_next_entry_repr : forall q fuel l off len count entries,
  log_ok l -> repr l off q -> len - count <= total q -> 0 < len - count -> len - count <= Z.of_nat fuel ->
  exists off' q' n,
    drop_oldest (len - count) q = (q', n) /\
    get_next_entry fuel l off len count entries = Ok (off', entries + n) /\
    repr l off' q' /\ total q' + (len - count) <= total q /\ 0 <= n.
Proof.
  induction q as [|e r IH]; intros fuel l off len count entries Hok H Ht Hl Hf.
  - cbn [total fold_right] in Ht. lia.
  - destruct fuel as [|fuel]; [lia|].
    cbn [get_next_entry drop_oldest].
    pose proof (repr_header l off e r Hok H) as [Hh _].
    unfold get_entry_msg_len. rewrite Hh. cbn [bind].
    pose proof H as (Ho & _).
    pose proof (repr_cons l off e r H) as (Hwf & Hs & _ & Hr).
    rewrite h_len_hdr by assumption. unfold HDR.
    fold (esize e). pose proof (esize_pos e). pose proof (total_nonneg r).
    rewrite total_cons in *.
    rewrite offset_wrap by (try apply Hok; lia).
    destruct (Z.ltb_spec (count + esize e) len), (Z.ltb_spec (esize e) (len - count)); try lia.
    + destruct (IH fuel l (wrap (size l) (off + esize e)) len (count + esize e) (entries + 1) Hok Hr) as
        (off' & q' & n & D & G & R & T & N); try lia.
      replace (len - (count + esize e)) with (len - count - esize e) in * by lia.
      rewrite D. exists off', q', (n + 1). repeat split; try assumption; try apply R; try lia.
      rewrite G. do 2 f_equal. lia.
    + exists (wrap (size l) (off + esize e)), r, 1. repeat split; try apply Hr; try lia.
Qed.

Lemma get_next_entry_by_uid_repr : forall q fuel l off euid,
  log_ok l -> repr l off q -> total q <= Z.of_nat fuel ->
  exists off', get_next_entry_by_uid fuel l off euid = Ok off' /\ repr l off' (skip_others euid q).
Proof.
  induction q as [|e r IH]; intros fuel l off euid Hok H Hf.
  - pose proof (repr_eqb _ _ _ H) as E. exists off. split; [|exact H].
    destruct fuel; cbn [get_next_entry_by_uid]; rewrite Z.eqb_sym, E; reflexivity.
  - pose proof (repr_eqb _ _ _ H) as E.
    pose proof (repr_header l off e r Hok H) as [Hh _].
    pose proof H as (Ho & _).
    pose proof (repr_cons l off e r H) as (Hwf & Hs & _ & Hr).
    pose proof (esize_pos e). rewrite total_cons in Hf. pose proof (total_nonneg r).
    destruct fuel as [|fuel]; [lia|].
    cbn [get_next_entry_by_uid skip_others]. rewrite Z.eqb_sym, E.
    rewrite Hh. cbn [bind]. rewrite h_euid_hdr, h_len_hdr by assumption.
    destruct (e_euid e =? u32 euid).
    + exists off. split; [reflexivity|assumption].
    + unfold HDR. fold (esize e). rewrite offset_wrap by (try apply Hok; lia).
      apply IH; try assumption. lia.
Qed.

(** ** Simulation relation *)

Definition R_reader (l : log) (r : reader) (a : areader) : Prop :=
  repr l (r_off r) (a_q a) /\ r_dropped r = a_lost a /\ 0 <= a_lost a /\
  r_all r = a_all a /\ r_ver r = a_ver a.

Definition R_file (l : log) (f : file) (a : afile) : Prop :=
  f_write f = a_wr a /\ f_raw f = a_raw a /\
  match f_reader f, a_rd a with
  | None, None => True
  | Some r, Some x => R_reader l r x
  | _, _ => False
  end.

Definition R_files (l : log) : list (Z * file) -> list (Z * afile) -> Prop :=
  Forall2 (fun p x => fst p = fst x /\ R_file l (snd p) (snd x)).

Definition R (d : dev) (a : adev) : Prop :=
  log_ok (d_log d) /\ size (d_log d) = a_cap a /\ name (d_log d) = a_name a /\
  repr (d_log d) (head (d_log d)) (a_keep a) /\ dropped (d_log d) = a_gone a /\ 0 <= a_gone a /\
  R_files (d_log d) (d_files d) (a_files a).

Lemma R_lookup : forall l fs xs fid, R_files l fs xs ->
  match lookup fid fs, alookup fid xs with
  | None, None => True
  | Some f, Some x => R_file l f x
  | _, _ => False
  end.
Proof.
  intros l fs xs fid H. induction H as [|[i f] [j x] fs xs [E1 E2] H IH]; cbn; [trivial|].
  cbn in E1, E2. subst j. destruct (i =? fid); assumption.
Qed.

Lemma R_update : forall l fs xs fid f x, R_files l fs xs -> R_file l f x ->
  R_files l (update fid f fs) (aupdate fid x xs).
Proof.
  intros l fs xs fid f x H Hf. induction H as [|[i g] [j y] fs xs [E1 E2] H IH]; cbn; [constructor|].
  cbn in E1, E2. subst j. destruct (i =? fid); constructor; cbn; auto.
Qed.

Lemma R_remove : forall l fs xs fid, R_files l fs xs ->
  R_files l (remove fid fs) (aremove fid xs).
Proof.
  intros l fs xs fid H. induction H as [|[i g] [j y] fs xs [E1 E2] H IH]; cbn; [constructor|].
  cbn in E1, E2. subst j. destruct (i =? fid); [assumption|]. constructor; cbn; auto.
Qed.

Lemma update_same : forall fs fid f, lookup fid fs = Some f -> update fid f fs = fs.
Proof.
  induction fs as [|[i g] fs IH]; intros fid f H; cbn in *; [reflexivity|].
  destruct (Z.eqb_spec i fid); [congruence|]. f_equal. apply IH. assumption.
Qed.

Lemma skip_foreign_R : forall l r a euid, log_ok l -> R_reader l r a ->
  exists r', skip_foreign l r euid = Ok r' /\ R_reader l r' (visible a euid) /\
             r_dropped r' = a_lost (visible a euid).
Proof.
  intros l r a euid Hok (H1 & H2 & H3 & H4 & H5). unfold skip_foreign, visible. rewrite H4.
  destruct (a_all a) eqn:Ea.
  - exists r. repeat split; try assumption; try congruence; apply H1.
  - destruct (get_next_entry_by_uid_repr (a_q a) (scan_fuel l) l (r_off r) euid Hok H1) as (off' & E & Hr).
    { unfold scan_fuel. destruct H1 as (_ & H1 & _). pose proof (total_nonneg (a_q a)). lia. }
    rewrite E. cbn [bind]. eexists. split; [reflexivity|].
    split; [|assumption]. repeat split; cbn; try assumption; try congruence; apply Hr.
Qed.

Lemma visible_ver : forall a euid, a_ver (visible a euid) = a_ver a /\ a_lost (visible a euid) = a_lost a /\ a_all (visible a euid) = a_all a.
Proof. intros. unfold visible. destruct (a_all a) eqn:E; cbn; auto. Qed.

Lemma enc_len_eq : forall ver e, enc_len ver e = get_user_hdr_len ver + zlen (e_payload e).
Proof. intros. unfold enc_len, get_user_hdr_len, HDR, HDR_V1. destruct (ver <? 2); reflexivity. Qed.

Lemma hdr_len_pos : forall v, 20 <= get_user_hdr_len v <= 24.
Proof. intros. unfold get_user_hdr_len, HDR, HDR_V1. destruct (v <? 2); lia. Qed.

Lemma wf_report : forall nm n e, wf_entry e -> zlen nm <= 15 -> wf_entry (report nm n e).
Proof.
  intros nm n e [H1 H2] Hn. split; cbn [e_meta e_payload report].
  - rewrite !zlen_app, !zlen_le, zlen_zdrop. lia.
  - rewrite !zlen_app. pose proof (zlen_dec_d (s32 n)).
    change (zlen [0]) with 1. change (zlen [4; 0; 0; 0]) with 4. change (zlen [10; 0]) with 2.
    change (zlen (bytes_of_string " log entries dropped")) with 20. lia.
Qed.

Lemma do_read_drop_summary_R : forall l r a e rest count valid,
  log_ok l -> R_reader l r a -> a_q a = e :: rest ->
  let n := enc_len (a_ver a) (report (name l) (a_lost a) e) in
  exists r',
  do_read_drop_summary l r count valid =
    Ok (r', if count <? n then RErr EINVAL else if valid <? n then RErr EFAULT
            else RData (enc (a_ver a) (report (name l) (a_lost a) e))) /\
  R_reader l r' (if count <? n then a else if valid <? n then a
                 else mkAReader (a_q a) 0 (a_all a) (a_ver a)).
Proof.
  intros l r a e rest count valid Hok HR Hq n.
  pose proof HR as (H1 & H2 & H3 & H4 & H5). rewrite Hq in H1.
  pose proof Hok as (_ & _ & _ & Hnm).
  pose proof (repr_cons _ _ _ _ H1) as (Hwf & _).
  pose proof (repr_header _ _ _ _ Hok H1) as [Hh _].
  unfold do_read_drop_summary. rewrite Hh. cbn [bind].
  set (rep := report (name l) (a_lost a) e) in *.
  assert (Hwr : wf_entry rep) by (apply wf_report; assumption).
  set (msgbuf := [0] ++ [4;0;0;0] ++ name l ++ [0] ++ dec_d (s32 (r_dropped r)) ++ bytes_of_string " log entries dropped" ++ [10]).
  assert (Hm : msgbuf ++ [0] = e_payload rep).
  { subst msgbuf rep. cbn [e_payload report]. rewrite H2. rewrite <- !app_assoc. reflexivity. }
  assert (Hl : zlen msgbuf + 1 = zlen (e_payload rep)).
  { rewrite <- Hm, zlen_app. reflexivity. }
  destruct (Z.geb_spec (zlen msgbuf) 128) as [Hbig|_].
  { exfalso. subst msgbuf. rewrite !zlen_app in Hbig. pose proof (zlen_dec_d (s32 (r_dropped r))).
    change (zlen [0]) with 1 in Hbig. change (zlen [4; 0; 0; 0]) with 4 in Hbig. change (zlen [10]) with 1 in Hbig.
    change (zlen (bytes_of_string " log entries dropped")) with 20 in Hbig. lia. }
  rewrite Hl. rewrite H5.
  subst n. rewrite enc_len_eq. pose proof (hdr_len_pos (a_ver a)).
  pose proof (zlen_nonneg (e_payload rep)).
  destruct (Z.ltb_spec count (get_user_hdr_len (a_ver a) + zlen (e_payload rep))).
  { exists r. split; [reflexivity|assumption]. }
  unfold user_ok.
  destruct (Z.leb_spec (0 + get_user_hdr_len (a_ver a)) valid); cbn [negb];
  destruct (Z.leb_spec (get_user_hdr_len (a_ver a) + zlen (e_payload rep)) valid); cbn [negb];
  destruct (Z.ltb_spec valid (get_user_hdr_len (a_ver a) + zlen (e_payload rep))); try lia;
  try (exists r; split; [reflexivity|assumption]).
  eexists. split.
  - do 3 f_equal. rewrite Hm.
    rewrite <- user_header_hdr by assumption. f_equal. f_equal.
    unfold hdr_of. cbn [rep report e_meta]. f_equal.
    unfold hdr_of, zsub.
    rewrite (zdrop_app 2) by lia. rewrite (zdrop_all 2 (le 2 _)) by (rewrite zlen_le; lia).
    rewrite zlen_le. cbn [app]. change (2 - Z.of_nat 2) with 0. rewrite zdrop_0.
    rewrite ztake_app_exact by (rewrite zlen_le; reflexivity).
    f_equal. f_equal. f_equal.
    rewrite app_assoc. rewrite zdrop_app by lia. rewrite zdrop_all by (rewrite zlen_app, !zlen_le; lia).
    rewrite zlen_app, !zlen_le. change (12 - (Z.of_nat 2 + Z.of_nat 2)) with 8. cbn [app].
    apply ztake_all. rewrite zlen_zdrop. destruct Hwf as [Hwf _]. lia.
  - repeat split; cbn; try assumption; try lia; rewrite ?Hq; apply H1.
Qed.

Lemma do_read_log_to_user_R : forall l r a e rest valid,
  log_ok l -> R_reader l r a -> a_q a = e :: rest ->
  let n := enc_len (a_ver a) e in
  exists r',
  do_read_log_to_user l r n valid =
    Ok (r', if valid <? n then RErr EFAULT else RData (enc (a_ver a) e)) /\
  R_reader l r' (if valid <? n then a else mkAReader rest (a_lost a) (a_all a) (a_ver a)).
Proof.
  intros l r a e rest valid Hok HR Hq n.
  pose proof HR as (H1 & H2 & H3 & H4 & H5). rewrite Hq in H1.
  pose proof Hok as (Hp & Hb & _ & Hnm).
  pose proof H1 as (Ho & _).
  pose proof (repr_cons _ _ _ _ H1) as (Hwf & Hs & _ & Hrest).
  pose proof (repr_header _ _ _ _ Hok H1) as [Hh Hpay].
  unfold do_read_log_to_user. rewrite Hh. cbn [bind]. rewrite H5.
  subst n. rewrite enc_len_eq. pose proof (hdr_len_pos (a_ver a)).
  set (hl := get_user_hdr_len (a_ver a)) in *.
  set (pl := zlen (e_payload e)) in *.
  assert (0 <= pl) by apply zlen_nonneg.
  unfold esize in *. fold pl in Hs, Hrest.
  replace (hl + pl - hl) with pl by lia.
  unfold user_ok.
  destruct (Z.leb_spec (0 + hl) valid); cbn [negb].
  2:{ destruct (Z.ltb_spec valid (hl + pl)); [|lia]. exists r. split; [reflexivity|assumption]. }
  rewrite offset_wrap by (try assumption; unfold HDR; lia).
  unfold HDR. set (ms := wrap (size l) (r_off r + 24)) in *.
  assert (Hms : 0 <= ms < size l) by (subst ms; unfold wrap; zcases; lia).
  set (len := Z.min pl (size l - ms)).
  rewrite (mem_read_ok (buffer l) ms len) by lia. cbn [bind].
  assert (Hb2 : exists b2, (if pl =? len then Ok [] else mem_read (buffer l) 0 (pl - len)) = Ok b2 /\
            zsub ms len (buffer l) ++ b2 = e_payload e).
  { pose proof (ring_read2 (size l) (buffer l) ms pl Hb Hms ltac:(lia)) as Rd. cbn zeta in Rd. fold len in Rd.
    rewrite Hpay in Rd.
    destruct (Z.eqb_spec pl len).
    - exists []. split; [reflexivity|]. rewrite app_nil_r.
      replace (pl - len) with 0 in Rd by lia. unfold zsub at 2 in Rd. rewrite ztake_0, app_nil_r in Rd. exact Rd.
    - rewrite mem_read_ok by lia. eexists. split; [reflexivity|assumption]. }
  destruct Hb2 as (b2 & Hb2 & Hcat).
  destruct (Z.leb_spec (hl + len) valid); cbn [negb].
  2:{ destruct (Z.ltb_spec valid (hl + pl)); [|lia]. exists r. split; [reflexivity|assumption]. }
  rewrite Hb2. cbn [bind].
  destruct (Z.eqb_spec pl len) as [He|Hne]; cbn [negb andb].
  - destruct (Z.ltb_spec valid (hl + pl)); [lia|].
    eexists. split.
    + rewrite Hcat, user_header_hdr by assumption. reflexivity.
    + rewrite offset_wrap by (try assumption; lia).
      replace (r_off r + 24 + pl) with (r_off r + (24 + pl)) by lia.
      repeat split; cbn; try assumption; apply Hrest.
  - destruct (Z.leb_spec (hl + len + (pl - len)) valid); cbn [negb].
    + destruct (Z.ltb_spec valid (hl + pl)); [lia|].
      eexists. split.
      * rewrite Hcat, user_header_hdr by assumption. reflexivity.
      * rewrite offset_wrap by (try assumption; lia).
        replace (r_off r + 24 + pl) with (r_off r + (24 + pl)) by lia.
        repeat split; cbn; try assumption; apply Hrest.
    + destruct (Z.ltb_spec valid (hl + pl)); [|lia]. exists r. split; [reflexivity|assumption].
Qed.

Definition rres_out (x : option rres) : out :=
  match x with None => OutRetry | Some (RErr e) => OutErr e | Some (RData bs) => OutData bs end.

Lemma ulogger_read_body_R : forall l r a euid count valid,
  log_ok l -> R_reader l r a ->
  exists r' x, ulogger_read_body l r euid count valid = Ok (r', x) /\
    R_reader l r' (fst (aread (name l) a euid count valid)) /\
    rres_out x = render (snd (aread (name l) a euid count valid)).
Proof.
  intros l r a euid count valid Hok HR.
  unfold ulogger_read_body, aread.
  destruct (skip_foreign_R l r a euid Hok HR) as (r1 & E1 & HR1 & _). rewrite E1. cbn [bind].
  set (a1 := visible a euid) in *.
  pose proof HR1 as (G1 & G2 & G3 & G4 & G5).
  rewrite (repr_eqb _ _ _ G1).
  destruct (a_q a1) as [|e rest] eqn:Eq.
  - exists r1, None. split; [reflexivity|]. split; [assumption|reflexivity].
  - rewrite G2. destruct (Z.gtb_spec (a_lost a1) 0).
    + destruct (do_read_drop_summary_R l r1 a1 e rest count valid Hok HR1 Eq) as (r2 & E2 & HR2).
      rewrite E2. cbn [bind]. eexists _, _. split; [reflexivity|].
      set (n := enc_len (a_ver a1) (report (name l) (a_lost a1) e)) in *.
      destruct (count <? n); [split; [exact HR2|reflexivity]|].
      destruct (valid <? n); split; try exact HR2; try reflexivity. rewrite Eq in HR2. exact HR2.
    + unfold get_entry_msg_len. pose proof (repr_header _ _ _ _ Hok G1) as [Hh _]. rewrite Hh. cbn [bind].
      pose proof (repr_cons _ _ _ _ G1) as (Hwf & _).
      rewrite h_len_hdr by assumption. rewrite G5. rewrite <- enc_len_eq.
      destruct (Z.ltb_spec count (enc_len (a_ver a1) e)).
      * exists r1, (Some (RErr EINVAL)). split; [reflexivity|]. split; [assumption|reflexivity].
      * destruct (do_read_log_to_user_R l r1 a1 e rest valid Hok HR1 Eq) as (r2 & E2 & HR2).
        rewrite E2. cbn [bind]. eexists _, _. split; [reflexivity|].
        destruct (valid <? enc_len (a_ver a1) e); split; try exact HR2; reflexivity.
Qed.

(** ** Making room *)

Lemma is_between_repr : forall l off q len, log_ok l -> repr l off q -> 24 <= len <= 4100 ->
  is_between (w_off l) (ulogger_offset l (w_off l + len)) off = negb (total q + len <? size l).
Proof.
  intros l off q len (Hp & _ & Hw & _) (Ho & Ht & Hwo & _) Hl.
  pose proof (pow2_size_bounds _ Hp). pose proof (total_nonneg q).
  rewrite offset_wrap by (try assumption; lia).
  unfold is_between. rewrite Hwo. unfold wrap.
  destruct (Z.ltb_spec (total q + len) (size l)); cbn [negb]; zcases; lia.
Qed.

Lemma make_room_repr : forall l off q len, log_ok l -> repr l off q -> 24 <= len <= 4100 ->
  exists off' q' n,
    make_room (size l) len q = (q', n) /\ 0 <= n /\
    (if is_between (w_off l) (ulogger_offset l (w_off l + len)) off
     then get_next_entry (Z.to_nat len) l off len 0 0 else Ok (off, 0)) = Ok (off', n) /\
    repr l off' q' /\ total q' + len < size l.
Proof.
  intros l off q len Hok H Hl.
  rewrite is_between_repr with (q := q) by assumption. unfold make_room.
  pose proof Hok as (Hp & _). pose proof (pow2_size_bounds _ Hp).
  destruct (Z.ltb_spec (total q + len) (size l)); cbn [negb].
  - exists off, q, 0. repeat split; try apply H; lia.
  - destruct (get_next_entry_repr q (Z.to_nat len) l off len 0 0 Hok H) as (off' & q' & n & D & G & Rr & T & N); try lia.
    replace (len - 0) with len in * by lia.
    exists off', q', n. repeat split; try assumption; try apply Rr.
    destruct H as (_ & H & _). lia.
Qed.

(** Every reader of the files has [L] bytes of room after its queue. *)
Definition roomy (L cap : Z) (xs : list (Z * afile)) : Prop :=
  Forall (fun x => match a_rd (snd x) with None => True | Some r => total (a_q r) + L < cap end) xs.

Lemma fix_up_files_R : forall fs xs l len, log_ok l -> R_files l fs xs -> 24 <= len <= 4100 ->
  exists fs', fix_up_files l (w_off l) (ulogger_offset l (w_off l + len)) len fs = Ok fs' /\
    R_files l fs' (on_files (amake_room (size l) len) xs) /\
    roomy len (size l) (on_files (amake_room (size l) len) xs).
Proof.
  intros fs xs l len Hok H Hl. induction H as [|[i f] [j x] fs xs [E1 E2] H IH].
  - exists []. repeat split; constructor.
  - destruct IH as (fs' & G1 & G2 & G3). cbn in E1, E2. subst j.
    destruct E2 as (F1 & F2 & F3).
    cbn [fix_up_files on_files map fst snd].
    destruct (f_reader f) as [r|] eqn:Ef; destruct (a_rd x) as [ar|] eqn:Ex; try contradiction.
    + destruct F3 as (K1 & K2 & K3 & K4 & K5).
      destruct (make_room_repr l (r_off r) (a_q ar) len Hok K1 Hl) as (off' & q' & n & M1 & M2 & M3 & M4 & M5).
      unfold fix_up_reader.
      assert (Hfix : exists r', (if is_between (w_off l) (ulogger_offset l (w_off l + len)) (r_off r)
         then let* (off, n) := get_next_entry (Z.to_nat len) l (r_off r) len 0 0 in
              Ok (set_r_off_dropped r off (r_dropped r + n)) else Ok r) = Ok r' /\
         R_reader l r' (mkAReader q' (a_lost ar + n) (a_all ar) (a_ver ar))).
      { destruct (is_between (w_off l) (ulogger_offset l (w_off l + len)) (r_off r)).
        - rewrite M3. cbn [bind]. eexists. split; [reflexivity|].
          repeat split; cbn; try assumption; try apply M4; lia.
        - injection M3 as <- <-. exists r. split; [reflexivity|].
          repeat split; cbn; try assumption; try apply M4; lia. }
      destruct Hfix as (r' & Hfix & HRr). rewrite Hfix. cbn [bind]. rewrite G1. cbn [bind].
      eexists. split; [reflexivity|]. unfold amake_room. rewrite Ex, M1. split; constructor; try assumption.
      cbn. split; [reflexivity|]. repeat split; cbn; try assumption; apply HRr.
    + cbn [bind]. rewrite G1. cbn [bind]. eexists. split; [reflexivity|].
      unfold amake_room. rewrite Ex. split; constructor; try assumption; cbn.
      * split; [reflexivity|]. repeat split; try assumption. rewrite Ef, Ex. exact I.
      * rewrite Ex. exact I.
Qed.

Lemma fix_up_readers_R : forall d a len, R d a -> 24 <= len <= 4100 ->
  exists d1, fix_up_readers d len = Ok d1 /\
   let (keep, n) := make_room (a_cap a) len (a_keep a) in
   R d1 (mkADev (a_cap a) (a_name a) keep (a_gone a + n) (on_files (amake_room (a_cap a) len) (a_files a))) /\
   total keep + len < a_cap a /\
   roomy len (a_cap a) (on_files (amake_room (a_cap a) len) (a_files a)) /\
   w_off (d_log d1) = w_off (d_log d).
Proof.
  intros d a len (Hok & Hc & Hn & Hk & Hd & Hd0 & Hf) Hl. unfold fix_up_readers.
  destruct (make_room_repr _ _ _ len Hok Hk Hl) as (off' & q' & n & M1 & M2 & M3 & M4 & M5).
  rewrite <- Hc. rewrite M1.
  set (l := d_log d) in *.
  assert (Hh : exists l', (if is_between (w_off l) (ulogger_offset l (w_off l + len)) (head l)
      then let* (off, n) := get_next_entry (Z.to_nat len) l (head l) len 0 0 in Ok (set_head l off (dropped l + n))
      else Ok l) = Ok l' /\ buffer l' = buffer l /\ w_off l' = w_off l /\ size l' = size l /\ name l' = name l /\
      head l' = off' /\ dropped l' = dropped l + n).
  { destruct (is_between (w_off l) (ulogger_offset l (w_off l + len)) (head l)).
    - rewrite M3. cbn [bind]. eexists. split; [reflexivity|]. cbn. auto 10.
    - injection M3 as <- <-. exists l. repeat split; auto. lia. }
  destruct Hh as (l' & E & E1 & E2 & E3 & E4 & E5 & E6). rewrite E. cbn [bind].
  assert (Hok' : log_ok l') by (unfold log_ok in *; rewrite E1, E2, E3, E4; exact Hok).
  assert (Hrep : forall off q, repr l off q -> repr l' off q)
    by (intros off q; unfold repr; rewrite E1, E2, E3; auto).
  assert (Hf' : R_files l' (d_files d) (a_files a)).
  { clear - Hf Hrep. induction Hf as [|x y xs ys [A1 (B1 & B2 & B3)] H IH]; constructor; [|exact IH].
    split; [exact A1|]. split; [exact B1|]. split; [exact B2|].
    destruct (f_reader (snd x)), (a_rd (snd y)); try assumption.
    destruct B3 as (C1 & C2). split; [apply Hrep; exact C1|exact C2]. }
  destruct (fix_up_files_R _ _ l' len Hok' Hf' Hl) as (fs' & F1 & F2 & F3).
  assert (Eo : ulogger_offset l (w_off l + len) = ulogger_offset l' (w_off l' + len))
    by (unfold ulogger_offset; rewrite E2, E3; reflexivity).
  rewrite Eo, <- E2, F1. cbn [bind]. eexists. split; [reflexivity|].
  rewrite E3 in F2, F3.
  split; [|split; [exact M5|split; [exact F3|exact eq_refl]]].
  unfold R; cbn [d_log d_files a_cap a_name a_keep a_gone a_files]. rewrite E3, E4, E5, E6.
  split; [exact Hok'|]. split; [reflexivity|]. split; [exact Hn|].
  split; [apply Hrep; exact M4|]. split; [lia|]. split; [lia|exact F2].
Qed.

(** ** Committing or abandoning an entry *)

Lemma prog_log_ok : forall l0 L acc l, log_ok l0 -> L < size l0 -> prog l0 L acc l -> log_ok l.
Proof.
  intros l0 L acc l (Hp & Hb & Hw & Hn) HL (E1 & E2 & E3 & E4 & E5 & E6 & (E7 & _) & E8).
  pose proof (zlen_nonneg acc).
  unfold log_ok. rewrite E1, E4, E6, E7.
  repeat split; try assumption; unfold wrap; zcases; lia.
Qed.

Lemma repr_commit : forall l0 l off q e, log_ok l0 -> repr l0 off q -> wf_entry e ->
  total q + esize e < size l0 -> prog l0 (esize e) (enc 2 e) l -> repr l off (q ++ [e]).
Proof.
  intros l0 l off q e (Hp & Hb & Hw & Hn) (R1 & R2 & R3 & R4 & R5) Hwf Ht
    (E1 & E2 & E3 & E4 & E5 & E6 & E7 & E8).
  rewrite enc2_len in * by assumption.
  pose proof (esize_pos e). pose proof (total_nonneg q).
  unfold repr. rewrite E1, total_app. cbn [total fold_right].
  replace (esize e + 0) with (esize e) by lia.
  repeat split; try lia.
  - rewrite E6, R3. unfold wrap. zcases; lia.
  - rewrite ring_split by lia. rewrite <- R3, E8, encs_app. cbn [encs map List.concat].
    rewrite app_nil_r. f_equal. rewrite <- R4.
    apply outside_ring with (w := w_off l0) (L := esize e); try assumption; lia.
  - apply Forall_app. split; [assumption|]. constructor; [assumption|constructor].
Qed.

Lemma repr_abort : forall l0 l off q L, log_ok l0 -> repr l0 off q -> 0 <= L ->
  total q + L < size l0 -> touched l0 L l -> repr (set_w_off l (w_off l0)) off q.
Proof.
  intros l0 l off q L (Hp & Hb & Hw & Hn) (R1 & R2 & R3 & R4 & R5) HL Ht (E1 & E2 & E3 & E4 & E5).
  pose proof (total_nonneg q).
  unfold repr. cbn [size buffer w_off set_w_off]. rewrite E1. repeat split; try lia; try assumption.
  rewrite <- R4. apply outside_ring with (w := w_off l0) (L := L); try assumption; lia.
Qed.

Lemma R_commit : forall l0 l fs a e, log_ok l0 -> wf_entry e ->
  R (mkDev l0 fs) a -> total (a_keep a) + esize e < a_cap a -> roomy (esize e) (a_cap a) (a_files a) ->
  prog l0 (esize e) (enc 2 e) l ->
  R (mkDev l fs) (mkADev (a_cap a) (a_name a) (a_keep a ++ [e]) (a_gone a) (on_files (aappend e) (a_files a))).
Proof.
  intros l0 l fs a e Hok Hwf (H1 & H2 & H3 & H4 & H5 & H6 & H7) Hroom Hrs Hprog.
  cbn [d_log d_files] in *.
  pose proof Hprog as (E1 & E2 & E3 & E4 & E5 & E6 & E7 & E8).
  unfold R; cbn [d_log d_files a_cap a_name a_keep a_gone a_files].
  assert (Hlt : esize e < size l0) by (pose proof (total_nonneg (a_keep a)); lia).
  split; [eapply prog_log_ok; eassumption|].
  split; [congruence|]. split; [congruence|].
  split. { rewrite E2. eapply repr_commit; try eassumption. congruence. }
  split; [congruence|]. split; [assumption|].
  clear - H7 Hrs Hok Hwf Hprog H2. revert Hrs.
  induction H7 as [|x y xs ys [A1 (B1 & B2 & B3)] H IH]; intros Hrs; [constructor|].
  inversion Hrs; subst. cbn [on_files map]. constructor; [|apply IH; assumption].
  cbn [fst snd]. split; [assumption|]. unfold aappend.
  destruct (a_rd (snd y)) as [ar|] eqn:Ey; destruct (f_reader (snd x)) as [r|] eqn:Ex; try contradiction.
  - destruct B3 as (C1 & C2 & C3 & C4 & C5).
    repeat split; cbn [a_wr a_raw a_rd]; try assumption. rewrite Ex.
    split; [|repeat split; assumption]. eapply repr_commit; try eassumption. lia.
  - repeat split; try assumption. rewrite Ex, Ey. exact I.
Qed.

Lemma R_abort : forall l0 l fs a L, log_ok l0 -> 0 <= L ->
  R (mkDev l0 fs) a -> total (a_keep a) + L < a_cap a -> roomy L (a_cap a) (a_files a) ->
  touched l0 L l -> R (mkDev (set_w_off l (w_off l0)) fs) a.
Proof.
  intros l0 l fs a L Hok HL (H1 & H2 & H3 & H4 & H5 & H6 & H7) Hroom Hrs Hto.
  cbn [d_log d_files] in *.
  pose proof Hto as (E1 & E2 & E3 & E4 & (E5 & _)).
  unfold R; cbn [d_log d_files].
  split. { destruct Hok as (P1 & P2 & P3 & P4). unfold log_ok; cbn. rewrite E1, E4, E5. auto. }
  split; [cbn; congruence|]. split; [cbn; congruence|].
  split. { cbn [head set_w_off]. rewrite E2. eapply repr_abort with (L := L); try eassumption. lia. }
  split; [cbn; congruence|]. split; [assumption|].
  clear - H7 Hrs Hok Hto H2 HL. revert Hrs.
  induction H7 as [|x y xs ys [A1 (B1 & B2 & B3)] H IH]; intros Hrs; [constructor|].
  inversion Hrs; subst. constructor; [|apply IH; assumption].
  split; [assumption|].
  destruct (a_rd (snd y)) as [ar|] eqn:Ey; destruct (f_reader (snd x)) as [r|] eqn:Ex; try contradiction.
  - destruct B3 as (C1 & C2 & C3 & C4 & C5).
    repeat split; try assumption. rewrite Ex, Ey.
    split; [|repeat split; assumption]. eapply repr_abort with (L := L); try eassumption. lia.
  - repeat split; try assumption. rewrite Ex, Ey. exact I.
Qed.

(** ** Write *)

Lemma iter_count_bytes : forall it, user_iter it -> iter_count it = zlen (iter_bytes it).
Proof.
  intros [segs|s|n] H; cbn [iter_count iter_bytes] in *.
  - apply segs_len_concat.
  - reflexivity.
  - destruct H.
Qed.

Lemma zlen_comm : forall c, zlen (comm_str c) <= 16.
Proof.
  intros. unfold comm_str. pose proof (zlen_cstr (ztake 16 c)). rewrite zlen_ztake in H. 
  pose proof (zlen_nonneg c). lia.
Qed.

Lemma zlen_names : forall t, 1 <= zlen (names t) <= 34.
Proof.
  intros. unfold names. rewrite !zlen_app. pose proof (zlen_comm (t_pcomm t)). pose proof (zlen_comm (t_tcomm t)).
  pose proof (zlen_nonneg (comm_str (t_pcomm t))). pose proof (zlen_nonneg (comm_str (t_tcomm t))).
  change (zlen [0]) with 1.
  destruct (t_tgid t =? t_pid t); rewrite ?zlen_app, ?zlen_nil; change (zlen [0]) with 1; lia.
Qed.

(** The payload copy loop of ulogger_write_iter for the two kinds of user iterators. *)
Lemma copy_payload_prog : forall it l0 L acc l size1,
  user_iter it -> log_ok l0 -> prog l0 L acc l -> 0 <= size1 <= zlen (iter_bytes it) ->
  zlen acc + size1 <= L -> L < size l0 ->
  exists l',
  let res := match it with
    | IterIovec segs => write_iovecs l segs size1 0
    | IterUbuf s =>
      let len := Z.min size1 (iter_count it) in
      let* (l', bad) := do_write_log_from_user l s len in
      Ok (l', if bad : bool then None else Some len)
    | IterOther _ => Ok (l, Some 0)
    end in
  if iter_fault it size1 then res = Ok (l', None) /\ touched l0 L l'
  else res = Ok (l', Some size1) /\ prog l0 L (acc ++ ztake size1 (iter_bytes it)) l'.
Proof.
  intros [segs|s|n] l0 L acc l size1 Hu Hok Hprog Hs Ha HL; cbn zeta; [| |destruct Hu].
  - cbn [iter_fault iter_bytes] in *.
    destruct (write_iovecs_prog segs l0 L acc l size1 0 Hok Hprog) as (l' & H); try lia.
    replace (size1 - 0) with size1 in H by lia. exists l'.
    destruct (segs_fault segs size1); [assumption|]. destruct H as [H1 H2]. split; [|assumption].
    rewrite H1. do 3 f_equal. rewrite segs_len_concat. lia.
  - cbn [iter_fault iter_bytes iter_count segs_fault] in *. unfold seg_len.
    replace (Z.min size1 (zlen (s_data s))) with size1 by lia.
    replace (Z.min (zlen (s_data s)) size1) with size1 by lia.
    destruct (do_write_log_from_user_prog l0 L acc l s size1 Hok Hprog) as (l' & H1 & H2); try (unfold seg_len; lia).
    exists l'. rewrite H1. cbn [bind]. rewrite orb_false_r.
    destruct ((0 <? size1) && (s_valid s <? size1)); split; try reflexivity; assumption.
Qed.

Lemma hdr_of_header : forall e t sec nsec, e_meta e = meta_of t sec nsec ->
  mk_header (zlen (e_payload e)) (t_tgid t) (t_pid t) sec nsec (t_euid t) = hdr_of e.
Proof. intros e t sec nsec H. unfold mk_header, hdr_of, HDR. rewrite H. reflexivity. Qed.

Lemma write_R : forall d a raw t sec nsec it, user_iter it -> R d a ->
  exists d' v, ulogger_write_iter d raw t sec nsec it = Ok (d', v) /\
    R d' (fst (awrite a raw t sec nsec it)) /\ ret_out v = render (snd (awrite a raw t sec nsec it)).
Proof.
  intros d a raw t sec nsec it Hu HR.
  unfold ulogger_write_iter, awrite. rewrite iter_count_bytes by assumption.
  set (data := iter_bytes it). set (n0 := zlen data).
  assert (Hn0 : 0 <= n0) by apply zlen_nonneg.
  unfold HDR, MAX_PAYLOAD. change (24 - 4) with 20.
  destruct (raw && (n0 <? 20)) eqn:Eshort.
  { eexists _, _. split; [reflexivity|]. split; [exact HR|reflexivity]. }
  set (pname := comm_str (t_pcomm t) ++ [0]).
  set (tname := if t_tgid t =? t_pid t then [] else comm_str (t_tcomm t) ++ [0]).
  assert (Hnames : names t = pname ++ tname) by (unfold names, pname, tname; rewrite <- app_assoc; reflexivity).
  pose proof (zlen_names t) as Hnl.
  assert (Hnl2 : zlen (names t) = zlen pname + zlen tname) by (rewrite Hnames, zlen_app; reflexivity).
  pose proof (zlen_nonneg pname). pose proof (zlen_nonneg tname).
  set (e := requested raw t sec nsec it).
  set (hlen := if raw then Z.min (n0 - 20) 4076 else Z.min (zlen pname + zlen tname + n0) 4076).
  assert (Hraw : raw = true -> 20 <= n0).
  { intros ->. cbn [andb] in Eshort. lia. }
  assert (Hhl : zlen (e_payload e) = hlen).
  { subst e hlen. unfold requested. fold data. destruct raw; cbn [e_payload].
    - rewrite zlen_ztake, zlen_zdrop. fold n0. specialize (Hraw eq_refl). lia.
    - rewrite zlen_ztake, zlen_app. fold n0. lia. }
  assert (Hwf : wf_entry e).
  { split.
    - subst e. unfold requested. fold data. destruct raw; cbn [e_meta].
      + rewrite zlen_ztake. fold n0. specialize (Hraw eq_refl). lia.
      + unfold meta_of. rewrite !zlen_app, !zlen_le. reflexivity.
    - rewrite Hhl. subst hlen. destruct raw; lia. }
  rewrite Hhl.
  destruct (Z.eqb_spec hlen 0) as [Ez|Enz].
  { eexists _, _. split; [reflexivity|]. split; [exact HR|reflexivity]. }
  assert (Hes : esize e = 24 + hlen) by (unfold esize; rewrite Hhl; reflexivity).
  rewrite <- Hes.
  pose proof (esize_max e Hwf). pose proof (esize_pos e).
  destruct (fix_up_readers_R d a (esize e) HR ltac:(lia)) as (d1 & F1 & F2).
  rewrite F1. cbn [bind].
  destruct (make_room (a_cap a) (esize e) (a_keep a)) as [keep ndrop] eqn:Emr.
  destruct F2 as (HR1 & Hroom & Hrs & Hw).
  pose proof HR1 as (Hok1 & Hcap & _). cbn [a_cap] in Hcap.
  set (a1 := mkADev (a_cap a) (a_name a) keep (a_gone a + ndrop) (on_files (amake_room (a_cap a) (esize e)) (a_files a))) in *.
  set (l1 := d_log d1) in *.
  pose proof (pow2_size_bounds _ (proj1 Hok1)) as Hbig.
  set (acc := if raw then le 2 hlen ++ le 2 24 else hdr_of e ++ names t).
  assert (Hacc : exists l2, (if raw then
      let* l := do_write_log l1 (ztake 4 (mk_header hlen 0 0 0 0 0)) in Ok (l, esize e - 4)
    else
      let* l := do_write_log l1 (mk_header hlen (t_tgid t) (t_pid t) sec nsec (t_euid t)) in
      let* l := do_write_log l pname in
      let* l := if zlen tname =? 0 then Ok l else do_write_log l tname in
      Ok (l, esize e - 24 - zlen pname - zlen tname)) = Ok (l2, accepted raw t it) /\
      prog l1 (esize e) acc l2).
  { assert (Hp0 : prog l1 (esize e) [] l1) by (apply prog_init; [exact Hok1|lia]).
    unfold accepted, room. fold data n0. subst hlen acc. destruct raw.
    - assert (Eh : ztake 4 (mk_header (Z.min (n0 - 20) 4076) 0 0 0 0 0) = le 2 (Z.min (n0 - 20) 4076) ++ le 2 24).
      { unfold mk_header, HDR. rewrite app_assoc. apply ztake_app_exact. rewrite zlen_app, !zlen_le. reflexivity. }
      rewrite Eh.
      destruct (do_write_log_prog l1 (esize e) [] l1 (le 2 (Z.min (n0 - 20) 4076) ++ le 2 24) Hok1 Hp0) as (l2 & W1 & W2).
      { rewrite zlen_nil, zlen_app, !zlen_le. lia. }
      { lia. }
      exists l2. rewrite W1. cbn [bind]. split; [|exact W2]. do 2 f_equal. specialize (Hraw eq_refl). lia.
    - rewrite <- Hhl. rewrite hdr_of_header by reflexivity.
      pose proof (hdr_of_len e Hwf) as Hh24.
      destruct (do_write_log_prog l1 (esize e) [] l1 (hdr_of e) Hok1 Hp0) as (l2 & W1 & W2); [rewrite zlen_nil; lia|lia|].
      cbn [app] in W2.
      destruct (do_write_log_prog l1 (esize e) (hdr_of e) l2 pname Hok1 W2) as (l3 & W3 & W4); [lia|lia|].
      rewrite W1. cbn [bind]. rewrite W3. cbn [bind].
      assert (Ht : exists l4, (if zlen tname =? 0 then Ok l3 else do_write_log l3 tname) = Ok l4 /\
                  prog l1 (esize e) (hdr_of e ++ names t) l4).
      { rewrite Hnames, app_assoc. destruct (Z.eqb_spec (zlen tname) 0) as [E0|E0].
        - rewrite (zlen_zero_nil _ E0), app_nil_r. exists l3. split; [reflexivity|assumption].
        - apply do_write_log_prog; try assumption; rewrite ?zlen_app; lia. }
      destruct Ht as (l4 & W5 & W6). rewrite W5. cbn [bind]. exists l4. split; [|exact W6].
      do 2 f_equal. lia. }
  destruct Hacc as (l2 & HA1 & HA2). rewrite HA1. cbn [bind].
  assert (Hzacc : zlen acc + accepted raw t it = esize e).
  { unfold accepted, room. fold data n0. subst acc hlen. destruct raw.
    - rewrite zlen_app, !zlen_le. specialize (Hraw eq_refl). lia.
    - rewrite zlen_app, hdr_of_len by assumption. lia. }
  assert (Ha0 : 0 <= accepted raw t it <= n0).
  { unfold accepted, room. fold data n0. destruct raw; lia. }
  destruct (copy_payload_prog it l1 (esize e) acc l2 (accepted raw t it) Hu Hok1 HA2) as (l3 & HC); try lia; [exact Ha0|].
  cbn zeta in HC.
  assert (HR1' : R (mkDev l1 (d_files d1)) a1) by (destruct d1; exact HR1).
  rewrite iter_count_bytes in HC by assumption. fold data n0 in HC.
  destruct (iter_fault it (accepted raw t it)).
  - destruct HC as [HC1 HC2]. rewrite HC1. cbn [bind].
    eexists _, _. split; [reflexivity|]. split; [|reflexivity].
    rewrite <- Hw. fold l1. cbn [fst].
    eapply R_abort with (L := esize e); try eassumption; lia.
  - destruct HC as [HC1 HC2]. rewrite HC1. cbn [bind].
    eexists _, _. split; [reflexivity|]. split.
    + cbn [fst].
      apply (R_commit l1 l3 (d_files d1) a1 e); try assumption.
      replace (enc 2 e) with (acc ++ ztake (accepted raw t it) (iter_bytes it)); [assumption|].
      rewrite enc2_eq. fold data. subst acc. unfold accepted, room. fold data n0.
      destruct raw.
      * unfold hdr_of. rewrite Hhl. rewrite <- !app_assoc. f_equal. f_equal.
        subst e. unfold requested. fold data. cbn [e_meta e_payload].
        specialize (Hraw eq_refl).
        rewrite <- (ztake_zdrop 20 (ztake (Z.min (20 + 4076) n0) data)).
        rewrite ztake_ztake. replace (Z.min 20 (Z.min (20 + 4076) n0)) with 20 by lia.
        f_equal. unfold zdrop, ztake. rewrite skipn_firstn_comm.
        destruct (Z.leb_spec n0 4096).
        -- rewrite !firstn_all2; try reflexivity; rewrite skipn_length; unfold n0, zlen in *; lia.
        -- f_equal. lia.
      * rewrite <- app_assoc. f_equal. subst e. unfold requested. fold data. cbn [e_payload].
        rewrite ztake_app. rewrite (ztake_all 4076 (names t)) by lia. f_equal.
        destruct (Z.leb_spec n0 (4076 - zlen (names t))).
        -- rewrite !ztake_all; try reflexivity; unfold n0 in *; lia.
        -- f_equal. lia.
    + cbn [snd render]. unfold ret_out. destruct (Z.ltb_spec (accepted raw t it) 0); [lia|reflexivity].
Qed.

(** ** All operations *)

Lemma R_put : forall d a fid f x, R d a -> R_file (d_log d) f x ->
  R (mkDev (d_log d) (update fid f (d_files d)))
    (mkADev (a_cap a) (a_name a) (a_keep a) (a_gone a) (aupdate fid x (a_files a))).
Proof.
  intros d a fid f x (H1 & H2 & H3 & H4 & H5 & H6 & H7) Hf.
  unfold R; cbn [d_log d_files a_cap a_name a_keep a_gone a_files].
  repeat (split; [assumption|]). apply R_update; assumption.
Qed.

Lemma get_log_len_R : forall l r a, log_ok l -> R_reader l r a -> get_log_len l r = total (a_q a).
Proof.
  intros l r a Hok (H1 & _). destruct H1 as (A & B & C & _). pose proof (total_nonneg (a_q a)).
  unfold get_log_len. rewrite C. unfold wrap.
  destruct (Z.ltb_spec (r_off r + total (a_q a)) (size l));
  match goal with |- context [?x >=? ?y] => destruct (Z.geb_spec x y) end; lia.
Qed.

Lemma flush_R : forall d a, R d a ->
  R (mkDev (set_head (d_log d) (w_off (d_log d)) 0)
           (map (fun p => (fst p, flush_file (w_off (d_log d)) (snd p))) (d_files d)))
    (mkADev (a_cap a) (a_name a) [] 0 (on_files aflush (a_files a))).
Proof.
  intros d a (H1 & H2 & H3 & H4 & H5 & H6 & H7).
  assert (He : repr (d_log d) (w_off (d_log d)) []).
  { destruct H1 as (P1 & P2 & P3 & P4). unfold repr. cbn [total fold_right]. repeat split; try lia.
    - unfold wrap. zcases; lia.
    - constructor. }
  unfold R; cbn [d_log d_files a_cap a_name a_keep a_gone a_files].
  split; [exact H1|]. split; [exact H2|]. split; [exact H3|]. split; [exact He|].
  split; [reflexivity|]. split; [lia|].
  clear - H7 He. induction H7 as [|x y xs ys [A1 (B1 & B2 & B3)] H IH]; [constructor|].
  cbn [map on_files]. constructor; [|exact IH]. cbn [fst snd]. split; [exact A1|].
  unfold flush_file, aflush.
  destruct (a_rd (snd y)) as [ar|] eqn:Ey; destruct (f_reader (snd x)) as [r|] eqn:Ex; try contradiction.
  - destruct B3 as (C1 & C2 & C3 & C4 & C5).
    repeat split; cbn [a_wr a_raw a_rd]; try assumption; try reflexivity; cbn; try lia; try apply He.
  - repeat split; try assumption. rewrite Ex, Ey. exact I.
Qed.

Lemma a_total_nonneg : forall v e, 0 <= enc_len v e.
Proof. intros. rewrite enc_len_eq. pose proof (hdr_len_pos v). pose proof (zlen_nonneg (e_payload e)). lia. Qed.

Definition ver_ok (x : afile) : Prop := match a_rd x with None => True | Some r => 1 <= a_ver r <= 2 end.
Definition vers_ok (a : adev) : Prop := Forall (fun x => ver_ok (snd x)) (a_files a).

Lemma ioctl_R : forall d a fid f x c euid, R d a -> vers_ok a -> lookup fid (d_files d) = Some f ->
  alookup fid (a_files a) = Some x -> R_file (d_log d) f x -> ver_ok x ->
  exists d' v,
   (let* (l', f', fl, v) := ulogger_ioctl (d_log d) f c euid in
      let fs := update fid f' (d_files d) in
      let fs := if fl : bool then map (fun p => (fst p, flush_file (w_off l') (snd p))) fs else fs in
      Ok (mkDev l' fs, ret_out v)) = Ok (d', v) /\
   R d' (fst (aioctl a fid x c euid)) /\ v = render (snd (aioctl a fid x c euid)).
Proof.
  intros d a fid f x c euid HR Hvs Hl Hal (F1 & F2 & F3) Hv.
  pose proof HR as (Hok & Hcap & _).
  pose proof (pow2_size_bounds _ (proj1 Hok)) as Hbig.
  assert (Hsame : mkDev (d_log d) (update fid f (d_files d)) = d)
    by (rewrite update_same by assumption; destruct d; reflexivity).
  unfold ver_ok in Hv.
  destruct c; cbn [ulogger_ioctl aioctl bind].
  - rewrite Hsame. eexists _, _. split; [reflexivity|]. split; [exact HR|].
    cbn [snd render]. unfold ret_out. rewrite Hcap. destruct (Z.ltb_spec (a_cap a) 0); [lia|reflexivity].
  - destruct (f_reader f) as [r|], (a_rd x) as [ar|]; try contradiction; cbn [bind]; rewrite Hsame;
      (eexists _, _; split; [reflexivity|]); (split; [exact HR|]); cbn [snd render]; [|reflexivity].
    rewrite (get_log_len_R _ _ _ Hok F3). unfold ret_out. pose proof (total_nonneg (a_q ar)).
    destruct (Z.ltb_spec (total (a_q ar)) 0); [lia|reflexivity].
  - destruct (f_reader f) as [r|], (a_rd x) as [ar|]; try contradiction; cbn [bind].
    2:{ rewrite Hsame. eexists _, _. split; [reflexivity|]. split; [exact HR|reflexivity]. }
    destruct (skip_foreign_R (d_log d) r ar euid Hok F3) as (r1 & E1 & HR1 & _). rewrite E1. cbn [bind].
    set (a1 := visible ar euid) in *. pose proof HR1 as (G1 & G2 & G3 & G4 & G5).
    rewrite (repr_eqb _ _ _ G1).
    assert (Hput : R (mkDev (d_log d) (update fid (mkFile (f_write f) (f_raw f) (Some r1)) (d_files d)))
       (mkADev (a_cap a) (a_name a) (a_keep a) (a_gone a) (aupdate fid (mkAFile (a_wr x) (a_raw x) (Some a1)) (a_files a)))).
    { apply R_put; [exact HR|]. split; [exact F1|]. split; [exact F2|]. exact HR1. }
    destruct (a_q a1) as [|e rest] eqn:Eq; cbn [negb].
    + cbn [bind]. eexists _, _. split; [reflexivity|]. split; [exact Hput|reflexivity].
    + unfold get_entry_msg_len. pose proof (repr_header _ _ _ _ Hok G1) as [Hh _]. rewrite Hh. cbn [bind].
      pose proof (repr_cons _ _ _ _ G1) as (Hwf & _). rewrite h_len_hdr by assumption.
      eexists _, _. split; [reflexivity|]. split; [exact Hput|].
      cbn [snd render]. rewrite G5, <- enc_len_eq. unfold ret_out.
      pose proof (a_total_nonneg (a_ver a1) e). destruct (Z.ltb_spec (enc_len (a_ver a1) e) 0); [lia|reflexivity].
  - rewrite F1. destruct (a_wr x) eqn:Ew; cbn [negb bind].
    + rewrite update_same by assumption.
      eexists _, _. split; [reflexivity|]. split; [exact (flush_R d a HR)|reflexivity].
    + rewrite Hsame. eexists _, _. split; [reflexivity|]. split; [exact HR|reflexivity].
  - destruct (f_reader f) as [r|], (a_rd x) as [ar|]; try contradiction; cbn [bind]; rewrite Hsame;
      (eexists _, _; split; [reflexivity|]); (split; [exact HR|]); cbn [snd render]; [|reflexivity].
    destruct F3 as (_ & _ & _ & _ & ->). unfold ret_out.
    destruct (Z.ltb_spec (a_ver ar) 0); [lia|reflexivity].
  - destruct (f_reader f) as [r|] eqn:Efr; destruct (a_rd x) as [ar|] eqn:Exr; try contradiction; cbn [bind].
    2:{ destruct arg as [v|]; rewrite Hsame; (eexists _, _; split; [reflexivity|]); split; [exact HR|reflexivity|exact HR|reflexivity]. }
    destruct arg as [v|]; cbn [bind].
    2:{ rewrite Hsame. eexists _, _. split; [reflexivity|]. split; [exact HR|reflexivity]. }
    assert (Eb : ((v <? 1) || (v >? 2)) = negb ((v =? 1) || (v =? 2))) by lia.
    rewrite Eb. destruct ((v =? 1) || (v =? 2)) eqn:Ev; cbn [negb bind].
    + eexists _, _. split; [reflexivity|]. split; [|reflexivity]. cbn [fst].
      apply R_put; [exact HR|]. split; [exact F1|]. split; [exact F2|].
      cbn [f_reader a_rd]. destruct F3 as (A & B & C & D & E). repeat split; cbn; try assumption; apply A.
    + rewrite Hsame. eexists _, _. split; [reflexivity|]. split; [exact HR|reflexivity].
  - rewrite F1. destruct (a_wr x) eqn:Ew; cbn [negb bind].
    2:{ rewrite Hsame. eexists _, _. split; [reflexivity|]. split; [exact HR|reflexivity]. }
    destruct (strict && negb capable); cbn [bind].
    { rewrite Hsame. eexists _, _. split; [reflexivity|]. split; [exact HR|reflexivity]. }
    destruct arg as [m|]; cbn [bind].
    2:{ rewrite Hsame. eexists _, _. split; [reflexivity|]. split; [exact HR|reflexivity]. }
    rewrite <- negb_orb. destruct ((m =? 0) || (m =? 1)); cbn [negb bind].
    + eexists _, _. split; [reflexivity|]. split; [|reflexivity]. cbn [fst].
      apply R_put; [exact HR|]. split; [cbn; reflexivity|]. split; [reflexivity|]. exact F3.
    + rewrite Hsame. eexists _, _. split; [reflexivity|]. split; [exact HR|reflexivity].
  - rewrite Hsame. eexists _, _. split; [reflexivity|]. split; [exact HR|reflexivity].
Qed.

(** The version of every reader is 1 or 2. *)
Lemma vers_lookup : forall xs fid x, Forall (fun x => ver_ok (snd x)) xs -> alookup fid xs = Some x -> ver_ok x.
Proof.
  induction xs as [|[i y] xs IH]; intros fid x H E; cbn in E; [discriminate|].
  inversion H; subst. destruct (i =? fid); [injection E as <-; assumption|]. eapply IH; eassumption.
Qed.

Lemma vers_update : forall xs fid x, Forall (fun x => ver_ok (snd x)) xs -> ver_ok x ->
  Forall (fun x => ver_ok (snd x)) (aupdate fid x xs).
Proof.
  induction xs as [|[i y] xs IH]; intros fid x H E; cbn; [constructor|].
  inversion H; subst. destruct (i =? fid); constructor; auto.
Qed.

Lemma vers_remove : forall xs fid, Forall (fun x => ver_ok (snd x)) xs ->
  Forall (fun x => ver_ok (snd x)) (aremove fid xs).
Proof.
  induction xs as [|[i y] xs IH]; intros fid H; cbn; [constructor|].
  inversion H; subst. destruct (i =? fid); [assumption|]. constructor; auto.
Qed.

Lemma vers_on_files : forall g xs, (forall x, ver_ok x -> ver_ok (g x)) ->
  Forall (fun x => ver_ok (snd x)) xs -> Forall (fun x => ver_ok (snd x)) (on_files g xs).
Proof.
  intros g xs Hg H. induction H as [|x xs H0 H IH]; cbn; constructor; [apply Hg; assumption|exact IH].
Qed.

Lemma aread_ver : forall nm r euid count valid,
  a_ver (fst (aread nm r euid count valid)) = a_ver r.
Proof.
  intros. unfold aread. pose proof (visible_ver r euid) as (H & _).
  destruct (a_q (visible r euid)) as [|e rest]; [exact H|].
  destruct (a_lost (visible r euid) >? 0); repeat
  match goal with |- context [if ?b then _ else _] => destruct b end; exact H.
Qed.

Lemma vers_step : forall a o, vers_ok a -> vers_ok (fst (astep a o)).
Proof.
  intros a o H. unfold vers_ok in *. destruct o; cbn [astep].
  - destruct (alookup fid (a_files a)); [exact H|]. destruct (rd && nomem); [exact H|].
    cbn [fst a_files]. apply Forall_app. split; [exact H|]. constructor; [|constructor].
    cbn. unfold ver_ok; cbn. destruct rd; cbn; [lia|exact I].
  - destruct (alookup fid (a_files a)); [|exact H]. cbn. apply vers_remove; exact H.
  - destruct (alookup fid (a_files a)) as [[w m [r|]]|]; exact H.
  - destruct (alookup fid (a_files a)) as [[w m [r|]]|] eqn:E; try exact H.
    pose proof (aread_ver (a_name a) r euid count valid) as Hv.
    destruct (aread (a_name a) r euid count valid) as [r' x] eqn:Er. cbn [fst] in *.
    cbn [a_files]. apply vers_update; [exact H|].
    pose proof (vers_lookup _ _ _ H E) as Hx. unfold ver_ok in *; cbn in *. lia.
  - destruct (alookup fid (a_files a)) as [x|] eqn:E; [|exact H]. destruct (a_wr x); [|exact H].
    unfold awrite. destruct (a_raw x && _); [exact H|].
    destruct (_ =? 0); [exact H|].
    destruct (make_room _ _ (a_keep a)) as [keep n].
    assert (Hm : forall y, ver_ok y -> ver_ok (amake_room (a_cap a) (esize (requested (a_raw x) t sec nsec it)) y)).
    { intros [w m [r|]] Hy; unfold amake_room; cbn; [|exact I]. destruct (make_room _ _ (a_q r)). exact Hy. }
    destruct (iter_fault it _); cbn [fst a_files].
    + apply vers_on_files; assumption.
    + apply vers_on_files; [|apply vers_on_files; assumption].
      intros [w m [r|]] Hy; exact Hy.
  - destruct (alookup fid (a_files a)) as [[w m [r|]]|] eqn:E; try exact H.
    cbn [fst a_files]. apply vers_update; [exact H|].
    pose proof (vers_lookup _ _ _ H E) as Hx. unfold ver_ok in *; cbn in *.
    pose proof (visible_ver r euid) as (Hv & _). lia.
  - destruct (alookup fid (a_files a)) as [x|] eqn:E; [|exact H].
    pose proof (vers_lookup _ _ _ H E) as Hx.
    destruct c; cbn [aioctl]; try (destruct (a_rd x) as [r|] eqn:Er; try exact H).
    + cbn [fst a_files]. apply vers_update; [exact H|]. unfold ver_ok in *; rewrite Er in Hx; cbn.
      pose proof (visible_ver r euid) as (Hv & _). lia.
    + destruct (a_wr x); [|exact H]. cbn [fst a_files]. apply vers_on_files; [|exact H].
      intros [w m [r0|]] Hy; exact Hy.
    + destruct (a_wr x); [|exact H]. cbn [fst a_files]. apply vers_on_files; [|exact H].
      intros [w m [r0|]] Hy; exact Hy.
    + destruct arg as [v|]; [|exact H]. destruct ((v =? 1) || (v =? 2)) eqn:Ev; [|exact H].
      cbn [fst a_files]. apply vers_update; [exact H|]. unfold ver_ok; cbn. lia.
    + destruct arg; exact H.
    + destruct (a_wr x); cbn [negb]; [|exact H]. destruct (strict && negb capable); [exact H|].
      destruct arg as [m|]; [|exact H]. destruct (_ || _); [|exact H].
      cbn [fst a_files]. apply vers_update; [exact H|]. unfold ver_ok in *; cbn. rewrite Er in Hx. exact Hx.
    + destruct (a_wr x); cbn [negb]; [|exact H]. destruct (strict && negb capable); [exact H|].
      destruct arg as [m|]; [|exact H]. destruct (_ || _); [|exact H].
      cbn [fst a_files]. apply vers_update; [exact H|]. unfold ver_ok in *; cbn. rewrite Er in Hx. exact Hx.
Qed.

Lemma step_R : forall d a o, user_op o -> R d a -> vers_ok a ->
  exists d', step d o = Ok (d', render (snd (astep a o))) /\ R d' (fst (astep a o)).
Proof.
  intros d a o Hu HR Hvs. pose proof HR as (Hok & Hcap & Hnm & Hk & Hg & Hg0 & Hf).
  destruct o; cbn [step astep].
  - unfold ulogger_open.
    pose proof (R_lookup _ _ _ fid Hf) as HL.
    destruct (lookup fid (d_files d)) as [f|], (alookup fid (a_files a)) as [x|]; try contradiction.
    + exists d. split; [reflexivity|exact HR].
    + destruct (rd && nomem).
      * exists d. split; [reflexivity|exact HR].
      * eexists. split; [reflexivity|].
        unfold R; cbn [fst d_log d_files a_cap a_name a_keep a_gone a_files].
        repeat (split; [assumption|]). apply Forall2_app; [exact Hf|].
        constructor; [|constructor]. cbn. split; [reflexivity|]. split; [reflexivity|]. split; [reflexivity|].
        destruct rd; cbn; [|exact I]. split; [exact Hk|]. repeat split; assumption.
  - pose proof (R_lookup _ _ _ fid Hf) as HL.
    destruct (lookup fid (d_files d)) as [f|], (alookup fid (a_files a)) as [x|]; try contradiction.
    + eexists. split; [reflexivity|]. unfold R; cbn [fst d_log d_files a_cap a_name a_keep a_gone a_files].
      repeat (split; [assumption|]). apply R_remove; exact Hf.
    + exists d. split; [reflexivity|exact HR].
  - pose proof (R_lookup _ _ _ fid Hf) as HL.
    destruct (lookup fid (d_files d)) as [[fw fm fr]|], (alookup fid (a_files a)) as [[xw xm xr]|]; try contradiction.
    2:{ exists d. split; [reflexivity|exact HR]. }
    destruct HL as (_ & _ & HL). cbn in HL.
    destruct fr as [r|], xr as [ar|]; try contradiction; exists d.
    + split; [|exact HR]. do 2 f_equal. destruct HL as (H1 & _).
      unfold ulogger_read_check. rewrite (repr_eqb _ _ _ H1).
      destruct (a_q ar); cbn [negb snd render]; [|reflexivity].
      destruct nonblock; [reflexivity|]. destruct signal; reflexivity.
    + split; [reflexivity|exact HR].
  - pose proof (R_lookup _ _ _ fid Hf) as HL.
    destruct (lookup fid (d_files d)) as [[fw fm fr]|], (alookup fid (a_files a)) as [[xw xm xr]|]; try contradiction.
    2:{ exists d. split; [reflexivity|exact HR]. }
    destruct HL as (F1 & F2 & HL). cbn in F1, F2, HL. subst xw xm.
    destruct fr as [r|], xr as [ar|]; try contradiction.
    2:{ exists d. split; [reflexivity|exact HR]. }
    destruct (ulogger_read_body_R (d_log d) r ar euid count valid Hok HL) as (r' & x & E & HR' & Ho).
    rewrite E. cbn [bind]. rewrite Hnm in *.
    destruct (aread (a_name a) ar euid count valid) as [ar' x'] eqn:Ea. cbn [fst snd] in *.
    eexists. split; [unfold rres_out in Ho; rewrite <- Ho; destruct x as [[?|?]|]; reflexivity|].
    apply R_put; [exact HR|]. split; [reflexivity|]. split; [reflexivity|]. exact HR'.
  - pose proof (R_lookup _ _ _ fid Hf) as HL.
    destruct (lookup fid (d_files d)) as [f|], (alookup fid (a_files a)) as [x|]; try contradiction.
    2:{ exists d. split; [reflexivity|exact HR]. }
    destruct HL as (F1 & F2 & _). rewrite F1, F2.
    destruct (a_wr x). 2:{ exists d. split; [reflexivity|exact HR]. }
    destruct (write_R d a (a_raw x) t sec nsec it Hu HR) as (d' & v & E & HR' & Ho).
    rewrite E. cbn [bind]. rewrite Ho. exists d'. split; [reflexivity|exact HR'].
  - pose proof (R_lookup _ _ _ fid Hf) as HL.
    destruct (lookup fid (d_files d)) as [[fw fm fr]|], (alookup fid (a_files a)) as [[xw xm xr]|]; try contradiction.
    2:{ exists d. split; [reflexivity|exact HR]. }
    destruct HL as (F1 & F2 & HL). cbn in F1, F2, HL. subst xw xm.
    destruct fr as [r|], xr as [ar|]; try contradiction.
    2:{ exists d. split; [reflexivity|exact HR]. }
    unfold ulogger_poll. destruct (skip_foreign_R (d_log d) r ar euid Hok HL) as (r1 & E1 & HR1 & _). rewrite E1. cbn [bind].
    pose proof HR1 as (G1 & _). rewrite (repr_eqb _ _ _ G1).
    eexists. split; [cbn [snd render]; destruct (a_q (visible ar euid)); reflexivity|].
    cbn [fst]. apply R_put; [exact HR|]. split; [reflexivity|]. split; [reflexivity|]. exact HR1.
  - pose proof (R_lookup _ _ _ fid Hf) as HL.
    destruct (lookup fid (d_files d)) as [f|] eqn:El, (alookup fid (a_files a)) as [x|] eqn:Eal; try contradiction.
    2:{ exists d. split; [reflexivity|exact HR]. }
    destruct (ioctl_R d a fid f x c euid HR Hvs El Eal HL (vers_lookup _ _ _ Hvs Eal)) as (d' & v & E & HR' & ->).
    exists d'. split; [exact E|exact HR'].
Qed.

Lemma run_R : forall ops d a, Forall user_op ops -> R d a -> vers_ok a ->
  exists d', run d ops = Ok (d', map render (snd (arun a ops))) /\ R d' (fst (arun a ops)) /\ vers_ok (fst (arun a ops)).
Proof.
  induction ops as [|o ops IH]; intros d a Hu HR Hv.
  - exists d. cbn. auto.
  - inversion Hu; subst. destruct (step_R d a o H1 HR Hv) as (d1 & E1 & HR1).
    pose proof (vers_step a o Hv) as Hv1.
    cbn [run arun]. rewrite E1. cbn [bind].
    destruct (astep a o) as [a1 x] eqn:Ea. cbn [fst snd] in *.
    destruct (IH d1 a1 H2 HR1 Hv1) as (d2 & E2 & HR2 & Hv2). rewrite E2. cbn [bind].
    destruct (arun a1 ops) as [a2 xs]. cbn [fst snd map] in *. exists d2. auto.
Qed.

Lemma init_R : forall nm mem pow2, init_ok nm mem pow2 ->
  R (init_dev nm mem pow2) (init_adev nm pow2) /\ vers_ok (init_adev nm pow2).
Proof.
  intros nm mem pow2 (H1 & H2 & H3). split; [|constructor].
  assert (0 < 2 ^ pow2) by (apply Z.pow_pos_nonneg; lia).
  unfold R, init_dev, init_adev. cbn [d_log d_files size buffer w_off head dropped name a_cap a_name a_keep a_gone a_files].
  split.
  { split; [exists pow2; split; [assumption|reflexivity]|].
    cbn [size buffer w_off name]. repeat split; try assumption; lia. }
  split; [reflexivity|]. split; [reflexivity|].
  split.
  { unfold repr; cbn [size buffer w_off total fold_right].
    split; [lia|]. split; [lia|]. split; [unfold wrap; zcases; lia|].
    split; [reflexivity|constructor]. }
  split; [reflexivity|]. split; [lia|constructor].
Qed.

(** Any run of a new device behaves like the specification. *)
Lemma run_refines : forall nm mem pow2 ops, init_ok nm mem pow2 -> Forall user_op ops ->
  exists d, run (init_dev nm mem pow2) ops = Ok (d, map render (snd (arun (init_adev nm pow2) ops))) /\
            R d (fst (arun (init_adev nm pow2) ops)).
Proof.
  intros nm mem pow2 ops H Hu. destruct (init_R nm mem pow2 H) as [HR Hv].
  destruct (run_R ops _ _ Hu HR Hv) as (d & E & HR' & _). exists d. auto.
Qed.
