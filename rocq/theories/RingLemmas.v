(** Lemmas behind the theorems of PropsRing.v. *)
From Coq Require Import ZArith String List Bool Lia ZifyBool ZifyNat.
From Verif Require Import Bytes BytesProofs Ring RingSpec RingProofs RingRefine RingHistory RingInv RingObs.
Import ListNotations.
Open Scope Z_scope.

Lemma always_imp : forall (P Q : ledger -> op -> aout -> Prop) h,
  (forall m o x, P m o x -> Q m o x) -> always P h -> always Q h.
Proof. intros P Q h H HP pre o x post E. apply H. eapply HP. exact E. Qed.

Lemma history_always : forall (Q : ledger -> op -> aout -> Prop) nm mem pow2 ops,
  init_ok nm mem pow2 -> Forall user_op ops ->
  (forall m o x, good_event m nm o x -> Q m o x) ->
  exists h d, explains h nm mem pow2 ops d /\ always Q h.
Proof.
  intros Q nm mem pow2 ops Hi Hu HQ.
  destruct (history_good nm mem pow2 ops Hi Hu) as (h & d & a & H1 & _ & _ & _ & _ & _ & H2).
  exists h, d. split; [exact H1|]. eapply always_imp; [|exact H2]. exact HQ.
Qed.

(** ** Steps of reachable devices *)

Lemma reach_step : forall d o d' x, reachable d -> user_op o -> step d o = Ok (d', x) ->
  exists a, R d a /\ vers_ok a /\ R d' (fst (astep a o)) /\ vers_ok (fst (astep a o)) /\
            x = render (snd (astep a o)).
Proof.
  intros d o d' x Hr Hu E. destruct (reachable_R d Hr) as (a & m & HR & Hv & _).
  destruct (step_R d a o Hu HR Hv) as (d2 & E2 & HR2). rewrite E in E2. injection E2 as <- ->.
  exists a. repeat split; try assumption; try apply HR; try apply HR2. apply vers_step. exact Hv.
Qed.

Lemma R_files_ids : forall l fs xs fid, R_files l fs xs ->
  (lookup fid fs = None <-> alookup fid xs = None).
Proof.
  intros l fs xs fid H. pose proof (R_lookup l fs xs fid H).
  destruct (lookup fid fs), (alookup fid xs); split; intros; try discriminate; try contradiction; reflexivity.
Qed.

(** ** C03 *)

Lemma by_uid_idem : forall fuel fuel' l off euid off', (0 < fuel')%nat ->
  get_next_entry_by_uid fuel l off euid = Ok off' ->
  get_next_entry_by_uid fuel' l off' euid = Ok off'.
Proof.
  induction fuel as [|f IH]; intros fuel' l off euid off' Hf H; cbn [get_next_entry_by_uid] in H.
  - destruct (off =? w_off l) eqn:E; [|discriminate]. injection H as <-.
    destruct fuel'; cbn; rewrite E; reflexivity.
  - destruct (off =? w_off l) eqn:E.
    + injection H as <-. destruct fuel'; cbn; rewrite E; reflexivity.
    + destruct (get_entry_header l off) as [h|] eqn:Eh; cbn [bind] in H; [|discriminate].
      destruct (h_euid h =? u32 euid) eqn:Eu; [|eapply IH; eassumption].
      injection H as <-. destruct fuel' as [|f']; [lia|]. cbn [get_next_entry_by_uid]. rewrite E, Eh. cbn [bind]. rewrite Eu. reflexivity.
Qed.

Lemma skip_foreign_idem : forall l r euid r', 0 < size l -> skip_foreign l r euid = Ok r' ->
  skip_foreign l r' euid = Ok r' /\ (r_all r = true -> r' = r).
Proof.
  intros l r euid r' Hs H. unfold skip_foreign in *. destruct (r_all r) eqn:E.
  - injection H as <-. rewrite E. auto.
  - destruct (get_next_entry_by_uid (scan_fuel l) l (r_off r) euid) as [off|] eqn:En; cbn [bind] in H; [|discriminate].
    injection H as <-. cbn [set_r_off r_all r_off]. rewrite E.
    rewrite (by_uid_idem _ (scan_fuel l) _ _ _ _ ltac:(unfold scan_fuel; lia) En). cbn [bind].
    split; [reflexivity|discriminate].
Qed.

Lemma do_read_drop_err : forall l r count valid r' e,
  do_read_drop_summary l r count valid = Ok (r', RErr e) -> r' = r.
Proof.
  intros l r count valid r' e H. unfold do_read_drop_summary in H.
  destruct (get_entry_header l (r_off r)); cbn [bind] in H; [|discriminate].
  repeat match type of H with context [if ?b then _ else _] => destruct b end; congruence.
Qed.

Lemma do_read_log_err : forall l r count valid r' e,
  do_read_log_to_user l r count valid = Ok (r', RErr e) -> r' = r.
Proof.
  intros l r count valid r' e H. unfold do_read_log_to_user in H.
  destruct (get_entry_header l (r_off r)); cbn [bind] in H; [|discriminate].
  destruct (negb (user_ok valid 0 (get_user_hdr_len (r_ver r)))); [congruence|].
  destruct (mem_read _ _ _); cbn [bind] in H; [|discriminate].
  destruct (negb (user_ok _ _ _)); [congruence|].
  destruct (if _ =? _ then _ else _); cbn [bind] in H; [|discriminate].
  destruct (_ && _); congruence.
Qed.

Lemma read_body_err : forall l r euid count valid r' e, 0 < size l ->
  ulogger_read_body l r euid count valid = Ok (r', Some (RErr e)) ->
  skip_foreign l r euid = Ok r' /\ skip_foreign l r' euid = Ok r' /\ (r_all r = true -> r' = r).
Proof.
  intros l r euid count valid r' e Hs H. unfold ulogger_read_body in H.
  destruct (skip_foreign l r euid) as [r1|] eqn:E; cbn [bind] in H; [|discriminate].
  assert (r' = r1) as ->.
  { destruct (w_off l =? r_off r1); [discriminate|].
    destruct (r_dropped r1 >? 0).
    - destruct (do_read_drop_summary l r1 count valid) as [[r2 x]|] eqn:Ed; cbn [bind] in H; [|discriminate].
      injection H as -> ->. eapply do_read_drop_err; eassumption.
    - destruct (get_entry_msg_len l (r_off r1)) as [ml|]; cbn [bind] in H; [|discriminate].
      destruct (count <? get_user_hdr_len (r_ver r1) + ml); [congruence|].
      destruct (do_read_log_to_user l r1 _ valid) as [[r2 x]|] eqn:Ed; cbn [bind] in H; [|discriminate].
      injection H as -> ->. eapply do_read_log_err; eassumption. }
  split; [reflexivity|]. eapply skip_foreign_idem; eassumption.
Qed.

Lemma update_update : forall fs fid f g, update fid g (update fid f fs) = update fid g fs.
Proof.
  induction fs as [|[i h] fs IH]; intros fid f g; cbn; [reflexivity|].
  destruct (i =? fid) eqn:E; cbn; rewrite E; [reflexivity|]. f_equal. apply IH.
Qed.

Lemma lookup_update : forall fs fid f g, lookup fid fs = Some g -> lookup fid (update fid f fs) = Some f.
Proof.
  induction fs as [|[i h] fs IH]; intros fid f g H; cbn in *; [discriminate|].
  destruct (i =? fid) eqn:E; cbn; rewrite E; [reflexivity|]. eapply IH; eassumption.
Qed.

Lemma read_err_step : forall d fid euid count valid d' e, 0 < size (d_log d) ->
  step d (OpReadBody fid euid count valid) = Ok (d', OutErr e) ->
  (forall count2 valid2, step d' (OpReadBody fid euid count2 valid2) = step d (OpReadBody fid euid count2 valid2)) /\
  (unrestricted d fid -> d' = d).
Proof.
  intros d fid euid count valid d' e Hs H. unfold step in H.
  destruct (lookup fid (d_files d)) as [[w m [r|]]|] eqn:El; try discriminate.
  destruct (ulogger_read_body (d_log d) r euid count valid) as [[r' x]|] eqn:Eb; cbn [bind] in H; [|discriminate].
  injection H as <- Hx. destruct x as [[e'|]|]; try discriminate. injection Hx as ->.
  destruct (read_body_err _ _ _ _ _ _ _ Hs Eb) as (S1 & S2 & S3). split.
  - intros c2 v2. unfold step. cbn [d_files d_log]. rewrite (lookup_update _ _ _ _ El), El.
    unfold ulogger_read_body. rewrite S1, S2. cbn [bind].
    destruct (if w_off (d_log d) =? r_off r' then _ else _) as [[r2 x2]|]; cbn [bind]; [|reflexivity].
    rewrite update_update. reflexivity.
  - intros (r0 & E1 & E2). unfold reader_of in E1. rewrite El in E1. cbn in E1. injection E1 as ->.
    rewrite (S3 E2). rewrite update_same by exact El. destruct d; reflexivity.
Qed.

Lemma reachable_size : forall d, reachable d -> 16384 <= size (d_log d).
Proof.
  intros d H. destruct (reachable_R d H) as (a & m & (((k & Hk & ->) & _) & _) & _).
  replace 16384 with (2 ^ 14) by reflexivity. apply Z.pow_le_mono_r; lia.
Qed.

Lemma read_err_codes : forall d fid euid count valid d' e, reachable d ->
  step d (OpReadBody fid euid count valid) = Ok (d', OutErr e) -> e = EINVAL \/ e = EFAULT.
Proof.
  intros d fid euid count valid d' e Hr E.
  destruct (reach_step d (OpReadBody fid euid count valid) d' _ Hr I E) as (a & _ & _ & _ & _ & Hx). cbn [astep] in Hx.
  destruct (alookup fid (a_files a)) as [[w m [r|]]|]; try discriminate.
  unfold aread in Hx. destruct (a_q (visible r euid)); [discriminate|].
  destruct (a_lost (visible r euid) >? 0);
  repeat match type of Hx with context [if ?b then _ else _] => destruct b end;
  cbn in Hx; inversion Hx; auto.
Qed.

Lemma read_check_state : forall d fid nb sg d' x, step d (OpReadCheck fid nb sg) = Ok (d', x) -> d' = d.
Proof.
  intros d fid nb sg d' x H. unfold step in H.
  destruct (lookup fid (d_files d)) as [[w m [r|]]|]; congruence.
Qed.

(** ** Making room *)

Lemma total_firstn : forall q k, total (firstn k q) <= total q.
Proof.
  intros q k. rewrite <- (firstn_skipn k q) at 2. rewrite total_app.
  pose proof (total_nonneg (skipn k q)). lia.
Qed.

Lemma drop_oldest_min : forall q need, 0 < need <= total q ->
  exists k, drop_oldest need q = (skipn k q, Z.of_nat k) /\ (0 < k <= length q)%nat /\
    total (firstn (k - 1) q) < need <= total (firstn k q).
Proof.
  induction q as [|e q IH]; intros need H.
  - cbn in H. lia.
  - rewrite total_cons in H. cbn [drop_oldest]. destruct (Z.ltb_spec (esize e) need) as [Hl|Hl].
    + destruct (IH (need - esize e) ltac:(lia)) as (k & E & Hk & Hm). rewrite E.
      exists (S k). split; [apply f_equal2; [reflexivity|lia]|]. split; [cbn [length]; lia|].
      destruct k as [|k]; [lia|].
      replace (S (S k) - 1)%nat with (S k) by lia. replace (S k - 1)%nat with k in Hm by lia.
      rewrite !firstn_cons, !total_cons. lia.
    + exists 1%nat. split; [reflexivity|]. cbn [length Nat.sub firstn]. split; [lia|].
      rewrite total_cons. change (total []) with 0. lia.
Qed.

Lemma make_room_min : forall cap need q, 0 < need -> need + need <= cap ->
  exists k, make_room cap need q = (skipn k q, Z.of_nat k) /\ minimal_loss cap need q k.
Proof.
  intros cap need q H1 H2. unfold make_room. destruct (Z.ltb_spec (total q + need) cap) as [Hl|Hl].
  - exists 0%nat. split; [reflexivity|]. split; [reflexivity|lia].
  - destruct (drop_oldest_min q need ltac:(lia)) as (k & E & Hk & Hm).
    exists k. split; [exact E|]. split; [lia|]. intros _. split; assumption.
Qed.

(** ** Writes *)

Lemma zlen_ztake_le : forall (l : list Z) n, zlen (ztake n l) <= Z.max 0 n.
Proof. intros. rewrite zlen_ztake. lia. Qed.

Lemma requested_wf : forall raw t sec nsec it, raw && (zlen (iter_bytes it) <? 20) = false ->
  wf_entry (requested raw t sec nsec it).
Proof.
  intros raw t sec nsec it H. unfold requested. destruct raw; split; cbn [e_meta e_payload].
  - rewrite zlen_ztake. cbn in H. lia.
  - pose proof (zlen_ztake_le (zdrop 20 (iter_bytes it)) 4076). lia.
  - unfold meta_of. rewrite !zlen_app, !zlen_le. reflexivity.
  - pose proof (zlen_ztake_le (names t ++ iter_bytes it) 4076). lia.
Qed.

(** What a reader gets, on the abstract device. *)
Definition agets (a : adev) (fid : Z) : option (Z * list entry) :=
  match alookup fid (a_files a) with
  | None => Some (a_gone a, a_keep a)
  | Some f => match a_rd f with
              | None => None
              | Some r => if a_all r then Some (a_lost r, a_q r) else None
              end
  end.

Lemma agets_R : forall d a fid n q, R d a -> vers_ok a -> agets a fid = Some (n, q) -> would_get d fid n q.
Proof.
  intros d a fid n q HR Hv H. unfold agets in H. unfold would_get.
  pose proof HR as (_ & _ & _ & _ & _ & _ & Hf). pose proof (R_lookup _ _ _ fid Hf) as HL.
  destruct (lookup fid (d_files d)) as [f|] eqn:El; destruct (alookup fid (a_files a)) as [x|] eqn:Ea; try contradiction.
  - destruct (a_rd x) as [r|] eqn:Er; [|discriminate]. destruct (a_all r) eqn:Eall; [|discriminate].
    injection H as <- <-. eapply owes_R; eassumption.
  - injection H as <- <-.
    pose proof (step_R d a (OpOpen fid true false true false) I HR Hv) as (d1 & E1 & HR1).
    pose proof (vers_step a (OpOpen fid true false true false) Hv) as Hv1.
    cbn [astep] in *. rewrite Ea in *. cbn [andb fst snd render] in *.
    exists d1. split; [exact E1|].
    apply (owes_R d1 _ fid (mkAFile false false (Some (mkAReader (a_keep a) (a_gone a) true 2)))
             (mkAReader (a_keep a) (a_gone a) true 2) HR1 Hv1); [|reflexivity|reflexivity].
    cbn [a_files]. rewrite alookup_app, Ea. cbn. rewrite Z.eqb_refl. reflexivity.
Qed.

Lemma agets_some : forall d a fid, R d a -> (lookup fid (d_files d) = None \/ unrestricted d fid) ->
  exists n q, agets a fid = Some (n, q).
Proof.
  intros d a fid HR [H|H]; unfold agets.
  - pose proof HR as (_ & _ & _ & _ & _ & _ & Hf). rewrite (proj1 (R_files_ids _ _ _ fid Hf) H). eauto.
  - destruct (unrestricted_R d a fid HR H) as (f & ar & -> & -> & ->). eauto.
Qed.

Lemma agets_make_room : forall a fid n q need keep n0, 0 < need -> need + need <= a_cap a ->
  make_room (a_cap a) need (a_keep a) = (keep, n0) -> agets a fid = Some (n, q) ->
  exists k, minimal_loss (a_cap a) need q k /\
   agets (mkADev (a_cap a) (a_name a) keep (a_gone a + n0) (on_files (amake_room (a_cap a) need) (a_files a))) fid
   = Some (n + Z.of_nat k, skipn k q).
Proof.
  intros a fid n q need keep n0 H1 H2 Ek H. unfold agets in *. cbn [a_files a_gone a_keep].
  rewrite alookup_on_files. destruct (alookup fid (a_files a)) as [f|]; cbn [option_map].
  - unfold amake_room. destruct (a_rd f) as [r|] eqn:Er; [|rewrite Er in *; discriminate].
    destruct (a_all r) eqn:Ea; [|discriminate]. injection H as <- <-.
    destruct (make_room_min (a_cap a) need (a_q r) H1 H2) as (k & E & Hk). rewrite E.
    exists k. split; [exact Hk|]. reflexivity.
  - injection H as <- <-. destruct (make_room_min (a_cap a) need (a_keep a) H1 H2) as (k & E & Hk).
    rewrite E in Ek. injection Ek as <- <-. exists k. auto.
Qed.

Lemma agets_append : forall a fid n q e, agets a fid = Some (n, q) ->
  agets (mkADev (a_cap a) (a_name a) (a_keep a ++ [e]) (a_gone a) (on_files (aappend e) (a_files a))) fid
  = Some (n, q ++ [e]).
Proof.
  intros a fid n q e H. unfold agets in *. cbn [a_files a_gone a_keep]. rewrite alookup_on_files.
  destruct (alookup fid (a_files a)) as [f|]; cbn [option_map]; [|injection H as <- <-; reflexivity].
  unfold aappend. destruct (a_rd f) as [r|] eqn:Er; [|rewrite Er in *; discriminate].
  cbn. destruct (a_all r); [|discriminate]. injection H as <- <-. reflexivity.
Qed.

Lemma R_cap : forall d a, R d a -> a_cap a = size (d_log d) /\ 16384 <= a_cap a.
Proof.
  intros d a (((k & Hk & Ek) & _) & <- & _). split; [reflexivity|]. rewrite Ek.
  replace 16384 with (2 ^ 14) by reflexivity. apply Z.pow_le_mono_r; lia.
Qed.

(** The effect of a write, failed or not, on what anybody gets. *)
Lemma write_effect : forall d fid t sec nsec it d' x f, reachable d -> user_iter it ->
  lookup fid (d_files d) = Some f -> f_write f = true ->
  step d (OpWrite fid t sec nsec it) = Ok (d', x) ->
  let raw := f_raw f in let e := requested raw t sec nsec it in
  (raw = true /\ zlen (iter_bytes it) < 20 /\ x = OutErr EINVAL /\ indistinguishable d d') \/
  (e_payload e = [] /\ x = OutVal 0 /\ indistinguishable d d') \/
  (e_payload e <> [] /\ iter_fault it (accepted raw t it) = false /\ x = OutVal (accepted raw t it) /\
   forall fid2, (lookup fid2 (d_files d) = None \/ unrestricted d fid2) ->
   exists n q k, would_get d fid2 n q /\ minimal_loss (size (d_log d)) (esize e) q k /\
                 would_get d' fid2 (n + Z.of_nat k) (skipn k q ++ [e])) \/
  (e_payload e <> [] /\ iter_fault it (accepted raw t it) = true /\ x = OutErr EFAULT /\
   forall fid2, (lookup fid2 (d_files d) = None \/ unrestricted d fid2) ->
   exists n q k, would_get d fid2 n q /\ minimal_loss (size (d_log d)) (esize e) q k /\
                 would_get d' fid2 (n + Z.of_nat k) (skipn k q)).
Proof.
  intros d fid t sec nsec it d' x f Hr Hu El Hw E raw e.
  destruct (reach_step d (OpWrite fid t sec nsec it) d' x Hr Hu E) as (a & HR & Hv & HR' & Hv' & Hx).
  pose proof HR as (_ & _ & _ & _ & _ & _ & Hf). pose proof (R_lookup _ _ _ fid Hf) as HL. rewrite El in HL.
  cbn [astep] in *. destruct (alookup fid (a_files a)) as [af|] eqn:Ea; [|contradiction].
  destruct HL as (Hw' & Hraw & _). rewrite <- Hw', Hw, <- Hraw in *. fold raw in HR', Hv', Hx.
  unfold awrite in *. destruct (raw && (zlen (iter_bytes it) <? 20)) eqn:E20.
  { left. apply andb_prop in E20. destruct E20 as [-> E20]. cbn [fst snd render] in *.
    repeat split; [lia|exact Hx|]. eapply R_indistinguishable; eassumption. }
  right. fold e in HR', Hv', Hx. destruct (zlen (e_payload e) =? 0) eqn:E0.
  { left. cbn [fst snd render] in *. split; [apply zlen_zero_nil; lia|]. split; [exact Hx|].
    eapply R_indistinguishable; eassumption. }
  right. assert (Hne : e_payload e <> []). { intros H. rewrite H in E0. discriminate. }
  destruct (R_cap d a HR) as [Hcap Hc]. pose proof (requested_wf raw t sec nsec it E20) as Hwf. fold e in Hwf.
  pose proof (esize_max e Hwf). pose proof (esize_pos e).
  destruct (make_room (a_cap a) (esize e) (a_keep a)) as [keep n0] eqn:Ek.
  assert (HG : forall fid2, (lookup fid2 (d_files d) = None \/ unrestricted d fid2) ->
     exists n q k, would_get d fid2 n q /\ minimal_loss (size (d_log d)) (esize e) q k /\
       agets (mkADev (a_cap a) (a_name a) keep (a_gone a + n0)
                (on_files (amake_room (a_cap a) (esize e)) (a_files a))) fid2 = Some (n + Z.of_nat k, skipn k q)).
  { intros fid2 H2. destruct (agets_some d a fid2 HR H2) as (n & q & Hg).
    destruct (agets_make_room a fid2 n q (esize e) keep n0 ltac:(lia) ltac:(lia) Ek Hg) as (k & Hk & Hg').
    exists n, q, k. rewrite <- Hcap. split; [eapply agets_R; eassumption|]. split; [exact Hk|exact Hg']. }
  destruct (iter_fault it (accepted raw t it)) eqn:Ef; cbn [fst snd render] in *; [right|left];
  (split; [exact Hne|]); (split; [reflexivity|]); (split; [exact Hx|]); intros fid2 H2;
  destruct (HG fid2 H2) as (n & q & k & A & B & C); exists n, q, k; (split; [exact A|]); (split; [exact B|]);
  eapply agets_R; try eassumption.
  apply (agets_append _ _ _ _ e) in C. exact C.
Qed.

Lemma readable_nofault : forall it n, readable it -> iter_fault it n = false.
Proof.
  assert (L : forall segs n, Forall (fun s => zlen (s_data s) <= s_valid s) segs -> segs_fault segs n = false).
  { induction segs as [|s segs IH]; intros n H; cbn [segs_fault]; [reflexivity|]. inversion H; subst.
    rewrite IH by assumption. rewrite orb_false_r. lia. }
  intros it n H. destruct it as [segs|s|]; cbn in *; [apply L; assumption| |contradiction].
  rewrite orb_false_r. lia.
Qed.

Lemma readable_user : forall it, readable it -> user_iter it.
Proof. intros [ | | ] H; cbn in *; auto. Qed.

Lemma split_irrelevant : forall d fid t sec nsec it1 it2 d1 d2 x1 x2, reachable d ->
  readable it1 -> readable it2 -> iter_bytes it1 = iter_bytes it2 ->
  step d (OpWrite fid t sec nsec it1) = Ok (d1, x1) ->
  step d (OpWrite fid t sec nsec it2) = Ok (d2, x2) -> x1 = x2 /\ indistinguishable d1 d2.
Proof.
  intros d fid t sec nsec it1 it2 d1 d2 x1 x2 Hr H1 H2 Hb E1 E2.
  destruct (reachable_R d Hr) as (a & m & HR & Hv & _).
  destruct (step_R d a (OpWrite fid t sec nsec it1) (readable_user _ H1) HR Hv) as (d1' & E1' & R1).
  destruct (step_R d a (OpWrite fid t sec nsec it2) (readable_user _ H2) HR Hv) as (d2' & E2' & R2).
  rewrite E1 in E1'. rewrite E2 in E2'.
  assert (Heq : astep a (OpWrite fid t sec nsec it1) = astep a (OpWrite fid t sec nsec it2)).
  { cbn [astep]. destruct (alookup fid (a_files a)) as [f|]; [|reflexivity].
    destruct (a_wr f); [|reflexivity]. unfold awrite, requested, accepted.
    rewrite !readable_nofault by assumption. rewrite Hb. reflexivity. }
  rewrite Heq in *. split; [congruence|]. assert (d1' = d1) as -> by congruence.
  assert (d2' = d2) as -> by congruence. eapply R_indistinguishable; try eassumption.
  apply vers_step. exact Hv.
Qed.
