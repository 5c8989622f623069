(** Writers in raw mode and writers of the library on one device: what it has accepted (used for C136). *)
From Coq Require Import ZArith String List Bool Permutation Sorted Lia ZifyBool ZifyNat Arith.
From Verif Require Import Bytes BytesProofs Ring RingSpec RingHistory RingRefine RingLemmas RingObs Parse ParseSpec ParseProofs ParseE2E PropsParse Iov
  PropsRing Program ProgramSpec PropsProgram ScreenProofs UloggerRun PropsUloggerRun.
Import ListNotations.
Open Scope Z_scope.

Definition mfile (raw : bool) : file := mkFile true raw None.
Definition mfiles (fs : list (Z * bool)) : list (Z * file) := map (fun p => (fst p, mfile (snd p))) fs.
Definition agrees (fs : list (Z * bool)) (m : ledger) : Prop := forall f r, In (f, r) fs -> m_raw m f = r.
(** From [d] with the files [fs] the calls [ops] lead to [d'] with [fs'] and add the entries [es]. *)
Definition goes (d : dev) (fs : list (Z * bool)) (ops : list op) (d' : dev) (fs' : list (Z * bool)) (es : list entry) : Prop :=
  exists outs, run d ops = Ok (d', outs) /\ Forall user_op ops /\ reachable d' /\ d_files d' = mfiles fs' /\ NoDup (map fst fs') /\
    forall h m, map fst h = ops -> map (fun ev => RingSpec.render (snd ev)) h = outs -> agrees fs m ->
      agrees fs' (fold_left record h m) /\ m_acc (fold_left record h m) = m_acc m ++ es.

Lemma goes_nil d fs : reachable d -> d_files d = mfiles fs -> NoDup (map fst fs) -> goes d fs [] d fs [].
Proof.
  intros R F N. exists []. split; [reflexivity|]. split; [constructor|]. split; [exact R|]. split; [exact F|]. split; [exact N|].
  intros h m E _ A. destruct h; [|discriminate]. cbn. now rewrite app_nil_r.
Qed.
Lemma goes_app d fs a d1 fs1 e1 b d2 fs2 e2 : goes d fs a d1 fs1 e1 -> goes d1 fs1 b d2 fs2 e2 -> goes d fs (a ++ b) d2 fs2 (e1 ++ e2).
Proof.
  intros (o1 & R1 & U1 & _ & _ & _ & H1) (o2 & R2 & U2 & Q2 & F2 & N2 & H2). exists (o1 ++ o2). split; [exact (run_app _ _ _ _ _ _ _ R1 R2)|].
  split; [now apply Forall_app|]. split; [exact Q2|]. split; [exact F2|]. split; [exact N2|]. intros h m E1 E2 A.
  apply map_eq_app in E1 as (h1 & h2 & -> & E1 & E1'). rewrite map_app in E2.
  assert (LL : length (map (fun ev => RingSpec.render (snd ev)) h1) = length o1) by (rewrite map_length, (run_length _ _ _ _ R1), <- E1, map_length; reflexivity).
  destruct (app_split_len _ _ _ _ E2 LL) as [X Y]. rewrite fold_left_app. destruct (H1 h1 m E1 X A) as [A1 M1]. destruct (H2 h2 _ E1' Y A1) as [A2 M2].
  split; [exact A2|]. now rewrite M2, M1, app_assoc.
Qed.
Lemma goes_reach d fs a d1 fs1 e1 : goes d fs a d1 fs1 e1 -> reachable d1 /\ d_files d1 = mfiles fs1 /\ NoDup (map fst fs1).
Proof. intros (o1 & R1 & U1 & Q & F & N & H1). auto. Qed.

Lemma lookup_mfiles fs f r : NoDup (map fst fs) -> In (f, r) fs -> lookup f (mfiles fs) = Some (mfile r).
Proof.
  induction fs as [|[g x] fs IH]; intros N H; [destruct H|]. cbn [mfiles map lookup fst snd]. cbn [map fst] in N. inversion N as [|? ? N1 N2]; subst.
  destruct H as [H|H].
  - injection H as -> ->. now rewrite Z.eqb_refl.
  - destruct (Z.eqb_spec g f) as [->|]; [|now apply IH]. exfalso. apply N1. apply in_map_iff. exists (f, r). auto.
Qed.
Lemma lookup_none fs f : ~ In f (map fst fs) -> lookup f (mfiles fs) = None.
Proof.
  induction fs as [|[g x] fs IH]; intros H; cbn [mfiles map lookup fst snd]; [reflexivity|]. destruct (Z.eqb_spec g f) as [->|]; [exfalso; apply H; now left|].
  apply IH. intros X. apply H. now right.
Qed.
Lemma goes_open d fs fid : reachable d -> d_files d = mfiles fs -> NoDup (map fst fs) -> ~ In fid (map fst fs) ->
  exists d', goes d fs [OpOpen fid false true false false] d' (fs ++ [(fid, false)]) [].
Proof.
  intros R F N NI. exists (Ring.mkDev (d_log d) (mfiles (fs ++ [(fid, false)]))), [OutVal 0].
  assert (E : run d [OpOpen fid false true false false] = Ok (Ring.mkDev (d_log d) (mfiles (fs ++ [(fid, false)])), [OutVal 0])).
  { cbn [run step]. unfold ulogger_open. rewrite F, (lookup_none _ _ NI). cbn [andb bind d_log]. unfold mfiles. rewrite map_app. reflexivity. }
  split; [exact E|]. split; [repeat constructor|]. split.
  { destruct R as (nm & mem & pow2 & ops0 & outs0 & I & U & E0). exists nm, mem, pow2, (ops0 ++ [OpOpen fid false true false false]), (outs0 ++ [OutVal 0]).
    split; [exact I|]. split; [apply Forall_app; split; [exact U|repeat constructor]|]. exact (run_app _ _ _ _ _ _ _ E0 E). }
  split; [reflexivity|]. split.
  { rewrite map_app. cbn [map fst]. apply (Permutation_NoDup (Permutation_cons_append _ _)). now constructor. }
  intros h m E1 E2 A. destruct h as [|[o y] [|? ?]]; try discriminate. cbn [map fst snd] in *. injection E1 as ->. injection E2 as E2. apply val_of in E2. subst y.
  cbn [fold_left record m_acc]. split; [|now rewrite app_nil_r]. intros f r H. cbn [m_raw]. unfold RingHistory.set. apply in_app_or in H as [H|[H|[]]].
  - destruct (Z.eqb_spec f fid) as [->|]; [|now apply A]. exfalso. apply NI. apply in_map_iff. exists (fid, r). auto.
  - injection H as <- <-. now rewrite Z.eqb_refl.
Qed.
Lemma update_last fs fid f : ~ In fid (map fst fs) -> update fid f (mfiles (fs ++ [(fid, false)])) = mfiles fs ++ [(fid, f)].
Proof.
  induction fs as [|[g x] fs IH]; intros H; cbn [app mfiles map update fst snd].
  - now rewrite Z.eqb_refl.
  - destruct (Z.eqb_spec g fid) as [->|]; [exfalso; apply H; now left|]. f_equal. apply IH. intros X. apply H. now right.
Qed.
Lemma goes_raw d fs fid strict capable euid : reachable d -> d_files d = mfiles (fs ++ [(fid, false)]) -> NoDup (map fst (fs ++ [(fid, false)])) ->
  (strict = true -> capable = true) ->
  exists d', goes d (fs ++ [(fid, false)]) [OpIoctl fid (SetRawMode (Some 1) strict capable) euid] d' (fs ++ [(fid, true)]) [].
Proof.
  intros R F N S. exists (Ring.mkDev (d_log d) (mfiles (fs ++ [(fid, true)]))), [OutVal 0].
  assert (NI : ~ In fid (map fst fs)). { rewrite map_app in N. cbn [map fst] in N. apply NoDup_remove_2 in N. now rewrite app_nil_r in N. }
  assert (E : run d [OpIoctl fid (SetRawMode (Some 1) strict capable) euid] = Ok (Ring.mkDev (d_log d) (mfiles (fs ++ [(fid, true)])), [OutVal 0])).
  { cbn [run step]. rewrite F, (lookup_mfiles _ fid false N) by (apply in_or_app; right; now left). unfold ulogger_ioctl. cbn [f_write mfile negb].
    replace (strict && negb capable) with false by (destruct strict; [rewrite S by reflexivity|]; reflexivity).
    change (negb (1 =? 0) && negb (1 =? 1)) with false. cbv iota. cbn [bind f_reader mfile]. rewrite (update_last _ _ _ NI). unfold mfiles. rewrite map_app. reflexivity. }
  split; [exact E|]. split; [repeat constructor|]. split.
  { destruct R as (nm & mem & pow2 & ops0 & outs0 & I & U & E0). exists nm, mem, pow2, (ops0 ++ [OpIoctl fid (SetRawMode (Some 1) strict capable) euid]), (outs0 ++ [OutVal 0]).
    split; [exact I|]. split; [apply Forall_app; split; [exact U|repeat constructor]|]. exact (run_app _ _ _ _ _ _ _ E0 E). }
  split; [reflexivity|]. split. { rewrite map_app in *. exact N. }
  intros h m E1 E2 A. destruct h as [|[o y] [|? ?]]; try discriminate. cbn [map fst snd] in *. injection E1 as ->. injection E2 as E2. apply val_of in E2. subst y.
  cbn [fold_left record m_acc]. split; [|now rewrite app_nil_r]. intros f r H. cbn [m_raw]. unfold RingHistory.set. apply in_app_or in H as [H|[H|[]]].
  - destruct (Z.eqb_spec f fid) as [->|]; [|apply A; apply in_or_app; auto]. exfalso. apply NI. apply in_map_iff. exists (fid, r). auto.
  - injection H as <- <-. now rewrite Z.eqb_refl.
Qed.
Lemma fix_up_mfiles l old new len fs : fix_up_files l old new len (mfiles fs) = Ok (mfiles fs).
Proof. induction fs as [|p fs IH]; cbn [mfiles map fix_up_files]; [reflexivity|]. fold (mfiles fs). rewrite IH. reflexivity. Qed.
Lemma write_mfiles d fs fid t sec nsec it d' x : d_files d = mfiles fs -> step d (OpWrite fid t sec nsec it) = Ok (d', x) -> d_files d' = mfiles fs.
Proof.
  intros F. cbn [step]. destruct (lookup fid (d_files d)) as [f|]; [|congruence]. destruct (f_write f); [|congruence].
  destruct (ulogger_write_iter d (f_raw f) t sec nsec it) as [[d1 v]|] eqn:E; [|discriminate]. cbn [bind]. intros [= <- _]. revert E.
  unfold ulogger_write_iter. destruct (f_raw f && _); [congruence|].
  match goal with |- (if ?b then _ else _) = _ -> _ => destruct b; [congruence|] end.
  match goal with |- bind ?m _ = _ -> _ => destruct m as [d0|] eqn:E0; [|discriminate] end. cbn [bind].
  assert (F0 : d_files d0 = mfiles fs).
  { unfold fix_up_readers in E0. rewrite F in E0. match type of E0 with bind ?m _ = _ => destruct m as [l'|]; [|discriminate] end.
    cbn [bind] in E0. rewrite fix_up_mfiles in E0. cbn [bind] in E0. assert (d0 = Ring.mkDev l' (mfiles fs)) by congruence. now subst. }
  match goal with |- bind ?m _ = _ -> _ => destruct m as [[l2 s1]|]; [|discriminate] end. cbn [bind].
  match goal with |- bind ?m _ = _ -> _ => destruct m as [[l3 r]|]; [|discriminate] end. cbn [bind].
  destruct r; intros [= <- _]; exact F0.
Qed.

(** A write. *)
Lemma goes_write d fs fid raw t sec nsec v : reachable d -> d_files d = mfiles fs -> NoDup (map fst fs) -> In (fid, raw) fs ->
  (raw = true -> 20 <= zlen (concat v)) -> zlen (e_payload (requested raw t sec nsec (iovec v))) <> 0 ->
  exists d', goes d fs [OpWrite fid t sec nsec (iovec v)] d' fs [requested raw t sec nsec (iovec v)].
Proof.
  intros R F N I L NZ.
  assert (U : user_op (OpWrite fid t sec nsec (iovec v))) by (apply readable_user, iovec_readable).
  destruct (reachable_R d R) as (a0 & m0 & HR0 & Hv0 & _). destruct (step_R d a0 _ U HR0 Hv0) as (d1 & E & _).
  match type of E with _ = Ok (_, ?y) => set (x := y) in *; clearbody x end.
  assert (LK : lookup fid (d_files d) = Some (mfile raw)) by (rewrite F; now apply lookup_mfiles).
  assert (LB : f_raw (mfile raw) = true -> 20 <= zlen (iter_bytes (iovec v))) by (intros X; rewrite iovec_bytes; apply L; exact X).
  destruct (C12_write_succeeds _ _ _ _ _ _ _ _ _ R (iovec_readable _) LK eq_refl LB E) as (n & -> & NN).
  exists d1, [OutVal n]. split; [cbn [run]; rewrite E; reflexivity|]. split; [repeat constructor; exact U|]. split; [exact (reachable_step _ _ _ _ R U E)|].
  split; [exact (write_mfiles _ _ _ _ _ _ _ _ _ F E)|]. split; [exact N|].
  intros h m E1 E2 A. destruct h as [|[o y] [|? ?]]; try discriminate. cbn [map fst snd] in *. injection E1 as ->. injection E2 as E2. apply val_of in E2. subst y.
  cbn [fold_left record]. rewrite (A _ _ I). destruct (Z.eqb_spec (zlen (e_payload (requested raw t sec nsec (iovec v)))) 0) as [Z0|_]; [contradiction|].
  split; [exact A|reflexivity].
Qed.
(** Reading the whole: the entries of a run on a new device. *)
Lemma goes_ledger nm mem pow2 ops d fs es : goes (init_dev nm mem pow2) [] ops d fs es ->
  exists outs, run (init_dev nm mem pow2) ops = Ok (d, outs) /\ Forall user_op ops /\
  forall h, map fst h = ops -> map (fun ev => render (snd ev)) h = outs -> m_acc (ledger_of h) = es.
Proof.
  intros (outs & R & U & _ & _ & _ & H). exists outs. split; [exact R|]. split; [exact U|]. intros h E1 E2.
  destruct (H h ledger0 E1 E2) as [_ X]; [intros f r []|]. exact X.
Qed.
(** ulogcat can be started on it. *)
Lemma goes_added d fs rfid all uid : reachable d -> d_files d = mfiles fs -> ~ In rfid (map fst fs) ->
  exists node mark, Live.add_ulog_device d rfid all uid = Ok (Some (node, mark)).
Proof.
  intros R F N. unfold Live.add_ulog_device. cbn [step]. unfold ulogger_open. rewrite F, (lookup_none _ _ N).
  cbn [andb bind]. unfold ulogger_ioctl. cbn [d_files d_log].
  assert (L : forall x, lookup rfid (mfiles fs ++ [(rfid, x)]) = Some x).
  { intros x. clear F. induction fs as [|p fs IH]; cbn [mfiles map app lookup]; [now rewrite Z.eqb_refl|]. fold (mfiles fs).
    destruct p as [p r]. cbn [fst snd]. cbn [map fst] in N. destruct (Z.eqb_spec p rfid) as [->|]; [exfalso; apply N; now left|]. apply IH; intros X; apply N; now right. }
  rewrite L. cbn [f_reader bind].
  destruct (reachable_R d R) as (a & m & (R1 & R2 & R3 & R4 & R5 & R6 & R7) & _).
  set (rd := mkReader (head (d_log d)) all 2 (dropped (d_log d))). set (ar := mkAReader (a_keep a) (a_gone a) all 2).
  assert (RR : R_reader (d_log d) rd ar) by (split; [exact R4|]; split; [exact R5|]; split; [exact R6|]; split; reflexivity).
  rewrite (get_log_len_R _ _ _ R1 RR). pose proof (total_nonneg (a_q ar)). unfold ret_out.
  destruct (Z.ltb_spec (RingSpec.total (a_q ar)) 0); [lia|]. eauto.
Qed.
