(** Lemmas for C107: the reader among other processes. *)
From Coq Require Import ZArith String List Bool Lia ZifyBool ZifyNat Arith.
From Verif Require Import Bytes BytesProofs Ring RingSpec RingHistory RingRefine RingInv RingObs RingLemmas Parse ParseSpec ParseProofs ParseE2E PropsParse Iov
  Cat CatSpec CatProofs Render Live LiveSpec LiveProofs LiveDump LiveText SaidSpec PropsSaid FollowSpec FollowProofs Busy BusySpec.
Import ListNotations.
Open Scope Z_scope.

Lemma run_snoc : forall ops d o d1 outs d2 x, run d ops = Ok (d1, outs) -> step d1 o = Ok (d2, x) ->
  run d (ops ++ [o]) = Ok (d2, outs ++ [x]).
Proof.
  induction ops as [|p ops IH]; intros d o d1 outs d2 x H1 H2; cbn in *.
  - injection H1 as -> <-. rewrite H2. reflexivity.
  - destruct (step d p) as [[d3 y]|]; cbn in *; [|discriminate].
    destruct (run d3 ops) as [[d4 ys]|] eqn:E; cbn in *; [|discriminate].
    injection H1 as -> <-. rewrite (IH _ _ _ _ _ _ E H2). reflexivity.
Qed.

Lemma counted_app (a b : list (said * bool)) : filter snd (a ++ b) = filter snd a ++ filter snd b.
Proof. apply filter_app. Qed.
Lemma counted_true (q : list said) : zlen (filter snd (map (fun m => (m, true)) q)) = zlen q.
Proof. induction q as [|m q IH]; [reflexivity|]. cbn [map filter snd]. rewrite !zlen_cons, IH. reflexivity. Qed.
Lemma counted_false (q : list said) : filter snd (map (fun m => (m, false)) q) = [].
Proof. induction q as [|m q IH]; [reflexivity|exact IH]. Qed.
Lemma fst_flag (b : bool) (q : list said) : map fst (map (fun m => (m, b)) q) = q.
Proof. rewrite map_map. apply map_id. Qed.

Section Dev.
Variables (uid : Z) (all : bool) (nm : list Z) (fid : Z) (tl0 : list (option said)).
Definition vis (m : said) : bool := all || (t_euid (s_task m) mod 2 ^ 32 =? uid mod 2 ^ 32).

(** What can be unread when nothing is left to read. *)
Definition stuck (tl : list (option said)) (gap : list (said * bool)) : Prop :=
  gap = [] \/ (exists g0 m, gap = g0 ++ [(m, false)]) \/ tl = tl0.
(** How many reads will give something. *)
Definition wt (gap : list (said * bool)) (q : list said) : nat :=
  match filter vis q with
  | [] => O
  | v => length v + match filter snd gap with [] => 0 | _ => 1 end
  end.

(** A state of the driver with our reader: what happened is [tl]; the reader was told about
    [told]; [gap] was lost or skipped since; [q] is still to be read. *)
Record K (a : RingSpec.adev) (tl told : list (option said)) (gap : list (said * bool)) (q : list said) : Prop := {
  k_raw : Forall (fun p => a_raw (snd p) = false) (a_files a);
  k_rd : exists w m r, alookup fid (a_files a) = Some (mkAFile w m (Some r)) /\ a_ver r = 2 /\ a_all r = all /\
           a_q r = map entry_said q /\ a_lost r = zlen (filter snd gap);
  k_name : a_name a = nm;
  k_tl : tl = told ++ map Some (map fst gap ++ q);
  k_gap : forall m, In (m, false) gap -> vis m = false;
  k_say : Forall sayable q;
  k_last : q = [] -> stuck tl gap }.

Lemma raw_update fs f x : Forall (fun p : Z * afile => a_raw (snd p) = false) fs -> a_raw x = false ->
  Forall (fun p => a_raw (snd p) = false) (aupdate f x fs).
Proof.
  intros H Hx. induction fs as [|[k y] fs IH]; cbn; [constructor|]. inversion H; subst.
  destruct (k =? f); constructor; auto.
Qed.
Lemma raw_remove fs f : Forall (fun p : Z * afile => a_raw (snd p) = false) fs ->
  Forall (fun p => a_raw (snd p) = false) (aremove f fs).
Proof.
  intros H. induction fs as [|[k y] fs IH]; cbn; [constructor|]. inversion H; subst.
  destruct (k =? f); [auto|]. constructor; auto.
Qed.
Lemma raw_lookup fs f x : Forall (fun p : Z * afile => a_raw (snd p) = false) fs -> alookup f fs = Some x -> a_raw x = false.
Proof.
  intros H. induction fs as [|[k y] fs IH]; cbn; [discriminate|]. inversion H; subst.
  destruct (k =? f); [intros [= <-]; assumption|auto].
Qed.
Lemma raw_on g fs : (forall x, a_raw (g x) = a_raw x) -> Forall (fun p : Z * afile => a_raw (snd p) = false) fs ->
  Forall (fun p => a_raw (snd p) = false) (on_files g fs).
Proof. intros G H. unfold on_files. rewrite Forall_map. eapply Forall_impl; [|exact H]. cbn. intros p. now rewrite G. Qed.
Lemma remove_other fs f x : f <> fid -> alookup fid fs = Some x -> alookup fid (aremove f fs) = Some x.
Proof.
  intros Hne. induction fs as [|[k y] fs IH]; cbn; [auto|]. destruct (Z.eqb_spec k fid) as [->|Hk].
  - destruct (Z.eqb_spec fid f); [congruence|]. cbn. now rewrite Z.eqb_refl.
  - intros H. destruct (k =? f); [exact H|]. cbn. destruct (Z.eqb_spec k fid); [congruence|auto].
Qed.
Lemma update_other fs f x y : f <> fid -> alookup fid fs = Some x -> alookup fid (aupdate f y fs) = Some x.
Proof. intros Hne H. rewrite alookup_update. destruct (Z.eqb_spec f fid); destruct (Z.eqb_spec fid f); congruence. Qed.

(** Only the files change, and not ours. *)
Lemma K_files a tl told gap q fs k g : K a tl told gap q -> Forall (fun p => a_raw (snd p) = false) fs ->
  (forall x, alookup fid (a_files a) = Some x -> alookup fid fs = Some x) ->
  K (mkADev (a_cap a) (a_name a) k g fs) tl told gap q.
Proof.
  intros [] H1 H2. constructor; cbn; auto. destruct k_rd0 as (w & m & r & L & X). exists w, m, r. split; [now apply H2|exact X].
Qed.

Definition progress (tl told : list (option said)) (o : op) (a' : RingSpec.adev) (x : aout) : Prop :=
  exists tl' told' gap' q', K a' tl' told' gap' q' /\
    (forall l0 tr, timeline l0 tr tl -> timeline l0 (tr ++ [(o, render x)]) tl') /\
    (forall later us, tells vis nm later told us -> tells vis nm later told' us) /\
    incl tl tl'.

Lemma progress_quiet tl told gap q o a' x : K a' tl told gap q -> (quiet o \/ forall v, render x <> OutVal v) ->
  progress tl told o a' x.
Proof.
  intros HK Q. exists tl, told, gap, q. split; [exact HK|]. split; [intros l0 tr T; now apply tm_other|].
  split; [auto|apply incl_refl].
Qed.

Lemma K_write a tl told gap q need keep n m : K a tl told gap q -> make_room (a_cap a) need (a_keep a) = (keep, n) -> sayable m ->
  exists gap' q', K (mkADev (a_cap a) (a_name a) (keep ++ [entry_said m]) (a_gone a + n)
                       (on_files (aappend (entry_said m)) (on_files (amake_room (a_cap a) need) (a_files a))))
    (tl ++ [Some m]) told gap' (q' ++ [m]).
Proof.
  intros [] _ S. destruct k_rd0 as (w & mm & r & L & V & A & Q & Lo).
  destruct (make_room (a_cap a) need (a_q r)) as [q1 n1] eqn:E.
  destruct (make_room_split _ _ _ _ _ E) as (d & Ed & Ln & _). rewrite Q in Ed.
  apply map_eq_app in Ed. destruct Ed as (qd & q2 & -> & Ed & Eq).
  exists (gap ++ map (fun m => (m, true)) qd), q2. constructor; cbn [a_files a_name]; auto.
  - apply raw_on; [|apply raw_on; auto].
    + intros x. unfold aappend. destruct (a_rd x); reflexivity.
    + intros x. unfold amake_room. destruct (a_rd x) as [rx|]; [|reflexivity].
      destruct (make_room (a_cap a) need (a_q rx)). reflexivity.
  - exists w, mm, (mkAReader (q1 ++ [entry_said m]) (a_lost r + n1) (a_all r) (a_ver r)). rewrite !alookup_on_files, L. cbn. rewrite E. cbn.
    split; [reflexivity|]. split; [exact V|]. split; [exact A|]. split; [rewrite map_app; cbn; congruence|].
    rewrite Lo, counted_app, zlen_app, counted_true. rewrite <- Ln, <- Ed, zlen_map. reflexivity.
  - rewrite k_tl0, (map_app fst gap), fst_flag, !map_app, <- !app_assoc. reflexivity.
  - intros x Hx. apply in_app_or in Hx. destruct Hx as [Hx|Hx]; [now apply k_gap0|].
    apply in_map_iff in Hx. destruct Hx as (y & Ey & _). discriminate.
  - apply Forall_app in k_say0. apply Forall_app. split; [apply k_say0|auto].
  - intros X. destruct q2; discriminate.
Qed.

Lemma K_flush a tl told gap q : K a tl told gap q ->
  K (mkADev (a_cap a) (a_name a) [] 0 (on_files aflush (a_files a))) (tl ++ [None]) (tl ++ [None]) [] [].
Proof.
  intros []. destruct k_rd0 as (w & mm & r & L & V & A & Q & Lo). constructor; cbn [a_files a_name]; auto.
  - apply raw_on; auto. intros x. unfold aflush. destruct (a_rd x); reflexivity.
  - exists w, mm, (mkAReader [] 0 (a_all r) (a_ver r)). rewrite alookup_on_files, L. cbn. auto.
  - cbn. now rewrite app_nil_r.
  - intros m [].
  - intros _. now left.
Qed.

Lemma say_nofault m n : iter_fault (iovec (kernel_iov (s_prio m) (s_tag m) (if binary_of (s_prio m) then s_msg m else s_msg m ++ [0]))) n = false.
Proof.
  unfold iovec. cbn [iter_fault]. generalize (kernel_iov (s_prio m) (s_tag m) (if binary_of (s_prio m) then s_msg m else s_msg m ++ [0])).
  intros v. revert n. induction v as [|b v IH]; intros n; cbn [map segs_fault s_data s_valid]; [reflexivity|].
  rewrite IH. pose proof (zlen_nonneg b). destruct (Z.ltb_spec (zlen b) (Z.min (zlen b) n)); [lia|]. now rewrite andb_false_r.
Qed.
Lemma payload_pos m : sayable m -> (zlen (e_payload (entry_said m)) =? 0) = false.
Proof.
  intros S. rewrite (entry_said_eq m S). cbn [e_payload]. unfold the_payload, ParseProofs.payload.
  apply Z.eqb_neq. intros Z0. rewrite !zlen_app, zlen_le in Z0.
  repeat match type of Z0 with context [zlen ?z] => lazymatch goal with H : 0 <= zlen z |- _ => fail | _ => pose proof (zlen_nonneg z) end end. lia.
Qed.

(** A call of another process. *)
Lemma K_other a tl told gap q o : K a tl told gap q -> polite fid o ->
  progress tl told o (fst (RingSpec.astep a o)) (snd (RingSpec.astep a o)).
Proof.
  intros HK [Hf Hp].
  destruct o as [f rd wr al nom|f|f nb sg|f eu ct va|f t sec nsec it|f eu|f c eu]; cbn [op_file] in Hf; cbn [RingSpec.astep].
  - apply (progress_quiet tl told gap q); [|left; exact Logic.I]. destruct (alookup f (a_files a)) as [y|] eqn:El; [exact HK|].
    destruct (rd && nom); [exact HK|]. cbn [fst]. apply K_files; [exact HK| |].
    + apply Forall_app. split; [apply HK|]. constructor; [reflexivity|constructor].
    + intros x Hx. rewrite alookup_app, Hx. reflexivity.
  - apply (progress_quiet tl told gap q); [|left; exact Logic.I]. destruct (alookup f (a_files a)) as [y|] eqn:El; [|exact HK].
    cbn [fst]. apply K_files; [exact HK|apply raw_remove, HK|]. intros x. now apply remove_other.
  - apply (progress_quiet tl told gap q); [|left; exact Logic.I]. destruct (alookup f (a_files a)) as [[? ? [r|]]|]; exact HK.
  - apply (progress_quiet tl told gap q); [|left; exact Logic.I]. destruct (alookup f (a_files a)) as [[w1 m1 [r|]]|] eqn:El; [|exact HK|exact HK].
    destruct (RingSpec.aread (a_name a) r eu ct va) as [r' x]. cbn [fst]. apply K_files; [exact HK| |].
    + apply raw_update; [apply HK|]. exact (raw_lookup _ _ _ (k_raw _ _ _ _ _ HK) El).
    + intros y. now apply update_other.
  - destruct Hp as (m & S & Eo). unfold say in Eo. injection Eo as -> -> -> ->.
    destruct (alookup f (a_files a)) as [y|] eqn:El; [|apply (progress_quiet tl told gap q); [exact HK|right; cbn; discriminate]].
    destruct (a_wr y) eqn:Ew; [|apply (progress_quiet tl told gap q); [exact HK|right; cbn; discriminate]].
    rewrite (raw_lookup _ _ _ (k_raw _ _ _ _ _ HK) El). unfold awrite. cbn [andb]. fold (entry_said m).
    rewrite (payload_pos m S).
    destruct (make_room (a_cap a) (esize (entry_said m)) (a_keep a)) as [keep n] eqn:Em.
    rewrite say_nofault. cbn [fst snd].
    destruct (K_write _ _ _ _ _ _ _ _ m HK Em S) as (gap' & q' & HK').
    exists (tl ++ [Some m]), told, gap', (q' ++ [m]). split; [exact HK'|].
    split; [|split; [auto|apply incl_appl, incl_refl]].
    intros l0 tr T. cbn [render]. apply (tm_msg _ _ _ f m); auto.
  - apply (progress_quiet tl told gap q); [|left; exact Logic.I]. destruct (alookup f (a_files a)) as [[w1 m1 [r|]]|] eqn:El; [|exact HK|exact HK].
    cbn [fst]. apply K_files; [exact HK| |].
    + apply raw_update; [apply HK|]. exact (raw_lookup _ _ _ (k_raw _ _ _ _ _ HK) El).
    + intros y. now apply update_other.
  - destruct (alookup f (a_files a)) as [y|] eqn:El.
    2:{ apply (progress_quiet tl told gap q); [exact HK|]. right. cbn. discriminate. }
    pose proof (raw_lookup _ _ _ (k_raw _ _ _ _ _ HK) El) as Hr.
    assert (Put : forall y', a_raw y' = false -> K (mkADev (a_cap a) (a_name a) (a_keep a) (a_gone a) (aupdate f y' (a_files a))) tl told gap q).
    { intros y' Hy. apply K_files; [exact HK|apply raw_update; [apply HK|exact Hy]|]. intros x. now apply update_other. }
    destruct c as [| | | | | ver | arg st ca | ]; cbn [aioctl]; try contradiction.
    all: try (destruct (a_rd y) as [r|]; apply (progress_quiet tl told gap q); cbn [fst snd]; auto; left; exact Logic.I).
    all: try (destruct (a_rd y) as [r|]; [destruct ver as [v|]; [destruct ((v =? 1) || (v =? 2))|]|destruct ver];
              apply (progress_quiet tl told gap q); cbn [fst snd]; auto; left; exact Logic.I).
    destruct (a_rd y) as [r|]; (destruct (a_wr y); cbn [fst snd];
      [|apply (progress_quiet tl told gap q); [exact HK|right; cbn; discriminate]]).
    all: exists (tl ++ [None]), (tl ++ [None]), [], []; split; [exact (K_flush _ _ _ _ _ HK)|]; split; [|split; [|apply incl_appl, incl_refl]];
      [intros l0 tr T; cbn [render]; now apply tm_flush|].
    all: intros later us T; rewrite (k_tl _ _ _ _ _ HK), <- app_assoc; now apply ts_flush.
Qed.

(** Messages of other users at the front are skipped. *)
Lemma skip_said q : all = false -> Forall sayable q -> exists qd q2, q = qd ++ q2 /\
  skip_others uid (map entry_said q) = map entry_said q2 /\ Forall (fun m => vis m = false) qd /\
  match q2 with m :: _ => vis m = true | [] => True end.
Proof.
  intros A. induction q as [|m q IH]; intros S.
  - exists [], []. repeat split; auto.
  - inversion S as [|? ? S1 S2]; subst. cbn [map skip_others].
    assert (V : vis m = (e_euid (entry_said m) =? u32 uid)).
    { unfold vis. rewrite A. cbn [orb]. rewrite (said_euid m S1). reflexivity. }
    destruct (e_euid (entry_said m) =? u32 uid) eqn:E.
    + exists [], (m :: q). repeat split; auto.
    + destruct (IH S2) as (qd & q2 & -> & E2 & F & H). exists (m :: qd), q2. repeat split; auto.
Qed.
Lemma visible_said r q : a_all r = all -> a_q r = map entry_said q -> Forall sayable q -> exists qd q2, q = qd ++ q2 /\
  a_q (visible r uid) = map entry_said q2 /\ Forall (fun m => vis m = false) qd /\
  match q2 with m :: _ => vis m = true | [] => True end.
Proof.
  intros A Q S. unfold visible. rewrite A. destruct all eqn:B.
  - exists [], q. split; [reflexivity|]. split; [exact Q|]. split; [constructor|].
    destruct q; [exact Logic.I|]. unfold vis. rewrite B. reflexivity.
  - cbn [a_q]. rewrite Q. apply skip_said; auto.
Qed.

(** Our reader's file is replaced. *)
Lemma K_put a tl told gap q w m r0 r told' gap' q' : K a tl told gap q ->
  alookup fid (a_files a) = Some (mkAFile w m (Some r0)) ->
  a_ver r = 2 -> a_all r = all -> a_q r = map entry_said q' -> a_lost r = zlen (filter snd gap') ->
  tl = told' ++ map Some (map fst gap' ++ q') -> (forall m, In (m, false) gap' -> vis m = false) -> Forall sayable q' -> (q' = [] -> stuck tl gap') ->
  K (put_rd a fid w m r) tl told' gap' q'.
Proof.
  intros HK L V A Q Lo T G S KL. constructor; cbn [put_rd a_files a_name]; auto.
  - apply raw_update; [apply HK|]. exact (raw_lookup _ _ _ (k_raw _ _ _ _ _ HK) L).
  - exists w, m, r. split; [eapply alookup_update_id; exact L|]. auto.
  - apply HK.
Qed.

Definition skipped (gap : list (said * bool)) (qd : list said) := gap ++ map (fun m => (m, false)) qd.
Lemma skipped_count gap qd : filter snd (skipped gap qd) = filter snd gap.
Proof. unfold skipped. now rewrite counted_app, counted_false, app_nil_r. Qed.
Lemma skipped_fst gap qd q2 : map fst (skipped gap qd) ++ q2 = map fst gap ++ qd ++ q2.
Proof. unfold skipped. now rewrite map_app, fst_flag, <- app_assoc. Qed.
Lemma skipped_foreign gap qd : (forall m, In (m, false) gap -> vis m = false) -> Forall (fun m => vis m = false) qd ->
  forall m, In (m, false) (skipped gap qd) -> vis m = false.
Proof.
  intros G F m Hm. apply in_app_or in Hm. destruct Hm as [Hm|Hm]; [now apply G|].
  apply in_map_iff in Hm. destruct Hm as (y & [= <-] & Hy). rewrite Forall_forall in F. now apply F.
Qed.

Lemma skipped_stuck tl gap qd q2 : Forall (fun m => vis m = false) qd -> (qd ++ q2 = [] -> stuck tl gap) -> q2 = [] -> stuck tl (skipped gap qd).
Proof.
  intros _ H ->. rewrite app_nil_r in H. unfold skipped. destruct qd as [|m qd] using rev_ind.
  - cbn [map]. rewrite app_nil_r. now apply H.
  - right; left. exists (gap ++ map (fun m => (m, false)) qd), m. rewrite map_app, app_assoc. reflexivity.
Qed.
Lemma no_vis qd : Forall (fun m => vis m = false) qd -> filter vis qd = [].
Proof. induction 1 as [|m qd H _ IH]; cbn; [reflexivity|]. now rewrite H. Qed.
Lemma wt_skipped gap qd q2 : Forall (fun m => vis m = false) qd -> wt (skipped gap qd) q2 = wt gap (qd ++ q2).
Proof. intros F. unfold wt. rewrite skipped_count, filter_app, (no_vis qd F). reflexivity. Qed.
Lemma wt_head gap m q : vis m = true -> wt gap (m :: q) = S (wt [] q + match filter snd gap with [] => 0 | _ => 1 end).
Proof. intros V. unfold wt. cbn [filter]. rewrite V. cbn [length]. destruct (filter vis q); cbn [length]; lia. Qed.

Lemma tells_foreign later told us q : tells vis nm later told us -> Forall (fun m => vis m = false) q ->
  tells vis nm later (told ++ map Some q) us.
Proof.
  revert told. induction q as [|m q IH]; intros told T F; [now rewrite app_nil_r|].
  inversion F; subst. cbn [map]. change (Some m :: map Some q) with ([Some m] ++ map Some q). rewrite app_assoc.
  apply IH; auto. apply ts_foreign; auto.
Qed.
Lemma uncounted (gap : list (said * bool)) : filter snd gap = [] -> (forall m, In (m, false) gap -> vis m = false) ->
  Forall (fun m => vis m = false) (map fst gap).
Proof.
  intros E G. apply Forall_forall. intros m Hm. apply in_map_iff in Hm. destruct Hm as ([m' b] & <- & H). cbn.
  destruct b; [|now apply G]. exfalso. assert (X : In (m', true) (filter snd gap)) by (apply filter_In; auto). rewrite E in X. exact X.
Qed.

Hypothesis Hnm : c_string nm.
Hypothesis Hlen : zlen nm <= 15.

(** A read: nothing (and now nothing is left), too small a buffer, or a record, which is shown. *)
Lemma K_read a tl told gap q c : K a tl told gap q -> 
  let ax := RingSpec.astep a (OpReadBody fid uid c c) in
  (exists gap', snd ax = ARetry /\ K (fst ax) tl told gap' [] /\ wt gap q = O) \/
  (exists gap' q', snd ax = AErr EINVAL /\ c < 4100 /\ K (fst ax) tl told gap' q' /\ wt gap' q' = wt gap q) \/
  (exists told' q' e u, (snd ax = AEntry 2 e \/ exists n next, snd ax = AReport 2 nm n next /\ e = report nm n next) /\
     wf_entry e /\ reads_as (enc 2 e) u /\ K (fst ax) tl told' [] q' /\ wt gap q = S (wt [] q') /\
     forall us, tells vis nm (fun m => In (Some m) tl) told us -> tells vis nm (fun m => In (Some m) tl) told' (us ++ [u])).
Proof.
  intros HK. cbv zeta. pose proof HK as []. destruct k_rd0 as (w & m & r & L & V & A & Q & Lo).
  cbn [RingSpec.astep]. rewrite L. rewrite k_name0.
  destruct (visible_said r q A Q k_say0) as (qd & q2 & Eq & Ev & Fd & Vh).
  pose proof (visible_ver r uid) as (V1 & V2 & V3).
  rewrite Eq in k_say0. apply Forall_app in k_say0 as [Sd S2].
  assert (T2 : tl = told ++ map Some (map fst (skipped gap qd) ++ q2)).
  { rewrite skipped_fst, <- Eq. exact k_tl0. }
  pose proof (skipped_foreign gap qd k_gap0 Fd) as G2.
  assert (SK : q2 = [] -> stuck tl (skipped gap qd)) by (apply skipped_stuck; [exact Fd|now rewrite <- Eq]).
  assert (WT : wt (skipped gap qd) q2 = wt gap q) by (rewrite Eq; now apply wt_skipped).
  assert (KV : K (put_rd a fid w m (visible r uid)) tl told (skipped gap qd) q2).
  { apply (K_put a tl told gap q w m r); try congruence; try assumption. rewrite skipped_count. congruence. }
  unfold RingSpec.aread. rewrite Ev. destruct q2 as [|next q2]; cbn [map].
  { left. exists (skipped gap qd). cbn [fst snd]. split; [reflexivity|]. split; [rewrite <- k_name0; exact KV|]. now rewrite <- WT. }
  inversion S2 as [|? ? Sn S2']; subst x l. right.
  assert (We : wf_entry (entry_said next)).
  { rewrite (entry_said_eq next Sn). split; cbn [e_meta e_payload].
    - unfold meta. rewrite !zlen_app, !zlen_le. reflexivity.
    - unfold the_payload. set (bd := if binary_of (s_prio next) then s_msg next else s_msg next ++ [0]).
      assert (P : forall b, zlen (ParseProofs.payload (t_tgid (s_task next)) (t_pid (s_task next)) (comm_str (t_pcomm (s_task next))) (comm_str (t_tcomm (s_task next)))
              (s_prio next) (s_tag next) b) = zlen (names (s_task next)) + 5 + zlen (s_tag next) + zlen b).
      { intros b. rewrite <- names_payload. rewrite !zlen_app, zlen_le. change (zlen [0]) with 1. lia. }
      rewrite P, zlen_ztake. destruct Sn as (_ & _ & _ & _ & _ & _ & _ & Sn). pose proof (zlen_nonneg bd). lia. }
  assert (EL : forall e, wf_entry e -> enc_len 2 e <= 4100).
  { intros e [_ We']. unfold enc_len. cbn. lia. }
  rewrite V1, V2, V3, V, A, Lo.
  destruct (Z.gtb_spec (zlen (filter snd gap)) 0) as [Hl|Hl].
  - pose proof (wf_report nm (zlen (filter snd gap)) (entry_said next) We Hlen) as Wr.
    pose proof (EL _ Wr) as B. 
    destruct (Z.ltb_spec c (enc_len 2 (report nm (zlen (filter snd gap)) (entry_said next)))) as [Hc|Hc].
    { left. exists (skipped gap qd), (next :: q2). cbn [fst snd]. split; [reflexivity|]. split; [lia|]. split; [rewrite <- k_name0; exact KV|exact WT]. }
    cbn [fst snd]. right.
    destruct (said_warned nm (zlen (filter snd gap)) next Sn Hnm Hlen (zlen_nonneg _)) as (v & P & Wn).
    exists (told ++ map Some (map fst (skipped gap qd))), (next :: q2), (report nm (zlen (filter snd gap)) (entry_said next)), (entry_of v).
    split; [right; eauto|]. split; [exact Wr|]. split; [exists v; auto|]. split; [|split].
    + rewrite <- k_name0. apply (K_put a tl told gap q w m r); auto; try (now intros ? []); try discriminate.
      change (map fst (@nil (said * bool)) ++ next :: q2) with (next :: q2). rewrite <- app_assoc, <- map_app. exact T2.
    + rewrite <- WT, (wt_head _ _ _ Vh), (wt_head _ _ _ Vh), skipped_count. destruct (filter snd gap) as [|y yy] eqn:Ey.
      * change (zlen (@nil (said * bool))) with 0 in Hl. lia.
      * cbn [filter]. lia.
    + intros us T. apply (ts_lost _ _ _ _ _ _ next); auto.
      * rewrite skipped_count. intros X. rewrite X in Hl. change (zlen (@nil (said * bool))) with 0 in Hl. lia.
      * rewrite T2. apply in_or_app. right. apply in_map. apply in_or_app. right. now left.
      * rewrite skipped_count. exact Wn.
  - pose proof (EL _ We) as B.
    destruct (Z.ltb_spec c (enc_len 2 (entry_said next))) as [Hc|Hc].
    { left. exists (skipped gap qd), (next :: q2). cbn [fst snd]. split; [reflexivity|]. split; [lia|]. split; [rewrite <- k_name0; exact KV|exact WT]. }
    cbn [fst snd]. right.
    assert (Z0 : filter snd gap = []).
    { destruct (filter snd gap) as [|g gg]; [reflexivity|]. rewrite zlen_cons in Hl. pose proof (zlen_nonneg gg). lia. }
    destruct (said_parsed next Sn) as (v & P & Es).
    exists (told ++ map Some (map fst (skipped gap qd) ++ [next])), q2, (entry_said next), (shown next).
    split; [now left|]. split; [exact We|]. split; [exists v; auto|]. split; [|split].
    + rewrite <- k_name0. apply (K_put a tl told gap q w m r); auto; try (now intros ? []); try (intros _; now left).
      * cbn. rewrite Z0. reflexivity.
      * rewrite T2. change (map fst (@nil (said * bool)) ++ q2) with q2. rewrite <- (app_assoc told). f_equal.
        rewrite <- map_app. f_equal. rewrite <- app_assoc. reflexivity.
    + rewrite <- WT, (wt_head _ _ _ Vh), skipped_count, Z0. lia.
    + intros us T. rewrite map_app, app_assoc. apply ts_msg; [|exact Vh].
      apply tells_foreign; [exact T|]. apply uncounted; [|exact G2]. now rewrite skipped_count.
Qed.

Lemma K_poll a tl told gap q : K a tl told gap q ->
  exists gap' q', snd (RingSpec.astep a (OpPoll fid uid)) = APoll (negb (Nat.eqb (wt gap q) 0)) /\
    K (fst (RingSpec.astep a (OpPoll fid uid))) tl told gap' q' /\ wt gap' q' = wt gap q.
Proof.
  intros HK. pose proof HK as []. destruct k_rd0 as (w & m & r & L & V & A & Q & Lo).
  cbn [RingSpec.astep]. rewrite L.
  destruct (visible_said r q A Q k_say0) as (qd & q2 & Eq & Ev & Fd & Vh).
  pose proof (visible_ver r uid) as (V1 & V2 & V3).
  assert (WT : wt (skipped gap qd) q2 = wt gap q) by (rewrite Eq; now apply wt_skipped).
  exists (skipped gap qd), q2. cbn [fst snd]. split; [|split; [|exact WT]].
  - rewrite <- WT, Ev. destruct q2 as [|next q2]; [reflexivity|]. rewrite (wt_head _ _ _ Vh). reflexivity.
  - apply (K_put a tl told gap q w m r); auto; try congruence.
    + rewrite skipped_count. congruence.
    + rewrite skipped_fst, <- Eq. exact k_tl0.
    + apply skipped_foreign; auto.
    + rewrite Eq in k_say0. apply Forall_app in k_say0. apply k_say0.
    + apply skipped_stuck; [exact Fd|now rewrite <- Eq].
Qed.
Lemma K_check a tl told gap q : K a tl told gap q ->
  RingSpec.astep a (OpReadCheck fid true false) = (a, match q with [] => AErr EAGAIN | _ => ACont end).
Proof.
  intros []. destruct k_rd0 as (w & m & r & L & V & A & Q & Lo). cbn [RingSpec.astep]. rewrite L, Q.
  destruct q; reflexivity.
Qed.
End Dev.

(** ** One device *)
(** [p]: what was read and how many reads will give something. *)
Definition J (uid : Z) (g : LiveSpec.log) (l0 : list said) (ex : list op) (p : list uentry * nat) (n : node) : Prop :=
  snd n = g_fid g /\ exists tr tl told gap q a,
    run (fst (g_node g)) (map fst tr) = Ok (fst n, map snd tr) /\
    of_others (g_fid g) (map fst tr) = ex /\ timeline (map Some l0) tr tl /\
    R (fst n) a /\ vers_ok a /\ K uid (g_all g) (g_nm g) (g_fid g) (map Some l0) a tl told gap q /\
    tells (vis uid (g_all g)) (g_nm g) (fun m => In (Some m) tl) told (fst p) /\ wt uid (g_all g) gap q = snd p.

Lemma tells_mono v nm (P P' : said -> Prop) told us : (forall m, P m -> P' m) -> tells v nm P told us -> tells v nm P' told us.
Proof. intros H. induction 1; econstructor; eauto. Qed.
Lemma polite_user fid o : polite fid o -> user_op o.
Proof. intros [_ H]. destruct o; cbn; auto. destruct H as (m & _ & E). unfold say in E. injection E as -> -> -> ->. exact Logic.I. Qed.

Lemma J_other uid g l0 ex p d o : J uid g l0 ex p (d, g_fid g) -> polite (g_fid g) o ->
  exists d' x w', step d o = Ok (d', x) /\ J uid g l0 (ex ++ [o]) (fst p, w') (d', g_fid g).
Proof.
  intros (_ & tr & tl & told & gap & q & a & Er & Eo & T & HR & Hv & HK & TS & _) P. cbn [fst snd] in *.
  destruct (step_R d a o (polite_user _ _ P) HR Hv) as (d' & E & HR'). pose proof (vers_step a o Hv) as Hv'.
  destruct (K_other _ _ _ _ _ _ _ _ _ _ o HK P) as (tl' & told' & gap' & q' & HK' & T' & TS' & I').
  exists d', (render (snd (RingSpec.astep a o))), (wt uid (g_all g) gap' q'). split; [exact E|]. split; [reflexivity|].
  exists (tr ++ [(o, render (snd (RingSpec.astep a o)))]), tl', told', gap', q', (fst (RingSpec.astep a o)). cbn [fst snd].
  rewrite !map_app. cbn [map fst snd]. split; [eapply run_snoc; eauto|]. split.
  { unfold of_others in *. rewrite filter_app, Eo. cbn [filter]. destruct P as [P _].
    destruct (Z.eqb_spec (op_file o) (g_fid g)); [contradiction|reflexivity]. }
  split; [now apply T'|]. split; [exact HR'|]. split; [exact Hv'|]. split; [exact HK'|]. split; [|reflexivity].
  apply TS'. eapply tells_mono; [|exact TS]. cbn. auto.
Qed.

(** Our own calls. *)
Lemma J_own uid g l0 ex p d o : J uid g l0 ex p (d, g_fid g) -> op_file o = g_fid g -> quiet o -> user_op o ->
  exists d' tl told gap q a, step d o = Ok (d', render (snd (RingSpec.astep a o))) /\
    R d' (fst (RingSpec.astep a o)) /\ vers_ok (fst (RingSpec.astep a o)) /\
    K uid (g_all g) (g_nm g) (g_fid g) (map Some l0) a tl told gap q /\
    tells (vis uid (g_all g)) (g_nm g) (fun m => In (Some m) tl) told (fst p) /\ wt uid (g_all g) gap q = snd p /\
    forall told' gap' q' us', K uid (g_all g) (g_nm g) (g_fid g) (map Some l0) (fst (RingSpec.astep a o)) tl told' gap' q' ->
      tells (vis uid (g_all g)) (g_nm g) (fun m => In (Some m) tl) told' us' ->
      J uid g l0 ex (us', wt uid (g_all g) gap' q') (d', g_fid g).
Proof.
  intros (_ & tr & tl & told & gap & q & a & Er & Eo & T & HR & Hv & HK & TS & W) Hf Hq Hu. cbn [fst snd] in *.
  destruct (step_R d a o Hu HR Hv) as (d' & E & HR'). pose proof (vers_step a o Hv) as Hv'.
  exists d', tl, told, gap, q, a. split; [exact E|]. split; [exact HR'|]. split; [exact Hv'|]. split; [exact HK|]. split; [exact TS|]. split; [exact W|].
  intros told' gap' q' us' HK' TS'. split; [reflexivity|].
  exists (tr ++ [(o, render (snd (RingSpec.astep a o)))]), tl, told', gap', q', (fst (RingSpec.astep a o)). cbn [fst snd].
  rewrite !map_app. cbn [map fst snd]. split; [eapply run_snoc; eauto|]. split.
  { unfold of_others in *. rewrite filter_app, Eo. cbn [filter]. rewrite Hf, Z.eqb_refl. cbn. apply app_nil_r. }
  split; [apply tm_other; auto|]. split; [exact HR'|]. split; [exact Hv'|]. split; [exact HK'|]. split; [exact TS'|reflexivity].
Qed.
Lemma J_poll uid g l0 ex p d : J uid g l0 ex p (d, g_fid g) ->
  exists d', step d (OpPoll (g_fid g) uid) = Ok (d', OutPoll (negb (Nat.eqb (snd p) 0))) /\ J uid g l0 ex p (d', g_fid g).
Proof.
  intros H. destruct (J_own _ _ _ _ _ _ (OpPoll (g_fid g) uid) H eq_refl Logic.I Logic.I) as (d' & tl & told & gap & q & a & E & HR & Hv & HK & TS & W & F).
  destruct (K_poll _ _ _ _ _ _ _ _ _ _ HK) as (gap' & q' & Eb & HK' & W'). rewrite Eb, W in E. exists d'. split; [exact E|].
  destruct p as [us w]. cbn [fst snd] in *. rewrite <- W, <- W'. eapply F; eauto.
Qed.
Lemma J_check uid g l0 ex p d : J uid g l0 ex p (d, g_fid g) ->
  exists d' x, step d (OpReadCheck (g_fid g) true false) = Ok (d', x) /\ J uid g l0 ex p (d', g_fid g) /\
    (x = OutCont \/ (x = OutErr EAGAIN /\ snd p = O)).
Proof.
  intros H. destruct (J_own _ _ _ _ _ _ (OpReadCheck (g_fid g) true false) H eq_refl Logic.I Logic.I) as (d' & tl & told & gap & q & a & E & HR & Hv & HK & TS & W & F).
  rewrite (K_check _ _ _ _ _ _ _ _ _ _ HK) in E, F. cbn [fst snd] in *. exists d'. eexists. split; [exact E|].
  destruct p as [us w]. cbn [fst snd] in *. split; [rewrite <- W; eapply F; eauto|].
  destruct q; [right|left; reflexivity]. split; [reflexivity|]. rewrite <- W. reflexivity.
Qed.
(** What [bs] is for the reader. *)
Definition record_of (bs : list Z) (u : uentry) : Prop := good_rec bs /\ reads_as bs u.
Lemma J_body uid g l0 ex p d c : c_string (g_nm g) -> zlen (g_nm g) <= 15 -> J uid g l0 ex p (d, g_fid g) ->
  exists d' x, step d (OpReadBody (g_fid g) uid c c) = Ok (d', x) /\
    ((x = OutRetry /\ snd p = O /\ J uid g l0 ex p (d', g_fid g) /\ step d' (OpReadCheck (g_fid g) true false) = Ok (d', OutErr EAGAIN)) \/
     (x = OutErr EINVAL /\ c < 4100 /\ J uid g l0 ex p (d', g_fid g)) \/
     (exists bs u w', x = OutData bs /\ record_of bs u /\ snd p = S w' /\ J uid g l0 ex (fst p ++ [u], w') (d', g_fid g))).
Proof.
  intros Hc Hn H.
  destruct (J_own _ _ _ _ _ _ (OpReadBody (g_fid g) uid c c) H eq_refl Logic.I Logic.I) as (d' & tl & told & gap & q & a & E & HR & Hv & HK & TS & W & F).
  exists d'. eexists. split; [exact E|]. destruct p as [us w]. cbn [fst snd] in *.
  destruct (K_read uid (g_all g) (g_nm g) (g_fid g) (map Some l0) Hc Hn a tl told gap q c HK) as [(gap' & X & HK' & W')|[(gap' & q' & X & Lc & HK' & W')|(told' & q' & e & u & X & We & Ru & HK' & W' & T')]].
  - left. rewrite X. split; [reflexivity|]. split; [congruence|].
    assert (HJ : J uid g l0 ex (us, w) (d', g_fid g)).
    { replace w with (wt uid (g_all g) gap' []) by (rewrite <- W, W'; reflexivity). eapply F; eauto. }
    split; [exact HJ|].
    destruct (step_R d' _ (OpReadCheck (g_fid g) true false) Logic.I HR Hv) as (d2 & E2 & _).
    rewrite (K_check _ _ _ _ _ _ _ _ _ _ HK') in E2. cbn [snd render] in E2.
    rewrite (read_check_state _ _ _ _ _ _ E2) in E2. exact E2.
  - right; left. rewrite X. split; [reflexivity|]. split; [exact Lc|]. rewrite <- W, <- W'. eapply F; eauto.
  - right; right. exists (enc 2 e), u, (wt uid (g_all g) [] q'). split; [|split; [split; [exists e; auto|exact Ru]|split]].
    + destruct X as [->|(n & next & -> & ->)]; reflexivity.
    + congruence.
    + eapply F; [exact HK'|]. now apply T'.
Qed.

(** At the start. *)
Lemma J_start uid g l : started uid g -> was_told g l -> exists w, J uid g l [] ([], w) (g_node g).
Proof.
  intros (Hi & Hu & d & outs & Erun & Eopen) (d0 & outs0 & Er0 & T).
  destruct (history_good _ _ _ _ Hi Hu) as (h & d1 & a & (Hf & Hex) & HR & Hv & HI & Hn & _ & _).
  assert (d1 = d) as -> by congruence. assert (outs0 = map (fun ev => render (snd ev)) h) as -> by congruence.
  destruct (told_ledger _ _ _ T h Hf eq_refl) as (Raw & Acc & Say).
  unfold add_ulog_device in Eopen. set (fid := g_fid g) in *. set (all := g_all g) in *.
  pose proof (step_R d a (OpOpen fid true false all false) Logic.I HR Hv) as (d2 & E2 & HR2).
  pose proof (vers_step a (OpOpen fid true false all false) Hv) as Hv2.
  rewrite E2 in Eopen. cbn [bind RingSpec.astep] in *.
  destruct (alookup fid (a_files a)) eqn:El; [discriminate|]. cbn [andb fst snd render] in *.
  set (r := mkAReader (a_keep a) (a_gone a) all 2) in *.
  match type of HR2 with R _ ?A => set (a2 := A) in * end.
  assert (El2 : alookup fid (a_files a2) = Some (mkAFile false false (Some r))).
  { cbn [a2 a_files]. rewrite alookup_app, El. cbn [alookup]. rewrite Z.eqb_refl. reflexivity. }
  pose proof (step_R d2 a2 (OpIoctl fid GetLogLen uid) Logic.I HR2 Hv2) as (d3 & E3 & HR3).
  pose proof (vers_step a2 (OpIoctl fid GetLogLen uid) Hv2) as Hv3.
  rewrite E3 in Eopen. cbn [bind RingSpec.astep aioctl] in *. rewrite El2 in *. cbn [aioctl a_rd fst snd render] in *.
  assert (En : g_node g = (d3, fid)) by congruence. rewrite En. clear Eopen.
  destruct HI as (HN & (gone & Hacc & Hg) & HF). rewrite Acc in Hacc.
  apply map_eq_app in Hacc. destruct Hacc as (lost & kept & -> & Elost & Ekept).
  exists (wt uid all (map (fun m => (m, true)) lost) kept). split; [reflexivity|]. exists [], (map Some (lost ++ kept)), [], (map (fun m => (m, true)) lost), kept, a2.
  cbn [map fst snd]. split; [rewrite En; reflexivity|]. split; [reflexivity|]. split; [constructor|]. split; [exact HR3|]. split; [exact Hv3|].
  split; [|split; [constructor|reflexivity]]. constructor.
  - cbn [a2 a_files]. apply Forall_app. split; [|constructor; [reflexivity|constructor]].
    apply Forall_forall. intros [k x] Hin. cbn.
    assert (Lk : alookup k (a_files a) = Some x).
    { clear - HN Hin. induction (a_files a) as [|[k' y] fs IH]; [contradiction|]. cbn in *. inversion HN as [|? ? NI ND]; subst.
      destruct Hin as [[= -> ->]|Hin]; [now rewrite Z.eqb_refl|].
      destruct (Z.eqb_spec k' k) as [->|]; [|now apply IH]. exfalso. apply NI. change k with (fst (k, x)). now apply in_map. }
    destruct (HF k x Lk) as (Hr & _). rewrite Hr. apply Raw.
  - exists false, false, r. split; [exact El2|]. split; [reflexivity|]. split; [reflexivity|]. split; [cbn; congruence|].
    cbn [r a_lost]. rewrite counted_true, <- Hg, <- Elost, zlen_map. reflexivity.
  - exact Hn.
  - now rewrite fst_flag.
  - intros m Hm. apply in_map_iff in Hm. destruct Hm as (y & Ey & _). discriminate.
  - apply Forall_app in Say. apply Say.
  - intros _. right; right. reflexivity.
Qed.

(** ** All devices *)
Section World.
Variables (csv : bool) (uid : Z) (gs : list LiveSpec.log) (ls : list (list said)) (sched : list (list (nat * op))).
Hypothesis names_ok : Forall (fun g => c_string (g_nm g) /\ zlen (g_nm g) <= 15) gs.
Hypothesis same_len : length ls = length gs.
Hypothesis sched_ok : Forall (Forall (fun io => forall g, nth_error gs (fst io) = Some g -> polite (g_fid g) (snd io))) sched.

Definition calls (L : list (nat * op)) (i : nat) : list op := map snd (filter (fun io => Nat.eqb (fst io) i) L).
Definition Pw (L : list (nat * op)) (uss : nat -> list uentry * nat) (ns : list node) : Prop :=
  length ns = length gs /\
  forall i g l n, nth_error gs i = Some g -> nth_error ls i = Some l -> nth_error ns i = Some n -> J uid g l (calls L i) (uss i) n.
Definition B (uss : nat -> list uentry * nat) (b : busy) : Prop :=
  exists done, sched = done ++ snd b /\ Pw (concat done) uss (fst b).
Definition upd {A} (uss : nat -> A) (i : nat) (us : A) : nat -> A := fun j => if Nat.eqb j i then us else uss j.

Lemma nth_set {A} (l : list A) i x j : nth_error (set_nth i x l) j =
  if Nat.eqb j i then (if Nat.ltb i (length l) then Some x else None) else nth_error l j.
Proof.
  revert i j. induction l as [|y l IH]; intros [|i] [|j]; cbn; auto.
  - destruct (Nat.eqb j i); reflexivity.
  - apply IH.
Qed.
Lemma get_all i : (i < length gs)%nat -> exists g l, nth_error gs i = Some g /\ nth_error ls i = Some l.
Proof.
  intros H. destruct (nth_error gs i) as [g|] eqn:E; [|apply nth_error_None in E; lia].
  destruct (nth_error ls i) as [l|] eqn:E'; [|apply nth_error_None in E'; lia]. eauto.
Qed.

(** A step of device [i]. *)
Lemma Pw_set L L' uss us' ns i g l n : Pw L uss ns -> nth_error gs i = Some g -> nth_error ls i = Some l ->
  (forall j, j <> i -> calls L' j = calls L j) -> J uid g l (calls L' i) us' n -> Pw L' (upd uss i us') (set_nth i n ns).
Proof.
  intros [HL H] Eg El Hc HJ. split; [now rewrite set_nth_length|].
  intros j g' l' n' Eg' El' En'. rewrite nth_set in En'. unfold upd. destruct (Nat.eqb_spec j i) as [->|Hne].
  - destruct (Nat.ltb _ _); [|discriminate]. injection En' as <-. assert (g' = g) as -> by congruence. assert (l' = l) as -> by congruence. exact HJ.
  - rewrite (Hc j Hne). now apply H.
Qed.
Lemma Pw_ext L uss uss' ns : (forall i, uss i = uss' i) -> Pw L uss ns -> Pw L uss' ns.
Proof. intros E [HL H]. split; [exact HL|]. intros i g l n H1 H2 H3. rewrite <- E. now apply H. Qed.
Lemma upd_same {A} (uss : nat -> A) i j : upd uss i (uss i) j = uss j.
Proof. unfold upd. destruct (Nat.eqb_spec j i) as [->|]; reflexivity. Qed.

Lemma Pw_other L uss ns i o : Pw L uss ns -> (forall g, nth_error gs i = Some g -> polite (g_fid g) o) ->
  exists uss', (forall j, fst (uss' j) = fst (uss j)) /\ Pw (L ++ [(i, o)]) uss' (other_call ns (i, o)).
Proof.
  intros HP Hpol. pose proof HP as [HL H]. unfold other_call. cbn [fst snd].
  assert (C : forall j, j <> i -> calls (L ++ [(i, o)]) j = calls L j).
  { intros j Hne. unfold calls. rewrite filter_app, map_app. cbn [filter fst]. destruct (Nat.eqb_spec i j); [congruence|]. apply app_nil_r. }
  assert (C' : calls (L ++ [(i, o)]) i = calls L i ++ [o]).
  { unfold calls. rewrite filter_app, map_app. cbn [filter fst]. rewrite Nat.eqb_refl. reflexivity. }
  destruct (nth_error ns i) as [[d fid]|] eqn:En.
  2:{ exists uss. split; [reflexivity|]. split; [exact HL|]. intros j g l n Eg El En'. destruct (Nat.eq_dec j i) as [->|Hne]; [congruence|]. rewrite (C j Hne). now apply H. }
  assert (Hi : (i < length gs)%nat) by (rewrite <- HL; apply nth_error_Some; congruence).
  destruct (get_all i Hi) as (g & l & Eg & El). pose proof (H i g l _ Eg El En) as HJ.
  assert (fid = g_fid g) as -> by apply HJ.
  destruct (J_other _ _ _ _ _ _ o HJ (Hpol g Eg)) as (d' & x & w' & Es & HJ'). rewrite Es.
  exists (upd uss i (fst (uss i), w')). split.
  - intros j. unfold upd. destruct (Nat.eqb_spec j i) as [->|]; reflexivity.
  - apply (Pw_set L _ uss (fst (uss i), w') ns i g l); auto. now rewrite C'.
Qed.
Lemma Pw_batch : forall batch uss L ns, Pw L uss ns ->
  Forall (fun io => forall g, nth_error gs (fst io) = Some g -> polite (g_fid g) (snd io)) batch ->
  exists uss', (forall j, fst (uss' j) = fst (uss j)) /\ Pw (L ++ batch) uss' (fold_left other_call batch ns).
Proof.
  induction batch as [|[i o] r IH]; intros uss L ns HP F; cbn [fold_left]; [exists uss; rewrite app_nil_r; auto|].
  inversion F as [|? ? F1 F2]; subst. cbn [fst snd] in F1.
  destruct (Pw_other L uss ns i o HP F1) as (u1 & S1 & H1). destruct (IH u1 _ _ H1 F2) as (u2 & S2 & H2).
  exists u2. split; [intros j; now rewrite S2|]. now rewrite <- app_assoc in H2.
Qed.
(** [uss'] after calls of other processes only. *)
Definition same (b : busy) (uss uss' : nat -> list uentry * nat) : Prop :=
  (forall j, fst (uss' j) = fst (uss j)) /\ (snd b = [] -> forall j, uss' j = uss j).
Lemma B_pause uss b : B uss b -> exists uss', same b uss uss' /\ B uss' (pause b) /\ length (snd (pause b)) = pred (length (snd b)).
Proof.
  intros (done & E & HP). unfold pause. destruct b as [ns [|batch r]]; cbn [fst snd] in *.
  - exists uss. split; [split; auto|]. split; [|reflexivity]. exists done. auto.
  - rewrite E in sched_ok. apply Forall_app in sched_ok. destruct sched_ok as [_ F]. inversion F as [|? ? F1 F2]; subst.
    destruct (Pw_batch batch uss (concat done) ns HP F1) as (u & Su & Hu). exists u.
    split; [split; [exact Su|discriminate]|]. split; [|reflexivity]. exists (done ++ [batch]). cbn [fst snd].
    split; [rewrite <- app_assoc; exact E|]. rewrite concat_app. cbn [concat]. rewrite app_nil_r. exact Hu.
Qed.

(** One of our calls on device [i]. *)
Lemma B_own uss b i g l o (Post : out -> list uentry * nat -> list uentry * nat -> Ring.dev -> Prop) :
  B uss b -> nth_error gs i = Some g -> nth_error ls i = Some l ->
  (forall ex d p, J uid g l ex p (d, g_fid g) ->
     exists d' x p', step d (o (g_fid g)) = Ok (d', x) /\ Post x p p' d' /\ J uid g l ex p' (d', g_fid g)) ->
  exists b' x uss1 p' d', own_call b i o = (b', Ok x) /\ same b uss uss1 /\ B (upd uss1 i p') b' /\ Post x (uss1 i) p' d' /\
    length (snd b') = pred (length (snd b)) /\ nth_error (fst b') i = Some (d', g_fid g).
Proof.
  intros HB Eg El Hs. destruct (B_pause _ _ HB) as (uss1 & Sm & (done & E & HP) & Hl). unfold own_call. pose proof HP as [HL H].
  assert (Hi : (i < length (fst (pause b)))%nat) by (rewrite HL; apply nth_error_Some; congruence).
  destruct (nth_error (fst (pause b)) i) as [[d fid]|] eqn:En; [|apply nth_error_None in En; lia].
  pose proof (H i g l _ Eg El En) as HJ. assert (fid = g_fid g) as -> by apply HJ.
  destruct (Hs _ _ _ HJ) as (d' & x & p' & Es & HPost & HJ'). rewrite Es.
  exists (set_nth i (d', g_fid g) (fst (pause b)), snd (pause b)), x, uss1, p', d'. cbn [fst snd].
  split; [reflexivity|]. split; [exact Sm|]. split.
  { exists done. cbn [fst snd]. split; [exact E|]. apply (Pw_set (concat done) _ uss1 p' _ i g l); auto. }
  split; [exact HPost|]. split; [exact Hl|]. rewrite nth_set, Nat.eqb_refl. destruct (Nat.ltb_spec i (length (fst (pause b)))); [reflexivity|lia].
Qed.
Lemma B_ext uss uss' b : (forall i, uss i = uss' i) -> B uss b -> B uss' b.
Proof. intros E (done & H & HP). exists done. split; [exact H|]. eapply Pw_ext; eauto. Qed.
End World.
