(** Property C140: what a reader who may only read their own entries is told about losses.

    About [step] and [run] of Ring.v, in the vocabulary of RingSpec.v (entries) and RingHistory.v (histories,
    [drains], [stream]). *)
From Coq Require Import ZArith String List Bool Lia.
From Verif Require Import Bytes BytesProofs Ring RingSpec RingHistory RingInv RingObs RingLemmas RingLemmas2 RingLemmas3 PropsRing.
Import ListNotations.
Open Scope Z_scope.

(** The entries of user [uid]. *)
Definition own (uid : Z) (l : list entry) : list entry := filter (fun e => e_euid e =? u32 uid) l.
(** After [ops], whoever opens the device without the right to read everything is told of exactly so many
    losses as entries of their own are lost, and gets the others of their own. *)
Definition told_own_losses (nm mem : list Z) (pow2 : Z) (ops : list op) : Prop :=
  exists h d, explains h nm mem pow2 ops d /\
  forall fid wr d' uid, step d (OpOpen fid true wr false false) = Ok (d', OutVal 0) ->
  exists gone kept, m_acc (ledger_of h) = gone ++ kept /\
    drains d' fid uid (stream nm 2 (zlen (own uid gone)) (own uid kept)).

(** What was accepted is determined by the calls and what callers observe. *)
Lemma acc_det : forall h1 h2 m1 m2, map fst h1 = map fst h2 -> map (fun ev => render (snd ev)) h1 = map (fun ev => render (snd ev)) h2 ->
  m_acc m1 = m_acc m2 -> (forall i, m_raw m1 i = m_raw m2 i) ->
  m_acc (fold_left record h1 m1) = m_acc (fold_left record h2 m2).
Proof.
  induction h1 as [|[o x] h1 IH]; intros [|[o' x'] h2] m1 m2 E1 E2 A R; cbn [map fst snd] in E1, E2; try discriminate; [exact A|].
  injection E1 as <- E1. injection E2 as EX E2. cbn [fold_left]. apply IH; auto.
  - destruct o as [fid a1 a2 a3 a4|fid|fid b1 b2|fid u c v|fid t sec nsec it|fid u|fid c euid]; destruct x, x'; cbn [render] in EX; try discriminate; cbn [record]; auto.
    all: try (rewrite R; destruct (_ =? 0); [exact A|cbn [m_acc]; now rewrite A]).
    all: destruct c; cbn [m_acc]; auto; match goal with |- context [match ?a with Some _ => _ | None => _ end] => destruct a; auto end.
  - intros i. destruct o as [fid a1 a2 a3 a4|fid|fid b1 b2|fid u c v|fid t sec nsec it|fid u|fid c euid]; destruct x, x'; cbn [render] in EX; try discriminate; cbn [record]; auto.
    all: try (unfold set; cbn [m_raw]; destruct (_ =? _); auto; fail).
    all: try (rewrite R; destruct (_ =? 0); cbn [m_raw]; auto; fail).
    all: destruct c; cbn [m_raw]; auto; match goal with |- context [match ?a with Some _ => _ | None => _ end] => destruct a; auto end; unfold set; cbn [m_raw]; destruct (_ =? _); auto.
Qed.

Lemma run_split : forall a b d, run d (a ++ b) = let* (d1, x) := run d a in let* (d2, y) := run d1 b in Ok (d2, x ++ y).
Proof.
  induction a as [|o a IH]; intros b d; cbn [app run bind]; [destruct (run d b) as [[d2 y]|]; reflexivity|].
  destruct (step d o) as [[d1 x]|]; cbn [bind]; [|reflexivity]. rewrite IH. destruct (run d1 a) as [[d2 y]|]; cbn [bind]; [|reflexivity].
  destruct (run d2 b) as [[d3 z]|]; reflexivity.
Qed.
(** A run on the example device that ends with the reads of a new reader. *)
Lemma reads_drain fid uid : forall l d d' outs, run d (repeat (OpReadBody fid uid 8192 8192) (Datatypes.S (length l))) = Ok (d', outs) ->
  outs = map OutData l ++ [OutRetry] -> drains d fid uid l.
Proof.
  induction l as [|x l IH]; intros d d' outs R E.
  - cbn [length repeat run] in R. destruct (step d _) as [[d1 y]|] eqn:S1; [|discriminate]. cbn [bind] in R. injection R as <- <-. cbn in E. injection E as ->. eapply drains_end. exact S1.
  - cbn [length] in R. change (repeat ?o (Datatypes.S ?n)) with (o :: repeat o n) in R. cbn [run] in R. destruct (step d _) as [[d1 y]|] eqn:S1; [|discriminate]. cbn [bind] in R.
    destruct (run d1 _) as [[d2 ys]|] eqn:R1; [|discriminate]. cbn [bind] in R. injection R as <- <-. cbn [map app] in E. injection E as -> E. eapply drains_more; [exact S1|]. eapply IH; eauto.
Qed.
Lemma ex_drains ops fid uid l :
  ex_outs (ops ++ OpOpen fid true false false false :: repeat (OpReadBody fid uid 8192 8192) (Datatypes.S (length l))) = ex_outs ops ++ OutVal 0 :: map OutData l ++ [OutRetry] ->
  exists d', step (ex_state ops) (OpOpen fid true false false false) = Ok (d', OutVal 0) /\ drains d' fid uid l.
Proof.
  unfold ex_outs, ex_state. rewrite run_split. destruct (run (init_dev ex_nm ex_mem 14) ops) as [[d x]|]; cbn [bind]; [|cbn [app]; intros E; symmetry in E; discriminate].
  remember (repeat (OpReadBody fid uid 8192 8192) (Datatypes.S (length l))) as reads eqn:ER. cbn [run]. destruct (step d _) as [[d1 y]|]; cbn [bind].
  2: { intros E. symmetry in E. apply app_eq_nil in E. destruct E as (_ & E). discriminate. }
  destruct (run d1 reads) as [[d2 z]|] eqn:R; cbn [bind]; intros E.
  - apply app_inv_head in E. injection E as -> E. exists d1. split; [reflexivity|]. subst reads. eapply reads_drain; eauto.
  - symmetry in E. apply app_eq_nil in E. destruct E as (_ & E). discriminate.
Qed.
Lemma acc_same h1 h2 nm mem pow2 ops d1 d2 : explains h1 nm mem pow2 ops d1 -> explains h2 nm mem pow2 ops d2 -> d1 = d2 /\ m_acc (ledger_of h1) = m_acc (ledger_of h2).
Proof.
  intros (A1 & A2) (B1 & B2). rewrite A2 in B2. injection B2 as -> E. split; [reflexivity|]. apply acc_det; auto; congruence.
Qed.

(** User 5 lost one entry; the report they get says 3. *)
Definition ex_entry (uid : Z) (data : list Z) : entry := requested false (ex_task uid) 12 34 (IterUbuf (mkSeg data (zlen data))).
Definition ex_five : entry := ex_entry 5 ex_big.
Lemma ex_reads : ex_outs (ex_ops ++ OpOpen 9 true false false false :: repeat (OpReadBody 9 5 8192 8192) 4)
  = ex_outs ex_ops ++ OutVal 0 :: [OutData (enc 2 (report ex_nm 3 ex_five)); OutData (enc 2 ex_five); OutData (enc 2 ex_five); OutRetry].
Proof. vm_compute. reflexivity. Qed.
(** The history of these calls: all of them succeed. *)
Definition ex_hist (ops : list op) : history :=
  map (fun p => (fst p, match snd p with OutVal v => AVal v | _ => ANoFile end)) (combine ops (ex_outs ops)).
Lemma ex_explains ops : match run (init_dev ex_nm ex_mem 14) ops with Ok _ => true | Bug _ => false end = true ->
  forallb (fun x => match x with OutVal _ => true | _ => false end) (ex_outs ops) = true -> length (ex_outs ops) = length ops ->
  explains (ex_hist ops) ex_nm ex_mem 14 ops (ex_state ops).
Proof.
  unfold ex_hist, ex_state, ex_outs. destruct (run (init_dev ex_nm ex_mem 14) ops) as [[d x]|] eqn:R; [|discriminate]. intros _ F L. split.
  - clear - L. revert x L. induction ops as [|o ops IH]; intros [|x xs] L; try discriminate; [reflexivity|]. cbn [combine map fst]. f_equal. apply IH. now injection L.
  - rewrite R. do 2 f_equal. clear - L F. revert x L F. induction ops as [|o ops IH]; intros [|x xs] L F; try discriminate; [reflexivity|]. cbn [combine map fst snd]. cbn [forallb] in F.
    destruct x; try discriminate. cbn [render]. f_equal. apply IH; [now injection L|exact F].
Qed.
Lemma ex_seven : explains (ex_hist ex_ops) ex_nm ex_mem 14 ex_ops (ex_state ex_ops) /\ own 5 (m_acc (ledger_of (ex_hist ex_ops))) = [ex_entry 5 [9]; ex_five; ex_five].
Proof. split; [apply ex_explains; vm_compute; reflexivity|vm_compute; reflexivity]. Qed.

(** False: the report counts the entries of all users. *)
Theorem C140_own_losses_refuted : exists nm mem pow2 ops, init_ok nm mem pow2 /\ Forall user_op ops /\ ~ told_own_losses nm mem pow2 ops.
Proof.
  exists ex_nm, ex_mem, 14, ex_ops. split; [exact ex_init|]. split; [exact ex_users|]. intros (h & d & EX & T). destruct ex_seven as (EX' & OWN).
  destruct (acc_same _ _ _ _ _ _ _ _ EX EX') as (-> & AC).
  destruct (ex_drains ex_ops 9 5 [enc 2 (report ex_nm 3 ex_five); enc 2 ex_five; enc 2 ex_five] ex_reads) as (d' & OP & DR).
  destruct (T 9 false d' 5 OP) as (gone & kept & E & D). pose proof (drains_det _ _ _ _ DR _ D) as EQ. rewrite AC in E. clear - EQ E OWN.
  rewrite E in OWN. unfold own in *. rewrite filter_app in OWN. set (g := filter _ gone) in *. set (k := filter _ kept) in *. clearbody g k.
  destruct g as [|x1 g]; cbn [app] in OWN; [subst k|injection OWN as -> OWN].
  { apply (f_equal (fun l => ztake 60 (hd [] l))) in EQ. vm_compute in EQ. discriminate. }
  destruct g as [|x2 g]; cbn [app] in OWN; [subst k|injection OWN as -> OWN].
  { apply (f_equal (fun l => ztake 60 (hd [] l))) in EQ. vm_compute in EQ. discriminate. }
  apply (f_equal (@length _)) in EQ. destruct g as [|x3 g]; cbn [app] in OWN; [subst k; vm_compute in EQ; discriminate|injection OWN as -> OWN].
  destruct g as [|x4 g]; [|discriminate OWN]. cbn [app] in OWN. subst k. cbn [stream length] in EQ. discriminate EQ.
Qed.

(** False too: a user whose entries are all lost is told nothing. *)
Definition ex_lost : list op := [OpOpen 1 false true false false; ex_write 6 [1]; ex_write 5 ex_big; ex_write 5 ex_big; ex_write 5 ex_big; ex_write 5 ex_big; ex_write 5 ex_big].
Theorem C140_unseen_refuted : exists nm mem pow2 ops h d fid uid d', init_ok nm mem pow2 /\ Forall user_op ops /\ explains h nm mem pow2 ops d /\
  own uid (m_acc (ledger_of h)) <> [] /\ step d (OpOpen fid true false false false) = Ok (d', OutVal 0) /\ drains d' fid uid [].
Proof.
  destruct (ex_drains ex_lost 9 6 []) as (d' & OP & DR); [vm_compute; reflexivity|].
  exists ex_nm, ex_mem, 14, ex_lost, (ex_hist ex_lost), (ex_state ex_lost), 9, 6, d'. split; [exact ex_init|]. split; [repeat constructor|].
  split; [apply ex_explains; vm_compute; reflexivity|]. split; [vm_compute; discriminate|]. split; [exact OP|exact DR].
Qed.

Lemma only_own : forall uid l, Forall (fun e => e_euid e = u32 uid) l -> own uid l = l.
Proof. intros uid l F. induction F as [|e l E _ IH]; [reflexivity|]. cbn [own filter]. rewrite E, Z.eqb_refl. f_equal. exact IH. Qed.
(** What is true: the reader gets the last of their own entries, [k] of them being lost, after a report of [n]
    losses, at least [k]; the difference are losses of others. So without a report nothing of theirs is missing,
    and if only they write the report is exact. *)
Theorem C140_at_least_partial : forall nm mem pow2 ops, init_ok nm mem pow2 -> Forall user_op ops ->
  exists h d, explains h nm mem pow2 ops d /\
  forall fid wr d' uid, step d (OpOpen fid true wr false false) = Ok (d', OutVal 0) ->
  exists n k, (k <= n)%nat /\ drains d' fid uid (stream nm 2 (Z.of_nat n) (skipn k (own uid (m_acc (ledger_of h))))) /\
    k = length (own uid (firstn n (m_acc (ledger_of h)))) /\ (n = 0%nat \/ 2 ^ pow2 - 12300 < total (skipn n (m_acc (ledger_of h)))) /\
    (Forall (fun e => e_euid e = u32 uid) (m_acc (ledger_of h)) -> k = n).
Proof.
  intros nm mem pow2 ops HI HU. destruct (C16_late_reader nm mem pow2 ops HI HU) as (h & d & EX & H). exists h, d. split; [exact EX|]. intros fid wr d' uid OP.
  destruct (H fid wr false d' OP) as (gone & kept & E & F & D). exists (length gone), (length (own uid gone)).
  assert (LE : (length (own uid gone) <= length gone)%nat). { unfold own. clear. induction gone as [|e l IH]; [apply le_n|]. cbn [filter]. destruct (_ =? _); cbn [length]; lia. }
  split; [exact LE|]. rewrite E. rewrite firstn_app, firstn_all, Nat.sub_diag, firstn_O, app_nil_r. split; [|split; [reflexivity|split]].
  - specialize (D uid). unfold own at 2. rewrite filter_app. fold (own uid gone). fold (own uid kept). rewrite skipn_app, skipn_all, Nat.sub_diag. exact D.
  - rewrite skipn_app, skipn_all, Nat.sub_diag. destruct F as [-> |F]; [now left|now right].
  - intros FO. apply Forall_app in FO. now rewrite (only_own uid gone (proj1 FO)).
Qed.
Example C140_ex : init_ok ex_nm ex_mem 14 /\ Forall user_op ex_ops /\ exists d', step (ex_state ex_ops) (OpOpen 9 true false false false) = Ok (d', OutVal 0).
Proof. split; [exact ex_init|]. split; [exact ex_users|]. eexists. apply ex_step. vm_compute. reflexivity. Qed.
Print Assumptions C140_own_losses_refuted.
Print Assumptions C140_unseen_refuted.
Print Assumptions C140_at_least_partial.
