(** Property C105: from the calls of the library to what ulogcat shows.

    Vocabulary: SaidSpec.v ([said], [told], [remembers], [in_time]), LiveSpec.v ([started],
    [merged], [count], [entries]), CatSpec.v ([lastn]). *)
From Coq Require Import ZArith String List Bool Permutation Sorted Lia ZifyBool ZifyNat Arith.
From Verif Require Import Bytes BytesProofs Ring RingSpec RingHistory RingRefine Parse ParseSpec ParseProofs ParseE2E PropsParse Iov
  Cat CatSpec Render Live LiveSpec LiveProofs LiveDump PropsLive SaidSpec.
Import ListNotations.
Open Scope Z_scope.

Definition entry_said (m : said) : entry :=
  requested false (s_task m) (s_sec m) (s_nsec m)
    (iovec (kernel_iov (s_prio m) (s_tag m) (if binary_of (s_prio m) then s_msg m else s_msg m ++ [0]))).
Definition the_payload (m : said) : list Z :=
  let t := s_task m in
  payload (t_tgid t) (t_pid t) (comm_str (t_pcomm t)) (comm_str (t_tcomm t)) (s_prio m) (s_tag m)
    (ztake (4071 - zlen (names t) - zlen (s_tag m)) (if binary_of (s_prio m) then s_msg m else s_msg m ++ [0])).
Lemma entry_said_eq m : sayable m ->
  entry_said m = mkEntry (meta (t_tgid (s_task m)) (t_pid (s_task m)) (s_sec m) (s_nsec m) (t_euid (s_task m))) (the_payload m).
Proof.
  intros (H1 & H2 & H3 & H4 & H5 & H6 & H7 & H8). unfold entry_said, requested, the_payload.
  set (body := if binary_of (s_prio m) then s_msg m else s_msg m ++ [0]).
  set (t := s_task m). set (P := payload (t_tgid t) (t_pid t) (comm_str (t_pcomm t)) (comm_str (t_tcomm t)) (s_prio m) (s_tag m)).
  assert (HL : zlen (P []) = zlen (names t) + 5 + zlen (s_tag m)).
  { unfold P. rewrite <- names_payload. rewrite app_nil_r, !zlen_app, zlen_le. change (zlen [0]) with 1. lia. }
  rewrite iovec_bytes. cbn [kernel_iov concat]. rewrite app_nil_r.
  pose proof (payload_cut (t_tgid t) (t_pid t) (comm_str (t_pcomm t)) (comm_str (t_tcomm t)) (s_prio m) (s_tag m) body 4076) as C.
  change (payload (t_tgid t) (t_pid t) (comm_str (t_pcomm t)) (comm_str (t_tcomm t)) (s_prio m) (s_tag m)) with P in C.
  rewrite names_payload. fold P. fold t in H8. rewrite C by lia. rewrite HL. f_equal. f_equal. f_equal. lia.
Qed.
Lemma said_parsed m : sayable m -> exists v, parsed_as (enc 2 (entry_said m)) v /\ entry_of v = shown m.
Proof.
  intros S. rewrite (entry_said_eq m S). destruct S as (H1 & H2 & H3 & H4 & H5 & H6 & H7 & H8).
  exists (the_view (s_task m) (s_sec m) (s_nsec m) (s_prio m) (s_tag m) (fitting m)).
  set (t := s_task m) in *. pose proof (zlen_nonneg (s_tag m)). pose proof (zlen_names t). split; [|reflexivity].
  apply enc_parsed; try assumption.
  - unfold the_payload. fold t. set (body := if binary_of (s_prio m) then s_msg m else s_msg m ++ [0]).
    set (P := payload (t_tgid t) (t_pid t) (comm_str (t_pcomm t)) (comm_str (t_tcomm t)) (s_prio m) (s_tag m)).
    assert (HL : zlen (P []) = zlen (names t) + 5 + zlen (s_tag m)).
    { unfold P. rewrite <- names_payload. rewrite app_nil_r, !zlen_app, zlen_le. change (zlen [0]) with 1. lia. }
    assert (A : forall b, zlen (P b) = zlen (P []) + zlen b).
    { intros b. unfold P, payload. rewrite !zlen_app. change (zlen (@nil Z)) with 0. lia. }
    rewrite A, HL, zlen_ztake. pose proof (zlen_nonneg body). lia.
  - unfold the_view, the_payload. fold t. apply payload_shows; try assumption; try apply comm_no_nul.
    unfold fitting. fold t. destruct (binary_of (s_prio m)) eqn:B.
    + cbn [body_message]. f_equal. lia.
    + replace (4076 - zlen (names t) - 5 - zlen (s_tag m) - 1) with (4071 - zlen (names t) - zlen (s_tag m) - 1) by lia.
      apply text_body; [now apply H2|lia].
Qed.
Lemma said_warned nm n m : sayable m -> c_string nm -> zlen nm <= 15 -> 0 <= n ->
  exists v, parsed_as (enc 2 (report nm n (entry_said m))) v /\ warning nm n m (entry_of v).
Proof.
  intros S Hnm L Hn. rewrite (entry_said_eq m S). destruct S as (H1 & H2 & H3 & H4 & H5 & H6 & H7 & H8).
  destruct (Z.ltb_spec n (2 ^ 31)) as [B|B].
  - destruct (C24_report_parses_partial nm n (t_tgid (s_task m)) (t_pid (s_task m)) (s_sec m) (s_nsec m) (t_euid (s_task m)) (the_payload m)
      Hnm L H6 H7 (conj Hn B)) as (digits & P & D1 & D2).
    eexists. split; [exact P|]. eexists. split; [reflexivity|]. intros _. exists digits. auto.
  - eexists. split; [apply report_parsed; assumption|]. eexists. split; [reflexivity|]. intros X. lia.
Qed.
Lemma said_euid m : sayable m -> e_euid (entry_said m) = t_euid (s_task m) mod 2 ^ 32.
Proof.
  intros S. rewrite (entry_said_eq m S), e_euid_meta. reflexivity.
Qed.

Lemma said_total l : Forall sayable l -> RingSpec.total (map entry_said l) = weights l.
Proof.
  induction 1 as [|m l S _ IH]; cbn [map]; [reflexivity|]. rewrite total_cons, IH. cbn [weights fold_right]. fold (weights l). f_equal.
  unfold esize. rewrite (entry_said_eq m S). destruct S as (H1 & H2 & H3 & H4 & H5 & H6 & H7 & H8). cbn [e_payload].
  unfold the_payload, weight. set (t := s_task m) in *.
  set (P := payload (t_tgid t) (t_pid t) (comm_str (t_pcomm t)) (comm_str (t_tcomm t)) (s_prio m) (s_tag m)).
  assert (HL : zlen (P []) = zlen (names t) + 5 + zlen (s_tag m)).
  { unfold P. rewrite <- names_payload. rewrite app_nil_r, !zlen_app, zlen_le. change (zlen [0]) with 1. lia. }
  assert (A : forall b, zlen (P b) = zlen (P []) + zlen b).
  { intros b. unfold P, payload. rewrite !zlen_app. change (zlen (@nil Z)) with 0. lia. }
  rewrite A, HL, zlen_ztake. unfold fitting. fold t. rewrite zlen_ztake. pose proof (zlen_nonneg (s_msg m)).
  destruct (binary_of (s_prio m)); rewrite ?zlen_app; [lia|]. change (zlen [0]) with 1. lia.
Qed.

(** The bookkeeping of the driver's properties is the list of messages. *)
Lemma told_ledger ops outs l : told ops outs l -> forall h, map fst h = ops -> map (fun ev => render (snd ev)) h = outs ->
  (forall f, m_raw (ledger_of h) f = false) /\ m_acc (ledger_of h) = map entry_said l /\ Forall sayable l.
Proof.
  assert (X : forall (h : history) ops o outs x, map fst h = ops ++ [o] -> map (fun ev => render (snd ev)) h = outs ++ [x] ->
    exists h0 y, h = h0 ++ [(o, y)] /\ render y = x /\ map fst h0 = ops /\ map (fun ev => render (snd ev)) h0 = outs).
  { intros h ops0 o outs0 x E1 E2. destruct h as [|ev h _] using rev_ind; [destruct ops0; discriminate|].
    rewrite map_app in E1, E2. cbn [map] in *. apply app_inj_tail in E1, E2. destruct ev as [o' y]. cbn [fst snd] in *.
    destruct E1 as [E1 ->], E2 as [E2 E3]. exists h, y. auto. }
  assert (V : forall y v, render y = OutVal v -> y = AVal v) by (intros y v; destruct y; cbn; congruence).
  induction 1 as [|ops outs l fid m v T IH S|ops outs l fid euid v T IH|ops outs l o x T IH NV|ops outs l o x T IH Q];
    intros h E1 E2; [assert (h = []) as -> by (destruct h; [reflexivity|discriminate]); cbn; auto|..];
    destruct (X h _ _ _ _ E1 E2) as (h0 & y & -> & Ey & E1' & E2'); destruct (IH h0 E1' E2') as (R & A & Sy);
    unfold ledger_of; rewrite fold_left_app; fold (ledger_of h0); cbn [fold_left].
  - apply V in Ey. subst y. cbn [say record]. rewrite R. fold (entry_said m).
    destruct (Z.eqb_spec (zlen (e_payload (entry_said m))) 0) as [Z0|_].
    { exfalso. rewrite (entry_said_eq m S) in Z0. cbn [e_payload] in Z0. unfold the_payload, payload in Z0.
      rewrite !zlen_app, zlen_le in Z0.
      repeat match type of Z0 with context [zlen ?z] => lazymatch goal with H : 0 <= zlen z |- _ => fail | _ => pose proof (zlen_nonneg z) end end. lia. }
    cbn [m_raw m_acc]. rewrite A, map_app. split; [exact R|]. split; [reflexivity|]. apply Forall_app. auto.
  - apply V in Ey. subst y. cbn [record m_raw m_acc]. auto.
  - destruct o as [f1 rd wr al nm|f1|f1 nb sg|f1 eu ct va|f1 t sec nsec it|f1 eu|f1 c eu]; destruct y; cbn [render] in Ey;
      try (exfalso; eapply NV; symmetry; exact Ey); cbn [record m_raw m_acc]; auto; destruct c; cbn [record m_raw m_acc]; auto.
    all: match goal with |- context [match ?v with Some _ => _ | None => _ end] => destruct v end; cbn [record m_raw m_acc]; auto.
  - destruct o as [f1 rd wr al nm|f1|f1 nb sg|f1 eu ct va|f1 t sec nsec it|f1 eu|f1 c eu]; try contradiction; destruct y;
      cbn [record m_raw m_acc]; auto; try (destruct c; try contradiction; cbn [record m_raw m_acc]; auto).
    split; [|auto]. intros f. unfold set. destruct (f =? f1); auto.
Qed.

Lemma reads_fun rec u u' : reads_as rec u -> reads_as rec u' -> u = u'.
Proof.
  intros (v & (mem & e & P & _ & S) & ->) (v' & (mem' & e' & P' & _ & S') & ->).
  assert (mem' = mem) as -> by congruence. assert (e' = e) as -> by congruence.
  rewrite <- (resolve_shows _ _ _ S). apply (resolve_shows _ _ _ S').
Qed.
Lemma shown_all l : Forall sayable l -> forall us, Forall2 reads_as (map (enc 2) (map entry_said l)) us -> us = map shown l.
Proof.
  induction 1 as [|m l Hm Hl IH]; intros us H; inversion H as [|a u b us' R R']; subst; [reflexivity|].
  cbn [map]. f_equal; [|now apply IH]. destruct (said_parsed m Hm) as (v & P & E).
  rewrite <- E. apply (reads_fun _ _ _ R). exists v. auto.
Qed.
Lemma remembers_of uid g l recs us : started uid g -> was_told g l -> c_string (g_nm g) ->
  content uid g recs -> Forall2 reads_as recs us -> remembers uid g l us.
Proof.
  intros ((_ & _ & Hn) & _) (d0 & outs & Er & T) Hnm (h & d & gone & kept & (Ef & Ex) & Ea & EK & ->) F.
  assert (outs = map (fun ev => render (snd ev)) h) as -> by congruence.
  destruct (told_ledger _ _ _ T h Ef eq_refl) as (_ & A & S). rewrite A in Ea.
  apply map_eq_app in Ea. destruct Ea as (lost & k & -> & <- & <-). exists lost, k. split; [reflexivity|].
  apply Forall_app in S. destruct S as [Sl Sk]. split.
  { destruct EK as [EK|EK]; [left|right; now rewrite <- (said_total k Sk)]. destruct lost; [reflexivity|discriminate]. }
  cbv zeta.
  set (mine := if g_all g then k else _).
  assert (Em : (if g_all g then map entry_said k else filter (fun e => e_euid e =? u32 uid) (map entry_said k)) = map entry_said mine /\ Forall sayable mine).
  { subst mine. destruct (g_all g); [auto|]. split.
    - apply filter_map_comm. rewrite Forall_forall in *. intros m Hm. rewrite (said_euid m (Sk m Hm)). reflexivity.
    - rewrite Forall_forall in *. intros m Hm. apply filter_In in Hm. now apply Sk. }
  destruct Em as [Em Sm]. rewrite Em in F. clearbody mine. clear Em.
  destruct mine as [|next mine]; [cbn in F; now inversion F|].
  cbn [map stream] in F. rewrite zlen_map in F.
  destruct lost as [|m0 lost].
  - left. split; [reflexivity|]. apply (shown_all _ Sm). exact F.
  - right. split; [discriminate|].
    assert (L : (0 <? zlen (m0 :: lost)) = true) by (rewrite zlen_cons; pose proof (zlen_nonneg lost); lia). rewrite L in F.
    cbn [app] in F. inversion F as [|a r b us' R R']; subst. exists r. split.
    + destruct (said_warned (g_nm g) (zlen (m0 :: lost)) next (Forall_inv Sm) Hnm Hn (zlen_nonneg _)) as (v & P & W).
      replace r with (entry_of v); [exact W|]. symmetry. apply (reads_fun _ _ _ R). exists v. auto.
    + f_equal. apply (shown_all _ Sm). exact R'.
Qed.

Lemma sorted_app {A} (P : A -> A -> Prop) a b : StronglySorted P (a ++ b) -> StronglySorted P b.
Proof. induction a as [|x a IH]; cbn; auto. intros H. inversion H; auto. Qed.
Lemma remembers_timely uid g l us : in_time l -> remembers uid g l us ->
  StronglySorted (fun a b => utime a <= utime b) us /\ Forall (fun u => 0 <= u_sec u /\ 0 <= u_nsec u) us.
Proof.
  intros [T1 T2] (lost & kept & -> & _ & H). apply sorted_app in T1. apply Forall_app in T2. destruct T2 as [_ T2]. cbv zeta in H.
  set (mine := if g_all g then kept else _) in H.
  assert (M : StronglySorted (fun a b => said_time a <= said_time b) mine /\ Forall (fun m => 0 <= s_sec m /\ 0 <= s_nsec m) mine).
  { subst mine. destruct (g_all g); [auto|]. split; [now apply filter_sorted|].
    rewrite Forall_forall in *. intros m Hm. apply filter_In in Hm. now apply T2. }
  clearbody mine. clear T1 T2. destruct M as [T1 T2].
  assert (S1 : StronglySorted (fun a b => utime a <= utime b) (map shown mine)).
  { apply (sorted_map (fun a b => said_time a <= said_time b) _ _ (fun _ => True)); auto. apply Forall_forall. auto. }
  assert (S2 : Forall (fun u => 0 <= u_sec u /\ 0 <= u_nsec u) (map shown mine)) by (rewrite Forall_map; exact T2).
  destruct mine as [|next mine]; [subst; split; constructor|].
  destruct H as [[_ ->]|(_ & r & (text & -> & _) & ->)]; [auto|]. split.
  - constructor; [exact S1|]. cbn [map] in *. constructor; [apply Z.le_refl|]. inversion S1 as [|? ? _ F]; subst. exact F.
  - constructor; [|exact S2]. inversion T2; auto.
Qed.

(** ** C105 *)

Lemma remembers_times uid g l us : Forall (fun m => 0 <= s_sec m /\ 0 <= s_nsec m) l -> remembers uid g l us ->
  Forall (fun u => 0 <= u_sec u /\ 0 <= u_nsec u) us.
Proof.
  intros T2 (lost & kept & -> & _ & H). apply Forall_app in T2. destruct T2 as [_ T2]. cbv zeta in H.
  set (mine := if g_all g then kept else _) in H.
  assert (M : Forall (fun m => 0 <= s_sec m /\ 0 <= s_nsec m) mine).
  { subst mine. destruct (g_all g); [auto|]. rewrite Forall_forall in *. intros m Hm. apply filter_In in Hm. now apply T2. }
  clearbody mine. clear T2.
  assert (S2 : Forall (fun u => 0 <= u_sec u /\ 0 <= u_nsec u) (map shown mine)) by (rewrite Forall_map; exact M).
  destruct mine as [|next mine]; [subst; constructor|].
  destruct H as [[_ ->]|(_ & r & (text & -> & _) & ->)]; [auto|]. constructor; [|exact S2]. inversion M; auto.
Qed.
(** The same for times in any order (the driver reads the clock before it takes its lock): the order
    of each device is kept, and the foremost message with the least time comes next. *)
Theorem C105_any_times : forall csv uid gs ls, Forall (started uid) gs -> Forall2 was_told gs ls ->
  Forall (fun g => c_string (g_nm g)) gs -> Forall (Forall (fun m => 0 <= s_sec m /\ 0 <= s_nsec m)) ls ->
  exists us, Forall2 (fun gl u => remembers uid (fst gl) (snd gl) u) (combine gs ls) us /\
  exists q, picks utime (fun d => filter (wanted csv) (nth d us [])) q /\
    forall fuel, (2 * count us < fuel)%nat -> forall N, 0 <= N ->
      exists ns' c', process_logs fuel (live_env csv uid) true 0 (map g_node gs) (open_ctx N (map g_mark gs)) 0
                       = Ok (Some (ns', c', 0)) /\
        entries (c_out c') = if N =? 0 then q else lastn (Z.to_nat N) q.
Proof.
  intros csv uid gs ls HS HT HN HI. destruct (C102_any_times csv uid gs HS) as (recs & us & A & B & C).
  assert (R : Forall2 (fun gl u => remembers uid (fst gl) (snd gl) u) (combine gs ls) us).
  { clear - HS HT HN A B. revert ls us HT B HS HN. induction A as [|g r gs recs Hg A IH]; intros ls us HT B HS HN;
      inversion HT as [|? l ? ls' T1 T2]; inversion B as [|? u ? us' B1 B2]; subst; cbn [combine]; constructor.
    - cbn [fst snd]. eapply remembers_of; [exact (Forall_inv HS)|exact T1|exact (Forall_inv HN)|exact Hg|exact B1].
    - apply IH; auto; eapply Forall_inv_tail; eassumption. }
  exists us. split; [exact R|]. apply C. clear - R HI HT. revert us R HI.
  induction HT as [|g l gs ls T HT IH]; intros us R HI; cbn [combine] in R; inversion R as [|? u ? us' R1 R2]; subst; constructor.
  - eapply remembers_times; [exact (Forall_inv HI)|exact R1].
  - apply IH; [exact R2|exact (Forall_inv_tail HI)].
Qed.
(** Several devices, to each of which any programs logged through the library, and from which
    anything may have been read; then a dump. The dump ends and shows the latest messages of each
    device, whole and with their sender, level, tag and text, merged by time, after a warning that
    counts the older ones that are gone; with a tail of N the last N of these. *)
Theorem C105_end_to_end : forall csv uid gs ls, Forall (started uid) gs -> Forall2 was_told gs ls ->
  Forall (fun g => c_string (g_nm g)) gs -> Forall in_time ls ->
  exists us, Forall2 (fun gl u => remembers uid (fst gl) (snd gl) u) (combine gs ls) us /\
  exists q, merged csv us q /\
    forall fuel, (2 * count us < fuel)%nat -> forall N, 0 <= N ->
      exists ns' c', process_logs fuel (live_env csv uid) true 0 (map g_node gs) (open_ctx N (map g_mark gs)) 0
                       = Ok (Some (ns', c', 0)) /\
        entries (c_out c') = if N =? 0 then q else lastn (Z.to_nat N) q.
Proof.
  intros csv uid gs ls HS HT HN HI. destruct (C105_any_times csv uid gs ls HS HT HN) as (us & R & q & P & D).
  { eapply Forall_impl; [|exact HI]. intros l [_ X]. exact X. }
  exists us. split; [exact R|]. exists q. split; [|exact D]. apply picked_merged; [|exact P].
  clear - R HI HT. unfold timely. revert us R HI.
  induction HT as [|g l gs ls T HT IH]; intros us R HI; cbn [combine] in R; inversion R as [|? u ? us' R1 R2]; subst; constructor.
  - eapply remembers_timely; [exact (Forall_inv HI)|exact R1].
  - apply IH; [exact R2|exact (Forall_inv_tail HI)].
Qed.

(** The devices of C102_ex, filled by the library. *)
Definition ex_task : task := mkTask 100 107 (bytes_of_string "prog") (bytes_of_string "worker") 5.
Definition ex_m1 : said := mkSaid ex_task 1 0 6 (bytes_of_string "net") (bytes_of_string "up").
Definition ex_m2 : said := mkSaid ex_task 2 0 131 (bytes_of_string "net") [0; 1].
Definition ex_m3 : said := mkSaid ex_task 3 0 3 (bytes_of_string "net") (bytes_of_string "down").
Lemma ex_sayable m : In m [ex_m1; ex_m2; ex_m3] -> sayable m.
Proof.
  intros H. repeat destruct H as [<-|H]; try contradiction; unfold sayable, c_string, uint32, int32; cbn;
    repeat split; try lia; try discriminate; intuition discriminate.
Qed.
Definition ex_ops1 : list op := [OpOpen 1 false true false false; say 1 ex_m1; say 9 ex_m3; say 1 ex_m3].
Definition ex_ops2 : list op := [OpOpen 1 false true false false; say 1 ex_m2].
Lemma ex_told1 : told ex_ops1 [OutVal 0; OutVal 11; OutNoFile; OutVal 13] [ex_m1; ex_m3].
Proof.
  apply (td_msg [_; _; _] [_; _; _] [ex_m1]); [|apply ex_sayable; cbn; auto].
  apply (td_refused [_; _] [_; _]); [|discriminate]. apply (td_msg [_] [_] []); [|apply ex_sayable; cbn; auto].
  apply (td_quiet [] []); [constructor|exact Logic.I].
Qed.
Lemma ex_told2 : told ex_ops2 [OutVal 0; OutVal 10] [ex_m2].
Proof. apply (td_msg [_] [_] []); [|apply ex_sayable; cbn; auto]. apply (td_quiet [] []); [constructor|exact Logic.I]. Qed.
Definition outs_of (nm : string) (ops : list op) : option (list out) :=
  match run (init_dev (bytes_of_string nm) (zrepeat 170 16384) 14) ops with
  | Ok (d, outs) => match add_ulog_device d 2 true 0 with Ok (Some _) => Some outs | _ => None end
  | Bug _ => None
  end.
Lemma ex_run1 : outs_of "ulog_main" ex_ops1 = Some [OutVal 0; OutVal 11; OutNoFile; OutVal 13].
Proof. vm_compute. reflexivity. Qed.
Lemma ex_run2 : outs_of "ulog_app" ex_ops2 = Some [OutVal 0; OutVal 10].
Proof. vm_compute. reflexivity. Qed.
Lemma ex_told nm ops outs l : outs_of nm ops = Some outs -> zlen (bytes_of_string nm) <= 15 -> Forall user_op ops ->
  told ops outs l -> started 0 (ex_log nm ops) /\ was_told (ex_log nm ops) l /\ g_nm (ex_log nm ops) = bytes_of_string nm.
Proof.
  intros E L U T. split.
  { apply ex_log_started; [|exact L|exact U]. unfold outs_of in E. destruct (run _ ops) as [[d x]|]; [|discriminate].
    destruct (add_ulog_device d 2 true 0) as [[[n m]|]|]; try discriminate. reflexivity. }
  unfold outs_of in E. unfold was_told, ex_log. destruct (run _ ops) as [[d x]|] eqn:R; [|discriminate].
  destruct (add_ulog_device d 2 true 0) as [[[n m]|]|] eqn:A; try discriminate. cbn [g_nm g_mem g_pow2 g_ops]. split; [|reflexivity].
  exists d, outs. rewrite R. split; [congruence|exact T].
Qed.
Definition ex_g1 : log := ex_log "ulog_main" ex_ops1.
Definition ex_g2 : log := ex_log "ulog_app" ex_ops2.
Lemma ex_g1_ok : started 0 ex_g1 /\ was_told ex_g1 [ex_m1; ex_m3] /\ g_nm ex_g1 = bytes_of_string "ulog_main".
Proof. apply (ex_told _ _ _ _ ex_run1); [vm_compute; discriminate|repeat constructor|exact ex_told1]. Qed.
Lemma ex_g2_ok : started 0 ex_g2 /\ was_told ex_g2 [ex_m2] /\ g_nm ex_g2 = bytes_of_string "ulog_app".
Proof. apply (ex_told _ _ _ _ ex_run2); [vm_compute; discriminate|repeat constructor|exact ex_told2]. Qed.
Example C105_ex : Forall (started 0) [ex_g1; ex_g2] /\ Forall2 was_told [ex_g1; ex_g2] [[ex_m1; ex_m3]; [ex_m2]] /\
  Forall (fun g => c_string (g_nm g)) [ex_g1; ex_g2] /\ Forall in_time [[ex_m1; ex_m3]; [ex_m2]].
Proof.
  destruct ex_g1_ok as (A1 & B1 & N1). destruct ex_g2_ok as (A2 & B2 & N2).
  assert (C1 : c_string (g_nm ex_g1)) by (rewrite N1; vm_compute; intuition discriminate).
  assert (C2 : c_string (g_nm ex_g2)) by (rewrite N2; vm_compute; intuition discriminate).
  clear N1 N2. revert A1 B1 C1 A2 B2 C2. generalize ex_g1 ex_g2. intros g1 g2 A1 B1 C1 A2 B2 C2.
  split; [exact (Forall_cons _ A1 (Forall_cons _ A2 (Forall_nil _)))|].
  split; [exact (Forall2_cons _ _ B1 (Forall2_cons _ _ B2 (Forall2_nil _)))|]. split.
  - apply Forall_cons; [exact C1|]. apply Forall_cons; [exact C2|apply Forall_nil].
  - repeat apply Forall_cons; try apply Forall_nil; split; repeat apply SSorted_cons; repeat apply Forall_cons;
      try apply Forall_nil; try apply SSorted_nil; try split; vm_compute; discriminate.
Qed.
Print Assumptions C105_any_times.
Print Assumptions C105_end_to_end.
