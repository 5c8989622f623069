(** Property C134: from what ulogger is given to the bytes that ulogcat prints.

    Vocabulary: UloggerRunSpec.v ([given], [fine], [messages_of], [screen_of], [costs_of]),
    UloggerSpec.v ([cut], [dated], [stamped]), ProgramSpec.v ([block], [notice]). *)
From Coq Require Import ZArith String List Bool Permutation Sorted Lia ZifyBool ZifyNat Arith.
From Verif Require Import Bytes BytesProofs Ring RingSpec RingHistory RingRefine RingLemmas RingObs Parse ParseSpec ParseProofs ParseE2E Iov
  Cat CatSpec Render Live LiveSpec PropsRing Program ProgramSpec PropsProgram ScreenProofs.
From Verif Require Import KlogSpec Ulogger UloggerSpec PropsUlogger UloggerRun UloggerRunSpec.
Import ListNotations.
Open Scope Z_scope.

(** ** Cutting in one way *)
Lemma app_split_len {A} (a b c e : list A) : a ++ b = c ++ e -> length a = length c -> a = c /\ b = e.
Proof.
  revert c. induction a as [|x a IH]; intros [|y c] E L; try discriminate; [auto|]. injection E as <- E. injection L as L.
  destruct (IH c E L). subst. auto.
Qed.
Lemma cut_longer m r m' r' : m ++ concat r = m' ++ concat r' -> Forall piece (m :: r) -> Forall complete (removelast (m :: r)) ->
  Forall piece (m' :: r') -> (length m < length m')%nat -> False.
Proof.
  intros E P C P' L. inversion P as [|? ? (N & LM & NL) PR]; subst. inversion P' as [|? ? (N' & LM' & NL') _]; subst.
  assert (X : exists z, m' = m ++ z /\ z <> []).
  { exists (skipn (length m) m'). assert (Y : firstn (length m) m' = m).
    { apply (f_equal (firstn (length m))) in E. rewrite !firstn_app, Nat.sub_diag, firstn_all in E. cbn [firstn] in E. rewrite app_nil_r in E.
      replace (length m - length m')%nat with O in E by lia. cbn [firstn] in E. now rewrite app_nil_r in E. }
    split; [rewrite <- Y at 1; symmetry; apply firstn_skipn|]. intros Z0. apply (f_equal (@length Z)) in Z0. rewrite skipn_length in Z0. cbn in Z0. lia. }
  destruct X as (z & -> & NZ). rewrite <- app_assoc in E. apply app_inv_head in E.
  destruct r as [|m2 r2]; [cbn in E; destruct z; [congruence|discriminate]|].
  assert (CM : complete m) by (cbn [removelast] in C; inversion C; assumption). destruct CM as [CM|CM].
  - rewrite zlen_app in LM'. destruct z; [congruence|]. rewrite zlen_cons in LM'. pose proof (zlen_nonneg z0). lia.
  - apply NL'. rewrite removelast_app by exact NZ. apply in_or_app. left. rewrite <- CM.
    destruct (exists_last N) as (a & y & ->). rewrite last_last. apply in_or_app. right. now left.
Qed.
Lemma cut_unique s l : forall l', cut s l -> cut s l' -> l = l'.
Proof.
  revert s. induction l as [|m r IH]; intros s l' (E & P & C) (E' & P' & C').
  - cbn in E. subst s. destruct l' as [|m' r']; [reflexivity|]. inversion P' as [|? ? (N & _) _]; subst. destruct m'; [congruence|discriminate].
  - destruct l' as [|m' r']. { inversion P as [|? ? (N & _) _]; subst. destruct m; [congruence|discriminate]. }
    cbn [concat] in E, E'. assert (X : m ++ concat r = m' ++ concat r') by congruence.
    destruct (lt_eq_lt_dec (length m) (length m')) as [[L|L]|L].
    + exfalso. apply (cut_longer _ _ _ _ X P C P' L).
    + destruct (app_split_len _ _ _ _ X L) as [-> X2]. f_equal. apply (IH (concat r)).
      * split; [reflexivity|]. split; [now inversion P|]. destruct r; [constructor|]. cbn [removelast] in C. now inversion C.
      * split; [auto|]. split; [now inversion P'|]. destruct r' as [|x r']; [constructor|]. cbn [removelast] in C'. now inversion C'.
    + exfalso. apply (cut_longer _ _ _ _ (eq_sym X) P' C' P L).
Qed.

(** ** The events *)
Lemma entries_vectors evs : entries evs = map (@concat Z) (vectors evs).
Proof. induction evs as [|e evs IH]; [reflexivity|]. unfold UloggerSpec.entries, vectors in *. cbn [flat_map]. rewrite map_app, <- IH. destruct e; reflexivity. Qed.
Lemma vectors_app a b : vectors (a ++ b) = vectors a ++ vectors b.
Proof. apply flat_map_app. Qed.
Lemma pid_of_range opts : forall p, int32 p /\ p <> -1 -> Forall good_opt opts -> int32 (last_of pid_opt p opts) /\ last_of pid_opt p opts <> -1.
Proof.
  induction opts as [|o opts IH]; intros p Hp G; [exact Hp|]. rewrite last_of_cons. inversion G as [|? ? G0 G']; subst. apply IH; [|exact G'].
  destruct o; cbn [pid_opt]; try exact Hp. cbn [good_opt] in G0. destruct G0 as [W|(v & -> & V)]; [|unfold ProgramSpec.int32; lia].
  rewrite wrong_number by exact W. exact Hp.
Qed.
Lemma dated_times clock ms : (forall j, 0 <= fst (clock j) < 2 ^ 31 /\ 0 <= snd (clock j) < 2 ^ 31) ->
  Forall (fun x : Z * Z * list Z => 0 <= fst (fst x) < 2 ^ 31 /\ 0 <= snd (fst x) < 2 ^ 31) (dated clock ms).
Proof. intros H. unfold dated. rewrite Forall_map. apply Forall_forall. intros [j m] _. cbn [fst snd]. apply H. Qed.
Lemma dec_nonneg a : digits a -> 0 <= dec_val a.
Proof.
  intros [_ D]. induction D as [|c l C _ IH]; cbn [dec_val]; [lia|]. pose proof (Z.pow_nonneg 10 (zlen l) ltac:(lia)). nia.
Qed.
Lemma given_times k ms : fine k ms -> given k ms ->
  Forall (fun x : Z * Z * list Z => 0 <= fst (fst x) < 2 ^ 31 /\ 0 <= snd (fst x) < 2 ^ 31) ms.
Proof.
  intros F G. destruct G as [_ _|ms _ _ _|ss _ _ _ S|ts _ _ _ S].
  - apply dated_times, (fn_clock _ _ F).
  - apply dated_times, (fn_clock _ _ F).
  - rewrite Forall_map. eapply Forall_impl; [|exact S]. intros s (D1 & D2 & _ & _ & _ & D3). unfold stamp_item. cbn [fst snd].
    pose proof (dec_nonneg _ D1). destruct (s_nsec s) as [n|]; [destruct D3 as (D3 & D4 & _); pose proof (dec_nonneg _ D3)|]; lia.
  - rewrite Forall_map. eapply Forall_impl; [|exact S]. intros [[a b] m] (D1 & D2 & D3 & D4). cbn [fst snd].
    pose proof (dec_nonneg _ D1). pose proof (dec_nonneg _ D3). lia.
Qed.
Lemma in_concat_no (ms : list (list Z)) : (forall m, In m ms -> ~ In 0 m) -> ~ In 0 (concat ms).
Proof. intros H X. apply in_concat in X as (m & Hm & X). exact (H m Hm X). Qed.
Lemma dated_snd clock ms m : In m ms -> exists t, In (t, m) (dated clock ms).
Proof.
  intros H. unfold dated. apply In_nth_error in H as (j & H). exists (clock j).
  change (clock j, m) with ((fun p : nat * list Z => (clock (fst p), snd p)) (j, m)). apply in_map.
  assert (G : forall i, nth_error (combine (seq i (length ms)) ms) j = Some ((i + j)%nat, m)).
  { revert j H. induction ms as [|y ms IH]; intros [|j] H i; try discriminate; cbn [length seq combine nth_error] in *.
    - injection H as ->. now rewrite Nat.add_0_r.
    - rewrite (IH j H (S i)). do 2 f_equal. lia. }
  apply nth_error_In with j. apply (G O).
Qed.
Lemma given_main W k ms : 32 <= W -> fine k ms -> given k ms -> forall res, (forall j, 0 <= res j) ->
  exists evs, main W (k_fid k) (k_pid k) (k_name k) (k_opts k) (k_args k) (k_input k) (fun i => Some (k_clock k i)) res = Ok (evs ++ [Exit 0]) /\
    entries evs = entries_for (k_pid k) (k_name k) (k_opts k) ms.
Proof.
  intros HW F G res HR. change (fun i => Some (k_clock k i)) with (read_clock (k_clock k)).
  assert (HC : forall j, ParseSpec.int32 (fst (k_clock k j)) /\ ParseSpec.int32 (snd (k_clock k j))).
  { intros j. pose proof (fn_clock _ _ F j). unfold ParseSpec.int32. lia. }
  pose proof (fn_fid _ _ F) as Hf. destruct (fn_pid _ _ F) as [_ Hp]. pose proof (fn_opts _ _ F) as Ho. pose proof (fn_texts _ _ F) as Ht. clear F.
  destruct G as [NT NA|ms NT EA C|ss T EA EI S|ts T NE EA S].
  - apply (C75_args W (k_fid k) (k_pid k) (k_name k) (k_opts k) (k_args k) (k_input k) (k_clock k) res); auto.
  - rewrite EA. assert (N0 : ~ In 0 (k_input k)).
    { destruct C as [<- _]. apply in_concat_no. intros m Hm. destruct (dated_snd (k_clock k) ms m Hm) as (t & X).
      rewrite Forall_forall in Ht. destruct (Ht _ X) as [Y _]. exact Y. }
    destruct (C74_stdin_partial W (k_fid k) (k_pid k) (k_name k) (k_opts k) (k_input k) (k_clock k) res HW Hf Hp Ho NT HR HC N0) as (ms' & evs & C' & E & E').
    rewrite (cut_unique _ _ _ C C'). eauto.
  - rewrite EA, EI. apply (proj1 (C76_times_partial W (k_fid k) (k_pid k) (k_name k) (k_opts k) _ res HW Hf Hp Ho T HR)). exact S.
  - rewrite EA. apply (proj2 (C76_times_partial W (k_fid k) (k_pid k) (k_name k) (k_opts k) _ res HW Hf Hp Ho T HR)); assumption.
Qed.

(** ** The device *)
Definition rfile : file := mkFile true true None.
Lemma write_raw_files d fid fid' t sec nsec it d' x : d_files d = [(fid, rfile)] -> step d (OpWrite fid' t sec nsec it) = Ok (d', x) -> d_files d' = [(fid, rfile)].
Proof.
  intros F. cbn [step]. destruct (lookup fid' (d_files d)) as [f|]; [|congruence]. destruct (f_write f); [|congruence].
  destruct (ulogger_write_iter d (f_raw f) t sec nsec it) as [[d1 v]|] eqn:E; [|discriminate]. cbn [bind]. intros [= <- _]. revert E.
  unfold ulogger_write_iter. destruct (f_raw f && _); [congruence|].
  match goal with |- (if ?b then _ else _) = _ -> _ => destruct b; [congruence|] end.
  match goal with |- bind ?m _ = _ -> _ => destruct m as [d0|] eqn:E0; [|discriminate] end. cbn [bind].
  assert (F0 : d_files d0 = [(fid, rfile)]).
  { unfold fix_up_readers in E0. rewrite F in E0. match type of E0 with bind ?m _ = _ => destruct m as [l'|]; [|discriminate] end.
    cbn [bind fix_up_files f_reader rfile] in E0. assert (d0 = Ring.mkDev l' [(fid, rfile)]) by congruence. now subst. }
  match goal with |- bind ?m _ = _ -> _ => destruct m as [[l2 s1]|]; [|discriminate] end. cbn [bind].
  match goal with |- bind ?m _ = _ -> _ => destruct m as [[l3 r]|]; [|discriminate] end. cbn [bind].
  destruct r; intros [= <- _]; exact F0.
Qed.
Definition raw_write (fid : Z) (t : task) (v : list (list Z)) : op := OpWrite fid t 0 0 (iovec v).
Lemma write_one d fid t v : reachable d -> d_files d = [(fid, rfile)] -> 20 <= zlen (concat v) ->
  exists d' n, step d (raw_write fid t v) = Ok (d', OutVal n) /\ 0 <= n /\ reachable d' /\ d_files d' = [(fid, rfile)].
Proof.
  intros R F L. unfold raw_write.
  assert (U : user_op (OpWrite fid t 0 0 (iovec v))) by (apply readable_user, iovec_readable).
  destruct (reachable_R d R) as (a0 & m0 & HR0 & Hv0 & _). destruct (step_R d a0 _ U HR0 Hv0) as (d1 & E & _).
  match type of E with _ = Ok (_, ?y) => set (x := y) in *; clearbody x end.
  assert (LK : lookup fid (d_files d) = Some rfile) by (rewrite F; cbn [lookup]; now rewrite Z.eqb_refl).
  destruct (C12_write_succeeds _ _ _ _ _ _ _ _ _ R (iovec_readable _) LK eq_refl (fun _ => eq_ind_r (fun z => 20 <= zlen z) L (iovec_bytes v)) E) as (n & -> & N).
  exists d1, n. split; [exact E|]. split; [exact N|]. split; [exact (reachable_step _ _ _ _ R U E)|exact (write_raw_files _ _ _ _ _ _ _ _ _ F E)].
Qed.
Lemma write_many fid t vs : Forall (fun v => 20 <= zlen (concat v)) vs -> forall d, reachable d -> d_files d = [(fid, rfile)] ->
  exists d' ns, run d (map (raw_write fid t) vs) = Ok (d', map OutVal ns) /\ Forall (fun n => 0 <= n) ns /\ length ns = length vs /\
    reachable d' /\ d_files d' = [(fid, rfile)].
Proof.
  induction 1 as [|v vs L _ IH]; intros d R F; cbn [map run].
  - exists d, []. cbn. auto.
  - destruct (write_one d fid t v R F L) as (d1 & n & E & N & R1 & F1). rewrite E. cbn [bind].
    destruct (IH d1 R1 F1) as (d2 & ns & E2 & N2 & L2 & R2 & F2). rewrite E2. cbn [bind]. exists d2, (n :: ns). cbn [map length]. auto.
Qed.
Lemma open_raw d k : reachable d -> d_files d = [] -> (k_strict k = true -> k_capable k = true) ->
  exists d1, run d [OpOpen (k_fid k) false true false false; OpIoctl (k_fid k) (SetRawMode (Some 1) (k_strict k) (k_capable k)) (t_euid (k_task k))]
               = Ok (d1, [OutVal 0; OutVal 0]) /\ reachable d1 /\ d_files d1 = [(k_fid k, rfile)].
Proof.
  intros R F S. set (ops := [_; _]). exists (Ring.mkDev (d_log d) [(k_fid k, rfile)]).
  assert (E : run d ops = Ok (Ring.mkDev (d_log d) [(k_fid k, rfile)], [OutVal 0; OutVal 0])).
  { unfold ops. cbn [run step]. unfold ulogger_open. rewrite F. cbn [lookup andb app bind d_files d_log]. rewrite Z.eqb_refl. unfold ulogger_ioctl. cbn [f_write negb].
    replace (k_strict k && negb (k_capable k)) with false by (destruct (k_strict k); [rewrite S by reflexivity|]; reflexivity).
    change (negb (1 =? 0) && negb (1 =? 1)) with false. cbv iota. cbn [bind update f_reader]. rewrite Z.eqb_refl. reflexivity. }
  split; [exact E|]. split; [|reflexivity]. destruct R as (nm & mem & pow2 & ops0 & outs0 & I & U & E0).
  exists nm, mem, pow2, (ops0 ++ ops), (outs0 ++ [OutVal 0; OutVal 0]). split; [exact I|]. split; [apply Forall_app; split; [exact U|repeat constructor]|].
  exact (run_app _ _ _ _ _ _ _ E0 E).
Qed.
Lemma run_ok d k vs : reachable d -> d_files d = [] -> (k_strict k = true -> k_capable k = true) -> Forall (fun v => 20 <= zlen (concat v)) vs ->
  exists d' ns, run d ([OpOpen (k_fid k) false true false false; OpIoctl (k_fid k) (SetRawMode (Some 1) (k_strict k) (k_capable k)) (t_euid (k_task k))] ++
                       map (raw_write (k_fid k) (k_task k)) vs ++ [OpClose (k_fid k)]) = Ok (d', OutVal 0 :: OutVal 0 :: map OutVal ns ++ [OutVal 0]) /\
    Forall (fun n => 0 <= n) ns /\ length ns = length vs /\ reachable d' /\ d_files d' = [].
Proof.
  intros R F S L. destruct (open_raw d k R F S) as (d1 & E1 & R1 & F1). destruct (write_many (k_fid k) (k_task k) vs L d1 R1 F1) as (d2 & ns & E2 & N & LN & R2 & F2).
  assert (E3 : step d2 (OpClose (k_fid k)) = Ok (Ring.mkDev (d_log d2) [], OutVal 0)).
  { cbn [step]. rewrite F2. cbn [lookup remove]. now rewrite Z.eqb_refl. }
  exists (Ring.mkDev (d_log d2) []), ns. split.
  - apply (run_app _ _ _ _ [OutVal 0; OutVal 0] _ _ E1). apply (run_app _ _ _ _ _ _ _ E2). cbn [run]. rewrite E3. reflexivity.
  - split; [exact N|]. split; [exact LN|]. split; [|reflexivity]. eapply reachable_step; [exact R2| |exact E3]. exact Logic.I.
Qed.
Lemma run_app_inv a : forall b d d2 o, run d (a ++ b) = Ok (d2, o) ->
  exists d1 o1 o2, run d a = Ok (d1, o1) /\ run d1 b = Ok (d2, o2) /\ o = o1 ++ o2.
Proof.
  induction a as [|x a IH]; intros b d d2 o E; cbn [app run] in *.
  - exists d, [], o. auto.
  - destruct (step d x) as [[d0 y]|]; cbn [bind] in *; [|discriminate]. destruct (run d0 (a ++ b)) as [[d3 ys]|] eqn:E1; cbn [bind] in E; [|discriminate].
    assert (d3 = d2) by congruence. assert (o = y :: ys) by congruence. subst. destruct (IH b d0 d2 ys E1) as (d1 & o1 & o2 & -> & E3 & ->). cbn [bind].
    exists d1, (y :: o1), o2. auto.
Qed.
Lemma run_length a : forall d d' o, run d a = Ok (d', o) -> length o = length a.
Proof.
  induction a as [|x a IH]; intros d d' o E; cbn [run] in E.
  - assert (o = []) by congruence. now subst.
  - destruct (step d x) as [[d0 y]|]; cbn [bind] in *; [|discriminate]. destruct (run d0 a) as [[d3 ys]|] eqn:E1; cbn [bind] in E; [|discriminate].
    assert (o = y :: ys) by congruence. subst. cbn [length]. f_equal. eauto.
Qed.

(** ** What the driver answers lets the tool go on *)
Definition events_of (fid : Z) (c : settings) (items : list item) : list event :=
  flat_map (fun it => one fid c it :: (if u_err c then [Err (copy (u_prio c) (u_tag c) (i_msg it))] else [])) items ++ [Exit 0].
Lemma one_write fid c it : 0 <= fid -> exists v, one fid c it = Write v /\ 20 <= zlen (concat v).
Proof.
  intros H. unfold one. destruct (Z.geb_spec fid 0); [|lia]. eexists. split; [reflexivity|]. cbn [concat]. rewrite !zlen_app, !zlen_le.
  repeat match goal with |- context [zlen ?z] => lazymatch goal with H : 0 <= zlen z |- _ => fail | _ => pose proof (zlen_nonneg z) end end. lia.
Qed.
Lemma vectors_err (b : bool) x r : vectors ((if b then [Err x] else []) ++ r) = vectors r.
Proof. destruct b; reflexivity. Qed.
Lemma answered_good fid t c : 0 <= u_prio c <= 7 -> 0 <= fid -> u_pid c <> -1 -> forall items res i evs d d' ws, reachable d -> d_files d = [(fid, rfile)] ->
  log_all fid res i c items = Ok evs -> run d (map (raw_write fid t) (vectors evs)) = Ok (d', ws) ->
  (forall j x, nth_error ws j = Some x -> x = ret_out (res (i + j)%nat)) -> evs = events_of fid c items.
Proof.
  intros Hp Hf Hpid. induction items as [|it items IH]; intros res i evs d d' ws R F E X A; cbn [log_all] in E; [unfold events_of; cbn; congruence|].
  destruct (one_write fid c it Hf) as (v & EV & LV). destruct (write_one d fid t v R F LV) as (d1 & n & E1 & N & R1 & F1).
  destruct (log_one fid (res i) c it Hp) as [(r & _ & _ & Y)|[(r & L & _ & Y)|(L & _)]]; [contradiction| |]; rewrite L in E; cbn [bind] in E.
  - exfalso. assert (evs = [one fid c it; Exit r]) by congruence. subst evs. rewrite EV in X. cbn [vectors flat_map app map run] in X. rewrite E1 in X. cbn [bind] in X.
    assert (ws = [OutVal n]) by congruence. subst ws. specialize (A O _ eq_refl). rewrite Nat.add_0_r in A. unfold ret_out in A. destruct (Z.ltb_spec (res i) 0); [discriminate|lia].
  - destruct (log_all fid res (S i) c items) as [r|] eqn:ER; cbn [bind] in E; [|discriminate]. set (er := if u_err c then _ else _) in *.
    assert (evs = (one fid c it :: er) ++ r) by congruence. subst evs. rewrite EV in X. cbn [app] in X. change (vectors (Write v :: er ++ r)) with (v :: vectors (er ++ r)) in X.
    unfold er in X. rewrite vectors_err in X. cbn [map run] in X. rewrite E1 in X. cbn [bind] in X.
    destruct (run d1 (map (raw_write fid t) (vectors r))) as [[d2 ws2]|] eqn:E2; cbn [bind] in X; [|discriminate]. assert (ws = OutVal n :: ws2) by congruence. subst ws.
    rewrite (IH res (S i) r d1 d2 ws2 R1 F1 ER E2).
    + unfold events_of. cbn [flat_map app]. fold er. now rewrite <- app_assoc.
    + intros j x Hj. rewrite (A (S j) x Hj). do 2 f_equal. lia.
Qed.
Definition run_main (W : Z) (k : command) (res : nat -> Z) : M (list event) :=
  main W (k_fid k) (k_pid k) (k_name k) (k_opts k) (k_args k) (k_input k) (fun i => Some (k_clock k i)) res.
Lemma main_events W k ms : 32 <= W -> fine k ms -> exists c items, 0 <= u_prio c <= 7 /\ u_pid c <> -1 /\
  forall res, run_main W k res = log_all (k_fid k) res O c items.
Proof.
  intros HW F. destruct (set_opts_any W (k_opts k) (defaults (k_pid k) (k_name k))) as (p & E & Hp). specialize (Hp HW (fn_opts _ _ F)).
  match type of E with _ = Ok ?x => set (c := x) in * end.
  destruct (items_of_any W (u_time c) (fun i => Some (k_clock k i)) (k_args k) (k_input k)) as (items & EI).
  exists c, items. split; [apply prio_range|]. split.
  - cbn [c u_pid]. subst p. change (u_pid (defaults (k_pid k) (k_name k))) with (k_pid k). apply (pid_of_range _ _ (fn_pid _ _ F) (fn_opts _ _ F)).
  - intros res. unfold run_main. rewrite (main_eq _ _ _ _ _ _ _ _ _ _ E), EI. reflexivity.
Qed.
Lemma main_ok W k ms : 32 <= W -> fine k ms -> given k ms -> exists evs, map (@concat Z) (vectors evs) = entries_for (k_pid k) (k_name k) (k_opts k) ms /\
  Forall (fun v => 20 <= zlen (concat v)) (vectors evs) /\ forall res, (forall j, 0 <= res j) -> run_main W k res = Ok evs.
Proof.
  intros HW F G. destruct (given_main W k ms HW F G (fun _ => 0) ltac:(intros; lia)) as (evs0 & E & EE). exists (evs0 ++ [Exit 0]).
  assert (V : map (@concat Z) (vectors (evs0 ++ [Exit 0])) = entries_for (k_pid k) (k_name k) (k_opts k) ms).
  { rewrite vectors_app. change (vectors [Exit 0]) with (@nil (list (list Z))). rewrite app_nil_r, <- entries_vectors. exact EE. }
  split; [exact V|]. split.
  - assert (X : Forall (fun b => 20 <= zlen b) (map (@concat Z) (vectors (evs0 ++ [Exit 0])))); [|now rewrite Forall_map in X].
    rewrite V. unfold entries_for. rewrite Forall_map. apply Forall_forall. intros [[s n] m] _. unfold UloggerSpec.entry. rewrite !zlen_app, !zlen_le.
    repeat match goal with |- context [zlen ?z] => lazymatch goal with H : 0 <= zlen z |- _ => fail | _ => pose proof (zlen_nonneg z) end end. lia.
  - intros res HR. destruct (main_events W k ms HW F) as (c & items & P1 & P2 & Q). fold (run_main W k (fun _ => 0)) in E. rewrite Q in *.
    rewrite log_all_good by auto. rewrite <- E. symmetry. apply log_all_good; auto. intros; lia.
Qed.
Lemma executes_any W k ms d ops outs d' : 32 <= W -> fine k ms -> given k ms -> reachable d -> d_files d = [] -> executes W d k ops outs d' ->
  exists evs ns, map (@concat Z) (vectors evs) = entries_for (k_pid k) (k_name k) (k_opts k) ms /\ ops = calls k evs /\ length ns = length (vectors evs) /\
    outs = OutVal 0 :: OutVal 0 :: map OutVal ns ++ [OutVal 0] /\ reachable d' /\ d_files d' = [] /\ Forall user_op ops.
Proof.
  intros HW F G R FD (res & evs & ws & EM & -> & -> & ER & A).
  destruct (main_ok W k ms HW F G) as (evs' & V & L & Q). destruct (main_events W k ms HW F) as (c & items & P1 & P2 & QM).
  destruct (open_raw d k R FD (fn_raw _ _ F)) as (d1 & E1 & R1 & F1).
  pose proof ER as ER0. unfold calls in ER. destruct (run_app_inv _ _ _ _ _ ER) as (d1' & o1 & o2 & Ea & Eb & Eo). rewrite E1 in Ea.
  assert (d1' = d1) by congruence. assert (o1 = [OutVal 0; OutVal 0]) by congruence. subst d1' o1. clear Ea. cbn [app] in Eo. injection Eo as Eo.
  destruct (run_app_inv _ _ _ _ _ Eb) as (d2 & o3 & o4 & Ec & Ed & ->). pose proof (run_length _ _ _ _ Ed) as L4. cbn in L4.
  destruct o4 as [|y [|? ?]]; try discriminate. apply app_inj_tail in Eo as [-> <-].
  fold (run_main W k res) in EM. rewrite QM in EM.
  assert (EV : evs = events_of (k_fid k) c items).
  { eapply answered_good; eauto. apply (fn_fid _ _ F). }
  assert (evs' = evs) as <-.
  { specialize (Q (fun _ => 0) ltac:(intros; lia)). rewrite QM, log_all_good in Q by (auto; intros; lia). fold (events_of (k_fid k) c items) in Q. congruence. }
  destruct (run_ok d k (vectors evs') R FD (fn_raw _ _ F) L) as (d3 & ns & E3 & N & LN & R3 & F3). change (run d (calls k evs') = Ok (d3, OutVal 0 :: OutVal 0 :: map OutVal ns ++ [OutVal 0])) in E3.
  rewrite E3 in ER0. assert (d' = d3) by congruence. assert (o3 ++ [OutVal 0] = map OutVal ns ++ [OutVal 0]) as X by congruence. apply app_inj_tail in X as [-> _]. subst d'.
  exists evs', ns. split; [exact V|]. split; [reflexivity|]. split; [exact LN|]. split; [reflexivity|]. split; [exact R3|]. split; [exact F3|].
  unfold calls. repeat (apply Forall_cons; [exact Logic.I|]). apply Forall_app. split; [|repeat constructor].
  rewrite Forall_map. apply Forall_forall. intros v _. apply readable_user, iovec_readable.
Qed.
Lemma executes_some W k ms d : 32 <= W -> fine k ms -> given k ms -> reachable d -> d_files d = [] -> exists ops outs d', executes W d k ops outs d'.
Proof.
  intros HW F G R FD. destruct (main_ok W k ms HW F G) as (evs & V & L & Q).
  destruct (run_ok d k (vectors evs) R FD (fn_raw _ _ F) L) as (d3 & ns & E3 & N & LN & R3 & F3).
  exists (calls k evs), (OutVal 0 :: OutVal 0 :: map OutVal ns ++ [OutVal 0]), d3, (fun j => nth j ns 0), evs, (map OutVal ns).
  split; [|split; [reflexivity|split; [reflexivity|split; [exact E3|]]]].
  - apply Q. intros j. destruct (nth_in_or_default j ns 0) as [X| ->]; [|lia]. rewrite Forall_forall in N. apply (N _ X).
  - intros j x Hj. rewrite nth_error_map in Hj. destruct (nth_error ns j) as [n|] eqn:En; [|discriminate]. cbn in Hj.
    rewrite (nth_error_nth _ _ 0 En). rewrite Forall_forall in N. specialize (N n (nth_error_In _ _ En)). unfold ret_out. destruct (Z.ltb_spec n 0); [lia|congruence].
Qed.

(** ** The entries *)
Definition pid_of (k : command) : Z := last_of pid_opt (k_pid k) (k_opts k).
Definition bytes_msg (x : message) : list Z := let '(k, (s, n, m)) := x in UloggerSpec.entry (pid_of k) s n (prio_of k) (name_of k) (tag_of k) m.
Definition ent_of (x : message) : RingSpec.entry := let b := bytes_msg x in mkEntry (ztake 20 b) (ztake 4076 (zdrop 20 b)).
Definition view_of (x : message) : uentry :=
  let '(k, (s, n, m)) := x in mkU s n (prio_of k) (pid_of k) (name_of k) (pid_of k) (name_of k) (tag_of k) (fitted x) false 0.
Definition good (x : message) : Prop :=
  let '(k, (s, n, m)) := x in
  (int32 (pid_of k)) /\ 0 <= s < 2 ^ 31 /\ 0 <= n < 2 ^ 31 /\ ~ In 0 (name_of k) /\ ~ In 0 (tag_of k) /\ zlen (name_of k) + zlen (tag_of k) <= 4000 /\
  ~ In 0 m /\ zlen (screen_of x) < 5248.
Definition pay_of (x : message) : list Z :=
  let '(k, (s, n, m)) := x in
  payload (pid_of k) (pid_of k) (name_of k) [] (prio_of k) (tag_of k) (ztake (4076 - (zlen (name_of k) + 1) - 4 - (zlen (tag_of k) + 1)) (m ++ [0])).
Lemma zlen_pay pid name prio tag b : zlen (payload pid pid name [] prio tag b) = (zlen name + 1) + 4 + (zlen tag + 1) + zlen b.
Proof. unfold payload. rewrite Z.eqb_refl, !zlen_app, zlen_le. change (zlen [0]) with 1. change (zlen (@nil Z)) with 0. lia. Qed.
Lemma ent_eq x : good x -> let '(k, (s, n, m)) := x in ent_of x = mkEntry (meta (pid_of k) (pid_of k) s n 0) (pay_of x).
Proof.
  destruct x as [k [[s n] m]]. intros (H1 & H2 & H3 & H4 & H5 & H6 & H7 & H8). unfold ent_of, bytes_msg, pay_of.
  assert (E : UloggerSpec.entry (pid_of k) s n (prio_of k) (name_of k) (tag_of k) m =
    meta (pid_of k) (pid_of k) s n 0 ++ payload (pid_of k) (pid_of k) (name_of k) [] (prio_of k) (tag_of k) (m ++ [0])).
  { unfold UloggerSpec.entry, meta, payload. rewrite Z.eqb_refl. rewrite <- !app_assoc. cbn [app]. reflexivity. }
  rewrite E. rewrite ztake_app_exact by (rewrite zlen_meta; reflexivity). rewrite zdrop_app_exact by (rewrite zlen_meta; reflexivity). f_equal.
  rewrite payload_cut by (rewrite zlen_pay; change (zlen (@nil Z)) with 0; lia). rewrite zlen_pay. change (zlen (@nil Z)) with 0. f_equal. f_equal. lia.
Qed.
Lemma prio_level k : level_of (prio_of k) = prio_of k /\ color_of (prio_of k) = 0 /\ binary_of (prio_of k) = false /\ uint32 (prio_of k) /\ 0 <= prio_of k < 8.
Proof.
  unfold prio_of. pose proof (prio_range (k_opts k)) as P. set (p := last_of _ _ _) in *. clearbody p.
  assert (C : p = 0 \/ p = 1 \/ p = 2 \/ p = 3 \/ p = 4 \/ p = 5 \/ p = 6 \/ p = 7) by lia.
  repeat (destruct C as [C|C]; [subst p; unfold uint32; repeat split; try reflexivity; lia|]). subst p; unfold uint32; repeat split; try reflexivity; lia.
Qed.
Lemma fitted_eq k s n m : fitted (k, (s, n, m)) = ztake (4076 - (zlen (name_of k) + 1) - 4 - (zlen (tag_of k) + 1) - 1) m.
Proof. reflexivity. Qed.
Lemma good_looks x : good x -> looks ent_of view_of (fun _ => 0) x.
Proof.
  intros G. pose proof (ent_eq x G) as E. destruct x as [k [[s n] m]]. destruct (prio_level k) as (P1 & P2 & P3 & P4 & P5).
  pose proof G as (H1 & H2 & H3 & H4 & H5 & H6 & H7 & H8). pose proof (zlen_nonneg (name_of k)). pose proof (zlen_nonneg (tag_of k)). pose proof (zlen_nonneg m).
  constructor; cbn [view_of u_sec u_nsec u_prio u_tag u_msg u_bin]; auto.
  - exists (pid_of k), (pid_of k), (pay_of (k, (s, n, m))). exact E.
  - eexists. split.
    + rewrite E. apply enc_parsed; try (unfold ProgramSpec.int32, ParseSpec.int32 in *; lia); [unfold pay_of; rewrite zlen_pay, zlen_ztake, zlen_app; change (zlen [0]) with 1; lia|].
      unfold pay_of. apply payload_shows; auto. rewrite P3. apply text_body; [exact H7|lia].
    + unfold entry_of. cbn [v_sec v_nsec v_level v_pid v_pname v_tid v_tname v_tag v_message v_binary v_color]. rewrite Z.eqb_refl, P1, P2, P3, fitted_eq. reflexivity.
Qed.
Lemma costs_total l : Forall good l -> RingSpec.total (map ent_of l) = costs_of l.
Proof.
  induction 1 as [|x l G _ IH]; cbn [map]; [reflexivity|]. rewrite total_cons, IH. cbn [costs_of fold_right]. fold (costs_of l). f_equal.
  unfold esize. pose proof (ent_eq x G) as E. destruct x as [k [[s n] m]]. rewrite E. cbn [e_payload]. unfold pay_of. rewrite zlen_pay. unfold cost_of. cbn [fst]. rewrite fitted_eq.
  destruct G as (H1 & H2 & H3 & H4 & H5 & H6 & H7 & H8). pose proof (zlen_nonneg (name_of k)). pose proof (zlen_nonneg (tag_of k)). pose proof (zlen_nonneg m).
  rewrite !zlen_ztake, zlen_app. change (zlen [0]) with 1. lia.
Qed.

(** ** The bookkeeping *)
Definition leaves (ops : list op) (outs : list out) (es : list RingSpec.entry) : Prop :=
  forall h, map fst h = ops -> map (fun ev => RingSpec.render (snd ev)) h = outs -> forall m, m_acc (fold_left record h m) = m_acc m ++ es.
Lemma leaves_app a oa ea b ob eb : length a = length oa -> leaves a oa ea -> leaves b ob eb -> leaves (a ++ b) (oa ++ ob) (ea ++ eb).
Proof.
  intros L A B h E1 E2 m. apply map_eq_app in E1 as (h1 & h2 & -> & E1 & E1'). rewrite map_app in E2.
  assert (LL : length (map (fun ev => RingSpec.render (snd ev)) h1) = length oa) by (rewrite map_length, <- L, <- E1, map_length; reflexivity).
  destruct (app_split_len _ _ _ _ E2 LL) as [X Y]. rewrite fold_left_app, (B h2 E1' Y), (A h1 E1 X). now rewrite app_assoc.
Qed.
Lemma val_of y v : RingSpec.render y = OutVal v -> y = AVal v.
Proof. destruct y; cbn; congruence. Qed.
Lemma writes_leave fid t vs : forall ns h m, length ns = length vs -> Forall (fun v => 20 < zlen (concat v)) vs -> m_raw m fid = true ->
  map fst h = map (raw_write fid t) vs -> map (fun ev => RingSpec.render (snd ev)) h = map OutVal ns ->
  m_acc (fold_left record h m) = m_acc m ++ map (fun v => mkEntry (ztake 20 (concat v)) (ztake 4076 (zdrop 20 (concat v)))) vs.
Proof.
  induction vs as [|v vs IH]; intros ns h m L F R E1 E2.
  - destruct h; [|discriminate]. cbn. now rewrite app_nil_r.
  - destruct ns as [|n ns]; [discriminate|]. destruct h as [|[o y] h]; [discriminate|]. cbn [map fst snd] in E1, E2. injection E1 as -> E1. injection E2 as E2 E3. apply val_of in E2. subst y.
    inversion F as [|? ? L0 F']; subst. cbn [fold_left record raw_write]. rewrite R. unfold requested. rewrite iovec_bytes. cbn [e_payload].
    destruct (Z.eqb_spec (zlen (ztake 4076 (zdrop 20 (concat v)))) 0) as [Z0|_]; [rewrite zlen_ztake, zlen_zdrop in Z0; lia|].
    rewrite (IH ns h _ ltac:(cbn in L; lia) F'); cbn [m_acc m_raw]; auto. cbn [map]. now rewrite <- app_assoc.
Qed.
Lemma calls_leave k evs ns : length ns = length (vectors evs) -> Forall (fun v => 20 < zlen (concat v)) (vectors evs) ->
  leaves (calls k evs) (OutVal 0 :: OutVal 0 :: map OutVal ns ++ [OutVal 0]) (map (fun b => mkEntry (ztake 20 b) (ztake 4076 (zdrop 20 b))) (map (@concat Z) (vectors evs))).
Proof.
  intros L F h E1 E2 m. unfold calls in E1. destruct h as [|[o1 y1] [|[o2 y2] h]]; try discriminate. cbn [map fst snd app] in E1, E2.
  injection E1 as -> -> E1. injection E2 as Y1 Y2 E2. apply val_of in Y1, Y2. subst y1 y2.
  apply map_eq_app in E1 as (h1 & h2 & -> & E1 & E3). rewrite map_app in E2.
  assert (LL : length (map (fun ev => RingSpec.render (snd ev)) h1) = length (map OutVal ns)).
  { rewrite !map_length, L. apply (f_equal (@length op)) in E1. now rewrite !map_length in E1. }
  destruct (app_split_len _ _ _ _ E2 LL) as [X Y]. cbn [fold_left record]. rewrite fold_left_app.
  destruct h2 as [|[o3 y3] [|? ?]]; try discriminate. cbn [map fst snd] in E3, Y. injection E3 as ->. injection Y as Y. apply val_of in Y. subst y3. cbn [fold_left record].
  rewrite (writes_leave (k_fid k) (k_task k) (vectors evs) ns h1 _ L F); cbn [m_acc m_raw]; auto.
  - now rewrite map_map.
  - unfold RingHistory.set. now rewrite Z.eqb_refl.
Qed.
Lemma fine_good k ms : fine k ms -> given k ms -> Forall good (map (pair k) ms).
Proof.
  intros F G. pose proof (given_times k ms F G) as T. pose proof (fn_texts _ _ F) as X. destruct (fn_names _ _ F) as (N1 & N2 & N3).
  destruct (pid_of_range _ _ (fn_pid _ _ F) (fn_opts _ _ F)) as [P _]. fold (pid_of k) in P. rewrite Forall_map. rewrite Forall_forall in *. intros [[s n] m] Hx.
  specialize (T _ Hx). specialize (X _ Hx). cbn [fst snd] in *. unfold good. tauto.
Qed.
Lemma script_leaves W ks : 32 <= W -> forall mss d ops outs d', Forall2 fine ks mss -> Forall2 given ks mss -> reachable d -> d_files d = [] -> script W d ks ops outs d' ->
  length ops = length outs /\ leaves ops outs (map ent_of (messages_of ks mss)) /\ Forall good (messages_of ks mss) /\ reachable d' /\ d_files d' = [] /\
  Forall user_op ops /\ run d ops = Ok (d', outs).
Proof.
  intros HW. induction ks as [|k ks IH]; intros mss d ops outs d' F G R FD S.
  - inversion F; subst. inversion S; subst. split; [reflexivity|]. split; [|repeat split; auto; constructor].
    intros h E _ m. destruct h; [|discriminate]. cbn. now rewrite app_nil_r.
  - inversion F as [|? ms ? mss' F1 F2]; subst. inversion G as [|? ? ? ? G1 G2]; subst. inversion S as [|? ? ops1 outs1 d1 ? ops2 outs2 ? E S2]; subst.
    destruct (executes_any W k ms d ops1 outs1 d1 HW F1 G1 R FD E) as (evs & ns & V & -> & LN & -> & R1 & FD1 & U).
    destruct (IH mss' d1 ops2 outs2 d' F2 G2 R1 FD1 S2) as (L2 & LV2 & GD2 & R2 & FD2 & U2 & RU2).
    assert (L1 : length (calls k evs) = length (OutVal 0 :: OutVal 0 :: map OutVal ns ++ [OutVal 0])).
    { unfold calls. cbn [app length]. rewrite !app_length, !map_length. cbn [length]. lia. }
    assert (RU : run d (calls k evs) = Ok (d1, OutVal 0 :: OutVal 0 :: map OutVal ns ++ [OutVal 0])).
    { destruct E as (res & evs' & ws & _ & _ & _ & X & _). exact X. }
    split; [rewrite !app_length; lia|]. unfold messages_of. cbn [combine map concat fst snd]. fold (messages_of ks mss').
    split; [|split; [apply Forall_app; split; [now apply fine_good|exact GD2]|split; [exact R2|split; [exact FD2|split; [now apply Forall_app|exact (run_app _ _ _ _ _ _ _ RU RU2)]]]]].
    rewrite map_app. apply leaves_app; [exact L1| |exact LV2].
    assert (EE : map ent_of (map (pair k) ms) = map (fun b => mkEntry (ztake 20 b) (ztake 4076 (zdrop 20 b))) (map (@concat Z) (vectors evs))).
    { rewrite V. unfold entries_for. rewrite !map_map. apply map_ext. intros [[s n] m]. reflexivity. }
    assert (CL : Forall (fun v => 20 < zlen (concat v)) (vectors evs)).
    { assert (X : Forall (fun b => 20 < zlen b) (map (@concat Z) (vectors evs))); [|now rewrite Forall_map in X].
      rewrite V. unfold entries_for. rewrite Forall_map. apply Forall_forall. intros [[s n] m] _. unfold UloggerSpec.entry. rewrite !zlen_app, !zlen_le. change (zlen [0]) with 1.
      repeat match goal with |- context [zlen ?z] => lazymatch goal with H : 0 <= zlen z |- _ => fail | _ => pose proof (zlen_nonneg z) end end. lia. }
    pose proof (calls_leave k evs ns LN CL) as X. rewrite <- EE in X. exact X.
Qed.

(** ** C134 *)

(** Commands that are given messages can be run on a new device: every message is accepted. *)
Theorem C134_runs : forall W nm mem pow2 ks mss, 32 <= W -> init_ok nm mem pow2 -> Forall2 fine ks mss -> Forall2 given ks mss ->
  exists ops outs d, script W (init_dev nm mem pow2) ks ops outs d.
Proof.
  intros W nm mem pow2 ks mss HW HI F G.
  assert (X : forall d, reachable d -> d_files d = [] -> exists ops outs d', script W d ks ops outs d').
  { revert G. induction F as [|k ms ks mss F1 _ IH]; intros G d R FD; [exists [], [], d; constructor|]. inversion G as [|? ? ? ? G1 G2]; subst.
    destruct (executes_some W k ms d HW F1 G1 R FD) as (ops & outs & d1 & E).
    destruct (executes_any W k ms d ops outs d1 HW F1 G1 R FD E) as (_ & _ & _ & _ & _ & _ & R1 & FD1 & _).
    destruct (IH G2 d1 R1 FD1) as (ops2 & outs2 & d2 & S). exists (ops ++ ops2), (outs ++ outs2), d2. econstructor; eauto. }
  apply X; [|reflexivity]. exists nm, mem, pow2, [], []. split; [exact HI|]. split; [constructor|reflexivity].
Qed.

(** Runs of ulogger one after the other on a new device, which is then dumped: the messages are on the
    screen, in order, each with the letter of its level, its tag and its text line by line; if the buffer
    was too small, the oldest are missing and a line says how many. They count as root's: without the
    right to read all, another user sees none of them. *)
Theorem C134_screen : forall W nm mem pow2 ks mss ops outs d rfid all uid paths,
  32 <= W -> init_ok nm mem pow2 -> ~ In 0 nm -> Forall2 fine ks mss -> Forall2 given ks mss ->
  script W (init_dev nm mem pow2) ks ops outs d ->
  exists node mark, add_ulog_device d rfid all uid = Ok (Some (node, mark)) /\
  exists lost kept, messages_of ks mss = lost ++ kept /\ (lost = [] \/ 2 ^ pow2 - 12300 < costs_of kept) /\
    let mine := if all || (uid mod 2 ^ 32 =? 0) then kept else [] in
  exists note, ((lost = [] \/ mine = []) /\ note = [] \/ lost <> [] /\ mine <> [] /\ notice nm (zlen lost) note) /\
    forall fuel, (2 * (length mine + 1) < fuel)%nat ->
      exists ns' c', process_logs fuel (live_env false uid) true 0 [node] (open_ctx 0 [mark]) 0 = Ok (Some (ns', c', 0)) /\
        output (mkO FShort false [] false []) paths (c_out c') = Ok (map Some (note ++ concat (map screen_of mine))).
Proof.
  intros W nm mem pow2 ks mss ops outs d rfid all uid paths HW HI HN F G S.
  assert (R0 : reachable (init_dev nm mem pow2)) by (exists nm, mem, pow2, [], []; split; [exact HI|]; split; [constructor|reflexivity]).
  destruct (script_leaves W ks HW mss _ ops outs d F G R0 eq_refl S) as (_ & LV & GD & R & FD & U & E).
  destruct (add_ok d [] rfid all uid R FD ltac:(intros [])) as (node & mark & A). exists node, mark. split; [exact A|].
  destruct (entries_screen ent_of view_of (fun _ => 0) nm mem pow2 ops d outs rfid all uid node mark paths (messages_of ks mss) HI HN U E A) as (lost & kept & EL & RT & X).
  { intros h E1 E2. exact (LV h E1 E2 ledger0). }
  { eapply Forall_impl; [|exact GD]. apply good_looks. }
  exists lost, kept. split; [exact EL|]. assert (GK : Forall good kept) by (rewrite EL in GD; now apply Forall_app in GD).
  split; [now rewrite <- (costs_total kept GK)|]. cbv zeta in *.
  assert (MI : (if all then kept else filter (fun _ => 0 mod 2 ^ 32 =? uid mod 2 ^ 32) kept) = if all || (uid mod 2 ^ 32 =? 0) then kept else []).
  { destruct all; [reflexivity|]. cbn [orb]. change (0 mod 2 ^ 32) with 0. rewrite Z.eqb_sym. destruct (uid mod 2 ^ 32 =? 0); clear; induction kept; cbn; auto. now f_equal. }
  rewrite MI in X. set (mine := if all || _ then kept else []) in *. destruct X as (note & N & D). exists note. split; [exact N|]. intros fuel HF.
  destruct (D fuel HF) as (ns' & c' & PL & O). exists ns', c'. split; [exact PL|]. rewrite O. do 3 f_equal. f_equal. apply map_ext. intros [k [[s n] m]]. reflexivity.
Qed.

(** Two commands: two arguments at level W with tag "boot", then two lines on the input. *)
Definition ex_cmd (opts : list opt) (args : list (list Z)) (input : list Z) : command :=
  mkCmd 5 (mkTask 100 100 (bytes_of_string "ulogger") (bytes_of_string "ulogger") 1000) false false 100 (bytes_of_string "ulogger") opts args input
        (fun i => (1 + Z.of_nat i mod 1000, 0)).
Definition ex_cmds : list command :=
  [ex_cmd [OPrio (bytes_of_string "W"); OTag (bytes_of_string "boot")] [bytes_of_string "disk slow"; bytes_of_string "retry"] [];
   ex_cmd [] [] (bytes_of_string "up" ++ [10] ++ bytes_of_string "running")].
Definition ex_given : list (list (Z * Z * list Z)) :=
  [[(1, 0, bytes_of_string "disk slow"); (2, 0, bytes_of_string "retry")];
   [(1, 0, bytes_of_string "up" ++ [10]); (2, 0, bytes_of_string "running")]].
Example C134_ex : init_ok (bytes_of_string "ulog_main") (zrepeat 170 16384) 14 /\ Forall2 fine ex_cmds ex_given /\ Forall2 given ex_cmds ex_given /\
  concat (map screen_of (messages_of ex_cmds ex_given)) =
    bytes_of_string "W boot        : disk slow" ++ [10] ++ bytes_of_string "W boot        : retry" ++ [10] ++
    bytes_of_string "I ulogger     : up" ++ [10] ++ bytes_of_string "I ulogger     : running" ++ [10].
Proof.
  split. { split; [lia|]. split; [rewrite zlen_zrepeat; reflexivity|vm_compute; discriminate]. }
  split; [|split; [|vm_compute; reflexivity]].
  - repeat constructor; cbn [k_fid k_strict k_capable k_pid k_opts k_clock ex_cmd fst snd]; unfold ProgramSpec.int32; auto; try lia;
      try (intros _; pose proof (Z.mod_pos_bound (Z.of_nat j) 1000 ltac:(lia)); lia);
      try (pose proof (Z.mod_pos_bound (Z.of_nat j) 1000 ltac:(lia)); lia); vm_compute; intuition discriminate.
  - constructor; [|constructor; [|constructor]].
    + exact (gv_args (ex_cmd [OPrio (bytes_of_string "W"); OTag (bytes_of_string "boot")] [bytes_of_string "disk slow"; bytes_of_string "retry"] [])
        ltac:(cbn; intuition discriminate) ltac:(discriminate)).
    + refine (gv_input (ex_cmd [] [] (bytes_of_string "up" ++ [10] ++ bytes_of_string "running")) [bytes_of_string "up" ++ [10]; bytes_of_string "running"] _ _ _).
      * intros [].
      * reflexivity.
      * split; [reflexivity|]. split; [repeat constructor; try discriminate; vm_compute; intuition discriminate|]. constructor; [right; reflexivity|constructor].
Qed.

(** ** C135: reading back what one has logged *)

(** With the right to read everything, or as root, everything that fits in the buffer is read back. Missing:
    other users, who should read back their own messages. *)
Theorem C135_own_partial : forall W nm mem pow2 ks mss ops outs d rfid all uid paths,
  32 <= W -> init_ok nm mem pow2 -> ~ In 0 nm -> Forall2 fine ks mss -> Forall2 given ks mss ->
  script W (init_dev nm mem pow2) ks ops outs d ->
  all = true \/ uid = 0 -> costs_of (messages_of ks mss) <= 2 ^ pow2 - 12300 ->
  exists node mark, add_ulog_device d rfid all uid = Ok (Some (node, mark)) /\
  forall fuel, (2 * (length (messages_of ks mss) + 1) < fuel)%nat ->
      exists ns' c', process_logs fuel (live_env false uid) true 0 [node] (open_ctx 0 [mark]) 0 = Ok (Some (ns', c', 0)) /\
        output (mkO FShort false [] false []) paths (c_out c') = Ok (map Some (concat (map screen_of (messages_of ks mss)))).
Proof.
  intros W nm mem pow2 ks mss ops outs d rfid all uid paths HW HI HN F G S U C.
  destruct (C134_screen W nm mem pow2 ks mss ops outs d rfid all uid paths HW HI HN F G S) as (node & mark & A & lost & kept & E & L & note & N & D).
  exists node, mark. split; [exact A|]. assert (X : all || (uid mod 2 ^ 32 =? 0) = true) by (destruct U; subst; [reflexivity|apply orb_true_r]). rewrite X in *.
  assert (CP : forall l, 0 <= costs_of l).
  { induction l as [|x l IH]; cbn [costs_of fold_right]; [lia|]. fold (costs_of l). unfold cost_of. pose proof (zlen_nonneg (name_of (fst x))). pose proof (zlen_nonneg (tag_of (fst x))). pose proof (zlen_nonneg (fitted x)). lia. }
  assert (CA : forall a b, costs_of (a ++ b) = costs_of a + costs_of b).
  { induction a as [|x a IH]; intros b; cbn [app costs_of fold_right]; [reflexivity|]. fold (costs_of (a ++ b)) (costs_of a). rewrite IH. lia. }
  assert (lost = []) as ->. { destruct L as [L|L]; [exact L|]. exfalso. rewrite E, CA in C. pose proof (CP lost). lia. }
  cbn [app] in E. rewrite E. assert (note = []) as -> by (destruct N as [[_ N]|[N _]]; [exact N|congruence]). exact D.
Qed.
(** A user logs two messages and two lines with ulogger; reading the device, this user sees nothing (with
    the library, C130, the user would). *)
Theorem C135_own_refuted : exists nm mem pow2 ks mss ops outs d uid,
  init_ok nm mem pow2 /\ ~ In 0 nm /\ Forall2 fine ks mss /\ Forall2 given ks mss /\ script 64 (init_dev nm mem pow2) ks ops outs d /\
  Forall (fun k => t_euid (k_task k) = uid) ks /\ length (messages_of ks mss) = 4%nat /\ costs_of (messages_of ks mss) <= 2 ^ pow2 - 12300 /\
  exists node mark, add_ulog_device d 9 false uid = Ok (Some (node, mark)) /\
  forall paths fuel, (2 < fuel)%nat ->
      exists ns' c', process_logs fuel (live_env false uid) true 0 [node] (open_ctx 0 [mark]) 0 = Ok (Some (ns', c', 0)) /\
        output (mkO FShort false [] false []) paths (c_out c') = Ok [].
Proof.
  destruct C134_ex as (HI & F & G & _). exists (bytes_of_string "ulog_main"), (zrepeat 170 16384), 14, ex_cmds, ex_given.
  destruct (C134_runs 64 _ _ _ _ _ ltac:(lia) HI F G) as (ops & outs & d & S). exists ops, outs, d, 1000.
  assert (HN : ~ In 0 (bytes_of_string "ulog_main")) by (vm_compute; intuition discriminate).
  split; [exact HI|]. split; [exact HN|]. split; [exact F|]. split; [exact G|]. split; [exact S|]. split; [repeat constructor|]. split; [reflexivity|].
  split; [vm_compute; discriminate|].
  assert (A : exists node mark, add_ulog_device d 9 false 1000 = Ok (Some (node, mark))).
  { destruct (C134_screen 64 _ _ _ _ _ ops outs d 9 false 1000 [] ltac:(lia) HI HN F G S) as (node & mark & A & _). eauto. }
  destruct A as (node & mark & A). exists node, mark. split; [exact A|]. intros paths fuel HF.
  destruct (C134_screen 64 _ _ _ _ _ ops outs d 9 false 1000 paths ltac:(lia) HI HN F G S) as (node' & mark' & A' & lost & kept & _ & _ & X).
  assert (node' = node) by congruence. assert (mark' = mark) by congruence. subst node' mark'. change (false || (1000 mod 2 ^ 32 =? 0)) with false in X. cbv iota zeta in X.
  destruct X as (note & N & D). assert (note = []) as -> by (destruct N as [[_ N]|(_ & N & _)]; [exact N|congruence]).
  destruct (D fuel ltac:(cbn; lia)) as (ns' & c' & PL & O). exists ns', c'. split; [exact PL|exact O].
Qed.
Print Assumptions C134_runs.
Print Assumptions C134_screen.
Print Assumptions C135_own_partial.
Print Assumptions C135_own_refuted.
