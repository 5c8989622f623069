(** Properties C102 to C104: dumps of driver devices, from the system calls that filled them to the
    text that comes out.

    Vocabulary: LiveSpec.v ([started], [content], [reads_as], [wanted], [timely], [merged], [count],
    [entries], [announced], [text_of]), CatSpec.v ([lastn], [poll_sane]). *)
From Coq Require Import ZArith String List Bool Permutation Sorted Lia ZifyBool ZifyNat Arith.
From Verif Require Import Bytes BytesProofs Ring RingSpec RingHistory RingRefine Parse ParseSpec Cat CatSpec CatProofs CatMerge PropsCat
  Render Live LiveSpec LiveProofs LiveDump LiveText.
Import ListNotations.
Open Scope Z_scope.

Lemma started_all csv uid gs : Forall (started uid) gs -> exists recs, Forall2 (content uid) gs recs /\
  Forall2 (nrel csv uid) (map g_node gs) (world_of csv recs) /\ Forall (Forall good_rec) recs /\
  length recs = length gs /\ forall d, nth d recs [] <> [] -> 0 < nth d (map g_mark gs) 0.
Proof.
  induction 1 as [|g gs Hg _ (recs & A & B & C & D & E)].
  - exists []. repeat split; try constructor. intros [|d]; cbn; contradiction.
  - destruct (started_rel csv uid g Hg) as (r & A1 & B1 & C1 & E1). exists (r :: recs). cbn [map length].
    repeat split; try (constructor; assumption); [now rewrite D|]. intros [|d]; cbn; auto.
Qed.
Lemma shown_entries q : (forall m, In m q -> i_ok (snd m) = true /\ exists e, fd_entry (i_data (snd m)) = Some e) ->
  concat (map (fun p => match fd_entry (snd p) with
                        | Some e => [(fst (fst p), resolve (fd_buf (snd p)) e)] | None => [] end) (shown_of q)) = q_of q.
Proof.
  induction q as [|m q IH]; intros H; [reflexivity|]. unfold shown_of in *. cbn [filter].
  destruct (H m (or_introl eq_refl)) as (Ok & e & Ee). rewrite Ok. cbn [map concat snd fst]. rewrite Ee. cbn [app q_of map].
  f_equal; [unfold u_data; now rewrite Ee|]. apply IH. intros x Hx. apply H. now right.
Qed.
Lemma lastn_map {A B} (f : A -> B) k l : map f (lastn k l) = lastn k (map f l).
Proof.
  unfold lastn. rewrite map_length. generalize (length l - k)%nat as n. clear k. revert l.
  intros l n. revert l. induction n as [|n IH]; intros [|x l]; cbn; auto.
Qed.
Lemma lastn_in {A} k (l : list A) x : In x (lastn k l) -> In x l.
Proof. unfold lastn. intros H. rewrite <- (firstn_skipn (length l - k) l). apply in_or_app. now right. Qed.

(** ** C102 *)

(** Whatever the times, if none is negative: each entry is shown once, after those that precede it
    on its device, and the foremost entry with the least time comes next. *)
Theorem C102_any_times : forall csv uid gs, Forall (started uid) gs ->
  exists recs us, Forall2 (content uid) gs recs /\ Forall2 (Forall2 reads_as) recs us /\
    (Forall (Forall (fun u => 0 <= u_sec u /\ 0 <= u_nsec u)) us ->
     exists q, picks utime (fun d => filter (wanted csv) (nth d us [])) q /\
       forall fuel, (2 * count us < fuel)%nat -> forall N, 0 <= N ->
         exists ns' c', process_logs fuel (live_env csv uid) true 0 (map g_node gs) (open_ctx N (map g_mark gs)) 0
                          = Ok (Some (ns', c', 0)) /\
           entries (c_out c') = if N =? 0 then q else lastn (Z.to_nat N) q).
Proof.
  intros csv uid gs H. destruct (started_all csv uid gs H) as (recs & A & B & C & D & E).
  exists recs, (us_of recs). split; [exact A|]. split.
  { unfold us_of. clear - C. induction C as [|l recs Hl _ IH]; cbn; constructor; auto. clear - Hl.
    induction Hl as [|r l Hr _ IH]; cbn; constructor; auto. destruct (item_good true r Hr) as (e & X). apply X. }
  intros HT. assert (MC : marks_cover (world_of csv recs) (map g_mark gs)).
  { apply C43_ulog_covers.
    - unfold world_of. now rewrite !map_length.
    - intros d x Hx. destruct (world_in _ _ _ _ Hx) as (rec & -> & Hr). pose proof (nth_good recs d C) as Gn.
      rewrite Forall_forall in Gn. destruct (item_good csv rec (Gn rec Hr)) as (e & X). apply X.
    - intros d Hd. apply E. intros X. apply Hd. unfold world_of. change (@nil item) with (map (item_of csv) []).
      rewrite map_nth, X. reflexivity. }
  destruct (dump_live csv uid _ _ _ B MC) as (q & M & L).
  exists (q_of q). split; [now apply picked_of|].
  intros fuel Hf N HN. destruct (L N HN fuel) as (ns' & c' & E1 & E2).
  { replace (CatSpec.total (world_of csv recs)) with (count (us_of recs)); [exact Hf|].
    unfold CatSpec.total, count, world_of, us_of. clear. induction recs as [|l recs IH]; cbn; auto. now rewrite IH, !map_length. }
  exists ns', c'. split; [exact E1|]. rewrite entries_printed, E2. unfold final_out.
  assert (Q : forall m, In m q -> i_ok (snd m) = true /\ exists e, fd_entry (i_data (snd m)) = Some e).
  { intros m Hm. apply (picks_in_world _ _ _ M) in Hm. destruct (world_in _ _ _ _ Hm) as (rec & -> & Hr). pose proof (nth_good recs (fst m) C) as Gn.
    rewrite Forall_forall in Gn. destruct (item_good csv rec (Gn rec Hr)) as (e & X). split; [apply X|exists e; apply X]. }
  destruct (N =? 0); [now apply shown_entries|]. unfold q_of. rewrite <- lastn_map. apply shown_entries.
  intros m Hm. apply Q. now apply lastn_in in Hm.
Qed.
(** Devices that were created, written and read by any processes in any order, and then opened for
    a dump: the dump ends, and it shows the entries that the driver still holds (preceded, where
    older ones are gone, by the driver's report of how many), merged by time; with a tail of N, the
    last N of them. *)
Theorem C102_dump : forall csv uid gs, Forall (started uid) gs ->
  exists recs us, Forall2 (content uid) gs recs /\ Forall2 (Forall2 reads_as) recs us /\
    (timely us -> exists q, merged csv us q /\
       forall fuel, (2 * count us < fuel)%nat -> forall N, 0 <= N ->
         exists ns' c', process_logs fuel (live_env csv uid) true 0 (map g_node gs) (open_ctx N (map g_mark gs)) 0
                          = Ok (Some (ns', c', 0)) /\
           entries (c_out c') = if N =? 0 then q else lastn (Z.to_nat N) q).
Proof.
  intros csv uid gs H. destruct (C102_any_times csv uid gs H) as (recs & us & A & B & C). exists recs, us. split; [exact A|]. split; [exact B|].
  intros HT. destruct C as (q & P & D); [|exists q; split; [now apply picked_merged|exact D]].
  eapply Forall_impl; [|exact HT]. intros l [_ X]. exact X.
Qed.

(** ** C104 *)

(** Whatever the devices answer: with one device no banner is shown; with several, one for each
    device of which something is shown, just before the first such entry. *)
Theorem C104_banners : forall W (en : env W) N marks fuel dump max w w' c' x, 0 <= N -> poll_sane en ->
  process_logs fuel en dump max w (open_ctx N marks) 0 = Ok (Some (w', c', x)) ->
  exists fl, c_out c' = announced (1 <? zlen marks) [] fl /\ Forall (fun f => (f_dev f < length marks)%nat) fl.
Proof.
  intros W en N marks fuel dump max w w' c' x HN PS E.
  pose proof (BI_logs (length marks) (fun _ => True) W en (fun _ _ _ _ _ _ _ _ _ => Logic.I) dump max fuel w _ 0 w' c' x
    (BI_open _ N marks) E) as [_ _ _ (fl & D & F & _)].
  destruct (proj2 (C42_pool W en N marks HN PS) fuel dump max w) as (r & Er & Hr).
  assert (r = Some (w', c', x)) as -> by congruence. pose proof (po_never_empty _ _ (Hr _ _ _ eq_refl)) as NE.
  rewrite (vis_all _ NE) in D. exists fl. split; [exact D|].
  apply Forall_forall. intros f Hf. rewrite Forall_forall in F. apply (F f Hf).
Qed.

(** ** C103 *)

Lemma live_sane csv uid : poll_sane (live_env csv uid).
Proof.
  intros w fds w' rev E i. cbn [e_poll live_env] in E. destruct (poll_all uid fds w) as [w1 r] eqn:Ep.
  assert (rev = r) as -> by congruence. clear E. revert w w1 r i Ep.
  induction fds as [|b fds IH]; intros w w1 r i Ep; cbn [poll_all] in Ep.
  - assert (r = []) as -> by (destruct w; congruence). destruct i; discriminate.
  - destruct w as [|n w]; [assert (r = []) as -> by congruence; destruct i; discriminate|].
    destruct (poll_one uid b n) as [n1 b1] eqn:E1. destruct (poll_all uid fds w) as [w2 r2] eqn:E2.
    assert (r = b1 :: r2) as -> by congruence. destruct i as [|i]; cbn [nth].
    + unfold poll_one in E1. destruct b; [reflexivity|]. intros ->. congruence.
    + eapply IH, E2.
Qed.

(** What comes out of a reading of driver devices, in any state of theirs, is exactly the text of
    the entries shown, each preceded by a banner where it is the first of its device and there are
    several; every byte of it was written by the renderer. *)
Theorem C103_text : forall o paths csv uid N marks fuel dump max ns ns' c' x, 0 <= N ->
  process_logs fuel (live_env csv uid) dump max ns (open_ctx N marks) 0 = Ok (Some (ns', c', x)) ->
  exists text, output o paths (c_out c') = Ok (map Some text) /\
    text_of o paths (1 <? zlen marks) [] (entries (c_out c')) text.
Proof.
  intros o paths csv uid N marks fuel dump max ns ns' c' x HN E.
  pose proof (BI_logs (length marks) live_ok _ (live_env csv uid) (live_frames csv uid) dump max fuel ns _ 0 ns' c' x
    (BI_open _ N marks) E) as [_ _ _ (fl & D & F & _)].
  destruct (proj2 (C42_pool _ (live_env csv uid) N marks HN (live_sane csv uid)) fuel dump max ns) as (r & Er & Hr).
  assert (r = Some (ns', c', x)) as -> by congruence. pose proof (po_never_empty _ _ (Hr _ _ _ eq_refl)) as NE.
  rewrite (vis_all _ NE) in D. rewrite D. apply text_announced.
  apply Forall_forall. intros f Hf. rewrite Forall_forall in F. apply (F f Hf).
Qed.

(** Two devices: the first with entries at 1 s and 3 s, the second with one at 2 s. *)
Definition ex_pay (s : string) : list Z :=
  [6; 0; 0; 0] ++ bytes_of_string "tag" ++ [0] ++ bytes_of_string s ++ [0].
Definition ex_w1 (sec : Z) (s : string) : op :=
  OpWrite 1 (mkTask 100 100 (bytes_of_string "prog") (bytes_of_string "prog") 5) sec 0
          (IterUbuf (mkSeg (ex_pay s) (zlen (ex_pay s)))).
Definition ex_log (nm : string) (ops : list op) : log :=
  let mem := zrepeat 170 16384 in
  match run (init_dev (bytes_of_string nm) mem 14) ops with
  | Ok (d, _) =>
    match add_ulog_device d 2 true 0 with
    | Ok (Some (n, m)) => mkLog (bytes_of_string nm) mem 14 ops 2 true n m
    | _ => mkLog [] [] 0 [] 0 true (d, 0) 0
    end
  | Bug _ => mkLog [] [] 0 [] 0 true (init_dev [] [] 0, 0) 0
  end.
Definition ex_a : log := ex_log "ulog_main" [OpOpen 1 false true false false; ex_w1 1 "one"; ex_w1 3 "three"].
Definition ex_b : log := ex_log "ulog_app" [OpOpen 1 false true false false; ex_w1 2 "two"].
Lemma ex_log_started nm ops :
  match run (init_dev (bytes_of_string nm) (zrepeat 170 16384) 14) ops with
  | Ok (d, _) => match add_ulog_device d 2 true 0 with Ok (Some _) => true | _ => false end
  | Bug _ => false
  end = true -> zlen (bytes_of_string nm) <= 15 -> Forall user_op ops -> started 0 (ex_log nm ops).
Proof.
  intros H L U. unfold ex_log. destruct (run _ ops) as [[d outs]|] eqn:E; [|discriminate].
  destruct (add_ulog_device d 2 true 0) as [[[n m]|]|] eqn:E2; try discriminate.
  split; [|split]; cbn [g_nm g_mem g_pow2 g_ops g_fid g_all g_node g_mark].
  - split; [lia|]. split; [|exact L]. now rewrite zlen_zrepeat by lia.
  - exact U.
  - exists d, outs. split; [exact E|exact E2].
Qed.
Lemma ex_a_started : started 0 ex_a.
Proof. apply ex_log_started; [vm_compute; reflexivity|vm_compute; discriminate|repeat constructor]. Qed.
Lemma ex_b_started : started 0 ex_b.
Proof. apply ex_log_started; [vm_compute; reflexivity|vm_compute; discriminate|repeat constructor]. Qed.
Example C102_ex : Forall (started 0) [ex_a; ex_b].
Proof. constructor; [exact ex_a_started|]. constructor; [exact ex_b_started|constructor]. Qed.
Definition dump_of (gs : list log) : option ctx :=
  match process_logs 9 (live_env false 0) true 0 (map g_node gs) (open_ctx 0 (map g_mark gs)) 0 with
  | Ok (Some (_, c, 0)) => Some c
  | _ => None
  end.
Definition ex_u (sec : Z) (s : string) : uentry :=
  mkU sec 0 6 100 (bytes_of_string "prog") 100 (bytes_of_string "prog") (bytes_of_string "tag") (bytes_of_string s) false 0.
Example C102_timely : timely [[ex_u 1 "one"; ex_u 3 "three"]; [ex_u 2 "two"]].
Proof. repeat (constructor; try discriminate). Qed.
Example C102_out : option_map (fun c => entries (c_out c)) (dump_of [ex_a; ex_b]) =
  Some [(0%nat, ex_u 1 "one"); (1%nat, ex_u 2 "two"); (0%nat, ex_u 3 "three")].
Proof. vm_compute. reflexivity. Qed.
Definition ex_o : opts := mkO FShort false [] false [].
Definition ex_paths : list (list Z) := [bytes_of_string "/dev/ulog_main"; bytes_of_string "/dev/ulog_app"].
Definition text_of_dump (gs : list log) : option (list Z) :=
  match dump_of gs with
  | Some c => match output ex_o ex_paths (c_out c) with
              | Ok cells => Some (map (fun x => match x with Some b => b | None => -1 end) cells)
              | Bug _ => None
              end
  | None => None
  end.
Definition nl : list Z := [10].
Example C103_ex : text_of_dump [ex_a; ex_b] =
  Some (bytes_of_string "---------------------------------------------------- beginning of /dev/ulog_main" ++ nl ++
        bytes_of_string "I tag         : one" ++ nl ++
        bytes_of_string "---------------------------------------------------- beginning of /dev/ulog_app" ++ nl ++
        bytes_of_string "I tag         : two" ++ nl ++
        bytes_of_string "I tag         : three" ++ nl).
Proof. vm_compute. reflexivity. Qed.
(** Without a second device there is no banner. *)
Example C104_ex : poll_sane (live_env false 0) /\
  match dump_of [ex_b] with
  | Some c => map (fun x => match x with EvBanner _ => true | _ => false end) (c_out c)
  | None => []
  end = [false].
Proof. split; [apply live_sane|]. vm_compute. reflexivity. Qed.
Print Assumptions C102_any_times.
Print Assumptions C102_dump.
Print Assumptions C103_text.
Print Assumptions C104_banners.
