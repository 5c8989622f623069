(** Property C120: the output of the log reader, with an output that may fail.

    Vocabulary: Live.output (the text of events), LiveSpec.v ([text_of]); [kind], [wres] (CatOut.v):
    where the output goes and what the system answers. *)
From Coq Require Import ZArith String List Bool Lia ZifyBool ZifyNat Arith.
From Verif Require Import Bytes BytesProofs Parse Cat CatSpec Render Live LiveSpec PropsLive CatOut CatOutProofs.
Import ListNotations.
Open Scope Z_scope.

(** An answer that loses nothing, a descriptor without short writes. *)
Definition good (k : kind) (a : wres) : Prop := a = WAll \/ (k = ToFd /\ a = WErr EINTR).
Definition no_short (k : kind) (a : wres) : Prop := k = ToFd -> forall n, a <> WPart n.
Definition new_sink (k : kind) (ans : list wres) : sink := mkSink k ans [] false.

(** ** Lemmas *)
Lemma flush_chunk o paths x : flush_text o paths x = let* r := chunk_of o paths x in Ok (match r with Some l => l | None => [] end).
Proof. destruct x; reflexivity. Qed.
Lemma output_app o paths a b : output o paths (a ++ b) = let* x := output o paths a in let* y := output o paths b in Ok (x ++ y).
Proof.
  induction a as [|e a IH]; cbn [app output bind].
  - destruct (output o paths b); reflexivity.
  - destruct (flush_text o paths e) as [l|]; cbn [bind]; [|reflexivity]. rewrite IH.
    destruct (output o paths a) as [x|]; cbn [bind]; [|reflexivity]. destruct (output o paths b) as [y|]; cbn [bind]; [|reflexivity]. now rewrite app_assoc.
Qed.

Lemma write_good ans l : Forall (good ToFd) ans -> exists r, write_loop ans l = (r, l, false) /\ Forall (good ToFd) r.
Proof.
  induction 1 as [|a ans G F IH]; cbn [write_loop]; [eauto|]. destruct G as [->|(_ & ->)]; [eauto|]. exact IH.
Qed.
Lemma rendered_good s l : k_kind s <> Nowhere -> k_err s = false -> Forall (good (k_kind s)) (k_ans s) ->
  exists r, output_rendered s l = mkSink (k_kind s) r (k_bytes s ++ l) false /\ Forall (good (k_kind s)) r.
Proof.
  intros N E F. unfold output_rendered. rewrite E. destruct (k_kind s) eqn:K; [| |congruence].
  - destruct (k_ans s) as [|a ans]; cbn [fwrite1]; [eauto|]. inversion F as [|? ? G F']; subst. destruct G as [->|(X & _)]; [eauto|discriminate].
  - destruct (write_good (k_ans s) l F) as (r & -> & Fr). eauto.
Qed.
Lemma feed_good o paths : forall evs s text, k_kind s <> Nowhere -> k_err s = false -> Forall (good (k_kind s)) (k_ans s) -> output o paths evs = Ok text ->
  exists r, feed o paths evs s = Ok (mkSink (k_kind s) r (k_bytes s ++ text) false) /\ Forall (good (k_kind s)) r.
Proof.
  induction evs as [|x evs IH]; intros s text N E F O; cbn [output feed] in *.
  - assert (text = []) as -> by congruence. exists (k_ans s). rewrite app_nil_r. split; [|exact F]. destruct s as (a, b, c, d). cbn in *. now subst d.
  - rewrite flush_chunk in O. destruct (chunk_of o paths x) as [[l|]|]; cbn [bind] in *; [| |discriminate].
    + destruct (output o paths evs) as [rest|] eqn:R; cbn [bind] in O; [|discriminate]. assert (text = l ++ rest) as -> by congruence.
      destruct (rendered_good s l N E F) as (r & -> & Fr).
      destruct (IH (mkSink (k_kind s) r (k_bytes s ++ l) false) rest) as (r' & Q & Fr'); auto. cbn in Q, Fr'. exists r'. rewrite Q, <- app_assoc. auto.
    + destruct (output o paths evs) as [rest|] eqn:R; cbn [bind] in O; [|discriminate]. assert (text = rest) as -> by (cbn in O; congruence). apply IH; auto.
Qed.

(** What a failing output has taken of the text of [evs]. *)
Definition cut (o : opts) (paths : list (list Z)) (evs : list ev) (bytes : list (option Z)) (err : bool) : Prop :=
  exists shown rest whole part, evs = shown ++ rest /\ output o paths shown = Ok whole /\ bytes = whole ++ part /\
    if err then exists y r chunk, rest = y :: r /\ flush_text o paths y = Ok chunk /\ exists lost, chunk = part ++ lost
    else rest = [] /\ part = [].

Lemma rendered_cut s l : k_kind s <> Nowhere -> k_err s = false -> Forall (no_short (k_kind s)) (k_ans s) ->
  exists r part e, output_rendered s l = mkSink (k_kind s) r (k_bytes s ++ part) e /\ Forall (no_short (k_kind s)) r /\
    (if e then exists lost, l = part ++ lost else part = l).
Proof.
  intros N E F. unfold output_rendered. rewrite E. destruct (k_kind s) eqn:K; [| |congruence].
  - destruct (k_ans s) as [|a ans]; cbn [fwrite1]; [eexists _, _, _; eauto|]. inversion F as [|? ? G F']; subst. destruct a as [|n|e].
    + eexists _, _, _. eauto.
    + eexists _, _, _. split; [reflexivity|]. split; [exact F'|]. destruct (Z.ltb_spec n (zlen l)).
      * exists (zdrop n l). symmetry. apply ztake_zdrop.
      * apply ztake_all. lia.
    + eexists _, [], true. split; [reflexivity|]. split; [exact F'|]. exists l. reflexivity.
  - assert (G : exists r part e, write_loop (k_ans s) l = (r, part, e) /\ Forall (no_short ToFd) r /\ (if e : bool then exists lost, l = part ++ lost else part = l)).
    { clear E N. induction F as [|a ans G F IH]; cbn [write_loop]; [eexists _, _, _; eauto|]. destruct a as [|n|e].
      - eexists _, _, _. eauto.
      - exfalso. apply (G eq_refl n). reflexivity.
      - destruct (e =? EINTR); [exact IH|]. eexists _, [], true. split; [reflexivity|]. split; [exact F|]. exists l. reflexivity. }
    destruct G as (r & part & e & -> & Fr & P). exists r, part, e. auto.
Qed.
Lemma feed_err o paths : forall evs s t, k_err s = true -> feed o paths evs s = Ok t -> t = s.
Proof.
  induction evs as [|x evs IH]; intros s t E H; cbn [feed] in H; [congruence|]. destruct (chunk_of o paths x) as [[l|]|]; cbn [bind] in H; [| |discriminate].
  - assert (output_rendered s l = s) as X by (unfold output_rendered; now rewrite E). rewrite X in H. now apply IH.
  - now apply IH.
Qed.
Lemma feed_cut o paths : forall evs s t, k_kind s <> Nowhere -> k_err s = false -> Forall (no_short (k_kind s)) (k_ans s) -> feed o paths evs s = Ok t ->
  exists b, k_bytes t = k_bytes s ++ b /\ cut o paths evs b (k_err t).
Proof.
  induction evs as [|x evs IH]; intros s t N E F H; cbn [feed] in H.
  - assert (t = s) as -> by congruence. exists []. rewrite app_nil_r. split; [reflexivity|]. rewrite E. exists [], [], [], []. auto.
  - destruct (chunk_of o paths x) as [l|] eqn:C; cbn [bind] in H; [|discriminate].
    assert (FT : flush_text o paths x = Ok (match l with Some l => l | None => [] end)) by (rewrite flush_chunk, C; reflexivity).
    destruct l as [l|].
    + destruct (rendered_cut s l N E F) as (r & part & e & R & Fr & P). rewrite R in H. destruct e.
      * apply feed_err in H; [|reflexivity]. subst t. exists part. split; [reflexivity|]. exists [], (x :: evs), [], part. repeat split. cbn [k_err].
        exists x, evs, l. auto.
      * subst part. destruct (IH (mkSink (k_kind s) r (k_bytes s ++ l) false) t N eq_refl Fr H) as (b & B & (shown & rest & whole & part & E1 & E2 & E3 & E4)). cbn in B. exists (l ++ b).
        split; [now rewrite app_assoc|]. exists (x :: shown), rest, (l ++ whole), part. split; [cbn; congruence|]. split.
        { cbn [output]. rewrite FT. cbn [bind]. rewrite E2. reflexivity. }
        split; [rewrite E3; now rewrite app_assoc|]. exact E4.
    + destruct (IH s t N E F H) as (b & B & (shown & rest & whole & part & E1 & E2 & E3 & E4)). exists b. split; [exact B|].
      exists (x :: shown), rest, whole, part. split; [cbn; congruence|]. split.
      { cbn [output]. rewrite FT. cbn [bind]. rewrite E2. reflexivity. }
      split; [exact E3|exact E4].
Qed.

Section Run.
  Context {W : Type} (en : env W) (o : opts) (paths : list (list Z)).

  Lemma run_good dump max : forall fuel w c s fr w' c' x text, k_kind s <> Nowhere -> k_err s = false -> Forall (good (k_kind s)) (k_ans s) ->
    process_logs fuel en dump max w c fr = Ok (Some (w', c', x)) -> (exists pre, output o paths (c_out c) = Ok pre) -> output o paths (c_out c') = Ok text ->
    exists s' t, process_out fuel en o paths dump max w c s fr = Ok (Some (w', c', s', x)) /\ k_err s' = false /\ k_bytes s' = k_bytes s ++ t /\
      forall pre, output o paths (c_out c) = Ok pre -> text = pre ++ t.
  Proof.
    induction fuel as [|k IH]; intros w c s fr w' c' x text N E F P (pre & Pre) T; cbn [process_logs process_out] in *; [discriminate|].
    destruct (process_devices en w c) as [[[w1 c1] r]|] eqn:D; cbn [bind] in *; [|discriminate].
    pose proof (grow_skip _ _ (grow_devices _ _ _ _ _ _ D)) as G. set (l := skipn (length (c_out c)) (c_out c1)) in *. clearbody l.
    assert (STEP : forall t1, output o paths (c_out c1) = Ok t1 -> exists tl r1, output o paths l = Ok tl /\ t1 = pre ++ tl /\
       feed o paths l s = Ok (mkSink (k_kind s) r1 (k_bytes s ++ tl) false) /\ Forall (good (k_kind s)) r1).
    { intros t1 H1. rewrite G, output_app, Pre in H1. cbn [bind] in H1. destruct (output o paths l) as [tl|] eqn:Ol; cbn [bind] in H1; [|discriminate].
      destruct (feed_good o paths l s tl N E F Ol) as (r1 & Q & Fr). exists tl, r1. split; [reflexivity|]. split; [congruence|]. auto. }
    assert (PREF : forall ca cb tb, grow ca cb -> output o paths (c_out cb) = Ok tb -> exists ta, output o paths (c_out ca) = Ok ta).
    { intros ca cb tb (m & Hm) H1. rewrite Hm, output_app in H1. destruct (output o paths (c_out ca)) as [ta|]; [eauto|discriminate]. }
    destruct (r <? 0) eqn:R.
    { injection P as <- <- <-. destruct (STEP _ T) as (tl & r1 & _ & -> & Q & _). rewrite Q. cbn [bind]. eexists _, tl. split; [reflexivity|].
      split; [reflexivity|]. split; [reflexivity|]. intros p Hp. congruence. }
    destruct (dump && c_mark c1).
    { destruct (flush_pending_queue _ c1) as [c2|] eqn:E2; cbn [bind] in *; [|discriminate]. injection P as <- <- <-.
      pose proof (grow_pend_queue _ _ _ E2) as G2. destruct (PREF c1 c2 _ G2 T) as (t1 & T1). destruct (STEP _ T1) as (tl & r1 & Ol & -> & Q & Fr). rewrite Q. cbn [bind].
      pose proof (grow_skip _ _ G2) as G3. rewrite G3, output_app, T1 in T. cbn [bind] in T.
      destruct (output o paths (skipn (length (c_out c1)) (c_out c2))) as [t2|] eqn:O2; cbn [bind] in T; [|discriminate].
      destruct (feed_good o paths (skipn (length (c_out c1)) (c_out c2)) (mkSink (k_kind s) r1 (k_bytes s ++ tl) false) t2 N eq_refl Fr O2) as (r2 & Q2 & _).
      rewrite Q2. cbn [bind]. eexists _, (tl ++ t2). split; [reflexivity|]. split; [reflexivity|]. split; [cbn; now rewrite app_assoc|].
      intros p Hp. assert (p = pre) as -> by congruence. rewrite app_assoc. congruence. }
    destruct ((max =? 0) || (fr + r <? max)) eqn:M.
    { assert (GR : grow c1 c').
      { clear - P. revert w1 c1 P. generalize (fr + r). induction k as [|k IH]; intros fr1 w1 c1 P; cbn [process_logs] in P; [discriminate|].
        destruct (process_devices en w1 c1) as [[[w2 c2] r2]|] eqn:D; cbn [bind] in P; [|discriminate]. pose proof (grow_devices _ _ _ _ _ _ D) as G.
        destruct (r2 <? 0); [injection P as <- <- <-; exact G|]. destruct (dump && c_mark c2).
        - destruct (flush_pending_queue _ c2) as [c3|] eqn:E2; cbn [bind] in P; [|discriminate]. injection P as <- <- <-. eapply grow_trans; [exact G|]. eapply grow_pend_queue, E2.
        - destruct (_ || _); [|injection P as <- <- <-; exact G]. eapply grow_trans; [exact G|]. eapply IH, P. }
      destruct (PREF c1 c' _ GR T) as (t1 & T1). destruct (STEP _ T1) as (tl & r1 & Ol & -> & Q & Fr). rewrite Q. cbn [bind k_err].
      destruct (IH w1 c1 (mkSink (k_kind s) r1 (k_bytes s ++ tl) false) (fr + r) w' c' x text N eq_refl Fr P (ex_intro _ _ T1) T) as (s' & t & A & B & C & DD).
      exists s', (tl ++ t). split; [exact A|]. split; [exact B|]. split; [rewrite C; cbn; now rewrite app_assoc|].
      intros p Hp. assert (p = pre) as -> by congruence. rewrite app_assoc. now apply DD. }
    { injection P as <- <- <-. destruct (STEP _ T) as (tl & r1 & _ & -> & Q & _). rewrite Q. cbn [bind k_err]. eexists _, tl. split; [reflexivity|].
      split; [reflexivity|]. split; [reflexivity|]. intros p Hp. congruence. }
  Qed.

  Lemma run_feed dump max : forall fuel w c s fr w' c' s' x, process_out fuel en o paths dump max w c s fr = Ok (Some (w', c', s', x)) ->
    exists l, c_out c' = c_out c ++ l /\ feed o paths l s = Ok s'.
  Proof.
    induction fuel as [|k IH]; intros w c s fr w' c' s' x P; cbn [process_out] in P; [discriminate|].
    destruct (process_devices en w c) as [[[w1 c1] r]|] eqn:D; cbn [bind] in *; [|discriminate].
    pose proof (grow_skip _ _ (grow_devices _ _ _ _ _ _ D)) as G. set (l := skipn (length (c_out c)) (c_out c1)) in *. clearbody l.
    destruct (feed o paths l s) as [s1|] eqn:Fd; cbn [bind] in P; [|discriminate].
    destruct (r <? 0). { injection P as <- <- <- <-. eauto. }
    destruct (dump && c_mark c1).
    { destruct (flush_pending_queue _ c1) as [c2|] eqn:E2; cbn [bind] in *; [|discriminate].
      pose proof (grow_skip _ _ (grow_pend_queue _ _ _ E2)) as G2. set (m := skipn (length (c_out c1)) (c_out c2)) in *. clearbody m.
      destruct (feed o paths m s1) as [s2|] eqn:F2; cbn [bind] in P; [|discriminate]. injection P as <- <- <- <-.
      exists (l ++ m). split; [rewrite G2, G; now rewrite app_assoc|]. rewrite feed_app, Fd. exact F2. }
    destruct (k_err s1). { injection P as <- <- <- <-. eauto. }
    destruct (_ || _); [|injection P as <- <- <- <-; eauto].
    apply IH in P. destruct P as (m & G2 & F2). exists (l ++ m). split; [rewrite G2, G; now rewrite app_assoc|]. rewrite feed_app, Fd. exact F2.
  Qed.

  Lemma run_stops : forall fuel w c s fr w' c' s' x, k_err s = false -> process_out fuel en o paths false 0 w c s fr = Ok (Some (w', c', s', x)) ->
    x < 0 /\ exists w1 c1 s1 r l, process_devices en w1 c1 = Ok (w', c', r) /\ c_out c1 = c_out c ++ l /\ feed o paths l s = Ok s1 /\ k_err s1 = false.
  Proof.
    induction fuel as [|k IH]; intros w c s fr w' c' s' x E P; cbn [process_out] in P; [discriminate|].
    destruct (process_devices en w c) as [[[w1 c1] r]|] eqn:D; cbn [bind] in *; [|discriminate].
    pose proof (grow_skip _ _ (grow_devices _ _ _ _ _ _ D)) as G. set (l := skipn (length (c_out c)) (c_out c1)) in *. clearbody l.
    destruct (feed o paths l s) as [s1|] eqn:Fd; cbn [bind] in P; [|discriminate].
    destruct (Z.ltb_spec r 0). { injection P as <- <- <- <-. split; [lia|]. exists w, c, s, r, []. rewrite app_nil_r. auto. }
    cbn [andb] in P. destruct (k_err s1) eqn:E1.
    { injection P as <- <- <- <-. split; [lia|]. exists w, c, s, r, []. rewrite app_nil_r. auto. }
    cbn [orb Z.eqb] in P. apply IH in P; [|exact E1]. destruct P as (X & w2 & c2 & s2 & r2 & m & A & B & C & DD). split; [exact X|].
    exists w2, c2, s2, r2, (l ++ m). split; [exact A|]. split; [rewrite B, G; now rewrite app_assoc|]. split; [|exact DD]. rewrite feed_app, Fd. exact C.
  Qed.

  Lemma run_zero dump : forall fuel w c s fr w' c' s' x, process_out fuel en o paths dump 0 w c s fr = Ok (Some (w', c', s', x)) -> x <= 0.
  Proof.
    induction fuel as [|k IH]; intros w c s fr w' c' s' x P; cbn [process_out] in P; [discriminate|].
    destruct (process_devices en w c) as [[[w1 c1] r]|] eqn:D; cbn [bind] in *; [|discriminate].
    destruct (feed o paths _ s) as [s1|] eqn:Fd; cbn [bind] in P; [|discriminate].
    destruct (Z.ltb_spec r 0). { injection P as <- <- <- <-. lia. }
    destruct (dump && c_mark c1).
    { destruct (flush_pending_queue _ c1) as [c2|] eqn:E2; cbn [bind] in *; [|discriminate]. destruct (feed o paths _ s1); cbn [bind] in P; [|discriminate]. injection P as <- <- <- <-. lia. }
    destruct (k_err s1). { injection P as <- <- <- <-. lia. }
    cbn [orb Z.eqb] in P. eapply IH, P.
  Qed.
End Run.

(** ** C120 *)

(** An output that takes everything, interrupted or not: exactly the text of the entries comes out, for any
    devices; reading and result are those of a reader without output. *)
Theorem C120_whole : forall W (en : env W) o paths k ans N marks fuel dump max w w' c' x text, k <> Nowhere -> Forall (good k) ans ->
  process_logs fuel en dump max w (open_ctx N marks) 0 = Ok (Some (w', c', x)) -> output o paths (c_out c') = Ok text ->
  exists s', process_out fuel en o paths dump max w (open_ctx N marks) (new_sink k ans) 0 = Ok (Some (w', c', s', x)) /\ k_bytes s' = text /\ k_err s' = false.
Proof.
  intros W en o paths k ans N marks fuel dump max w w' c' x text Nk F P T.
  destruct (run_good en o paths dump max fuel w (open_ctx N marks) (new_sink k ans) 0 w' c' x text Nk eq_refl F P (ex_intro _ [] eq_refl) T) as (s' & t & A & B & C & D).
  exists s'. split; [exact A|]. split; [|exact B]. rewrite C, (D [] eq_refl). reflexivity.
Qed.

(** The same for devices of the driver, where the text is known (C103): every byte of it. *)
Theorem C120_live : forall o paths csv uid k ans N marks fuel dump max ns ns' c' x, 0 <= N -> k <> Nowhere -> Forall (good k) ans ->
  process_logs fuel (live_env csv uid) dump max ns (open_ctx N marks) 0 = Ok (Some (ns', c', x)) ->
  exists s' text, process_out fuel (live_env csv uid) o paths dump max ns (open_ctx N marks) (new_sink k ans) 0 = Ok (Some (ns', c', s', x)) /\
    k_bytes s' = map Some text /\ k_err s' = false /\ text_of o paths (1 <? zlen marks) [] (entries (c_out c')) text.
Proof.
  intros o paths csv uid k ans N marks fuel dump max ns ns' c' x HN Nk F P.
  destruct (C103_text o paths csv uid N marks fuel dump max ns ns' c' x HN P) as (text & T & TT).
  destruct (C120_whole _ (live_env csv uid) o paths k ans N marks fuel dump max ns ns' c' x (map Some text) Nk F P T) as (s' & A & B & C).
  exists s', text. auto.
Qed.

(** Any output, with errors at any time (for a descriptor, without short writes): what came out is the
    text of the first events, up to a place inside the text of the next one when there was an error, and
    nothing after it; without error, everything. *)
Theorem C120_cut_partial : forall W (en : env W) o paths k ans N marks fuel dump max w w' c' s' x, k <> Nowhere -> Forall (no_short k) ans ->
  process_out fuel en o paths dump max w (open_ctx N marks) (new_sink k ans) 0 = Ok (Some (w', c', s', x)) ->
  cut o paths (c_out c') (k_bytes s') (k_err s').
Proof.
  intros W en o paths k ans N marks fuel dump max w w' c' s' x Nk F P. apply run_feed in P. destruct P as (l & G & Fd). cbn in G. rewrite G.
  destruct (feed_cut o paths l (new_sink k ans) s' Nk eq_refl F Fd) as (b & B & C). rewrite B. exact C.
Qed.

(** When following, the reader returns only on an error, at the end of the round in which the first
    output error occurred: before that round nothing had failed. *)
Theorem C120_follow : forall W (en : env W) o paths k ans N marks fuel w w' c' s' x,
  process_out fuel en o paths false 0 w (open_ctx N marks) (new_sink k ans) 0 = Ok (Some (w', c', s', x)) ->
  x < 0 /\ exists w1 c1 s1 r, process_devices en w1 c1 = Ok (w', c', r) /\ feed o paths (c_out c1) (new_sink k ans) = Ok s1 /\ k_err s1 = false.
Proof.
  intros W en o paths k ans N marks fuel w w' c' s' x P. apply run_stops in P; [|reflexivity].
  destruct P as (X & w1 & c1 & s1 & r & l & A & B & C & D). split; [exact X|]. exists w1, c1, s1, r. cbn in B. rewrite B. auto.
Qed.

(** The loop of the tool and of the old interface calls the reader once, and its result is never positive. *)
Theorem C120_tool : forall W (en : env W) o paths dump n fuel w c s,
  tool_loop (S n) fuel en o paths dump w c s = process_out fuel en o paths dump 0 w c s 0 /\
  forall w' c' s' x, tool_loop (S n) fuel en o paths dump w c s = Ok (Some (w', c', s', x)) -> x <= 0.
Proof.
  intros W en o paths dump n fuel w c s.
  assert (E : tool_loop (S n) fuel en o paths dump w c s = process_out fuel en o paths dump 0 w c s 0).
  { cbn [tool_loop]. destruct (process_out fuel en o paths dump 0 w c s 0) as [[[[[w1 c1] s1] x]|]|] eqn:P; cbn [bind]; [|reflexivity|reflexivity].
    pose proof (run_zero en o paths dump _ _ _ _ _ _ _ _ _ P). destruct (Z.leb_spec x 0); [reflexivity|lia]. }
  split; [exact E|]. intros w' c' s' x P. rewrite E in P. eapply run_zero, P.
Qed.

(** One device with the entries [w] to read, each of size 1. *)
Definition ex_entry (s : string) : rx :=
  RxFrame 5 (mkData [] (Some (mkPEntry 1 0 4 1 (Const []) 1 (Const []) (Const (bytes_of_string "t")) (Const (bytes_of_string s)) (zlen (bytes_of_string s) + 1) false 0))) 1 true.
Definition ex_env : env (list rx) := mkEnv _ (fun w fds => (w, inr (map (fun b => b && match w with [] => false | _ => true end) fds)))
  (fun w _ => match w with [] => (w, RxFail) | x :: r => (r, x) end).
Definition ex_o : opts := mkO FShort false [] false [].

(** A short write to a descriptor loses the end of an entry, and no error is noticed. *)
Theorem C120_short_refuted : exists w' c' s',
  let line1 := bytes_of_string "W t           : abc" ++ [10] in let line2 := bytes_of_string "W t           : def" ++ [10] in
  process_out 5 ex_env ex_o [] true 0 [ex_entry "abc"; ex_entry "def"] (open_ctx 0 [2]) (new_sink ToFd [WPart 9]) 0 = Ok (Some (w', c', s', 0)) /\
  output ex_o [] (c_out c') = Ok (map Some (line1 ++ line2)) /\ k_bytes s' = map Some (ztake 9 line1 ++ line2) /\ k_err s' = false.
Proof. do 3 eexists. cbv zeta. split; [vm_compute; reflexivity|]. split; [vm_compute; reflexivity|]. split; vm_compute; reflexivity. Qed.

(** A dump whose output failed ends like one that worked. *)
Theorem C120_dump_refuted : exists w' c' s', process_out 5 ex_env ex_o [] true 0 [ex_entry "abc"] (open_ctx 0 [1]) (new_sink ToFile [WErr 28]) 0 = Ok (Some (w', c', s', 0)) /\
  k_bytes s' = [] /\ k_err s' = true /\ length (c_out c') = 1%nat.
Proof. do 3 eexists. split; [vm_compute; reflexivity|]. split; [vm_compute; reflexivity|]. split; vm_compute; reflexivity. Qed.

Example C120_follow_ex : exists w' c' s', process_out 5 ex_env ex_o [] false 0 [ex_entry "abc"; ex_entry "def"; ex_entry "ghi"] (open_ctx 0 [2]) (new_sink ToFd [WErr EINTR; WAll; WErr 28]) 0 = Ok (Some (w', c', s', -1)) /\
  w' = [ex_entry "ghi"] /\ zlen (k_bytes s') = 20 /\ k_err s' = true.
Proof. do 3 eexists. split; [vm_compute; reflexivity|]. split; [vm_compute; reflexivity|]. split; vm_compute; reflexivity. Qed.

Print Assumptions C120_whole.
Print Assumptions C120_live.
Print Assumptions C120_cut_partial.
Print Assumptions C120_follow.
Print Assumptions C120_tool.
Print Assumptions C120_short_refuted.
Print Assumptions C120_dump_refuted.
