(** Property C149: the bridge of the python binding together with its handler. *)
From Coq Require Import ZArith String List Bool Lia ZifyBool Arith.
From Verif Require Import Bytes BytesProofs Parse Iov Py PySpec PyProofs PyLoop.
Import ListNotations.
Open Scope Z_scope.

(** ** Specification *)

(** The handlers asked about a message given to a logger: its own, then those of its parents as long as each logger on
    the way propagates. *)
Inductive asked : list lgr -> hdl -> Prop :=
| own : forall g p h, In h (g_handlers g) -> asked (g :: p) h
| inherited : forall g p h, g_propagate g = true -> asked p h -> asked (g :: p) h.
(** A logger lets messages of a level pass: neither it nor the level is disabled, and the first level set from the
    logger up, if any, is not above. *)
Inductive limit : list lgr -> Z -> Prop :=
| unlimited : limit [] 0
| set_here : forall g p, g_level g <> 0 -> limit (g :: p) (g_level g)
| set_above : forall g p l, g_level g = 0 -> limit p l -> limit (g :: p) l.
Definition lets_pass (c : ctx) (l : nat) (level : Z) : Prop :=
  exists g p lim, c_path c l = g :: p /\ g_disabled g = false /\ c_off c < level /\ limit (g :: p) lim /\ lim <= level.
(** A message of this level, given to the logger [l], would be written to ulog again. *)
Definition comes_back (c : ctx) (l : nat) (level : Z) : Prop :=
  lets_pass c l level /\ (exists prio, logging_prio level = Some prio /\ prio <= c_master c) /\
  exists h, asked (c_path c l) (ULogH h) /\ h <= level.

(** What reached the native output. *)
Definition native (l : list ev) : list (Z * list Z * list Z) :=
  concat (map (fun e => match e with Native_out p t b => [(p, t, b)] | _ => [] end) l).
(** The handlers asked, in order: those of the logger, then those of its parents up to one that does not propagate. *)
Inductive in_order : list lgr -> list hdl -> Prop :=
| no_more : in_order [] []
| stops : forall g p, g_propagate g = false -> in_order (g :: p) (g_handlers g)
| goes_on : forall g p hs, g_propagate g = true -> in_order p hs -> in_order (g :: p) (g_handlers g ++ hs).
(** What the handlers that do not write to ulog get of a message: each one whose level is not above gets it once; without
    any handler at all the one of last resort gets warnings and what is graver. *)
Definition gets (c : ctx) (level : Z) (t : list Z) (l : nat) (e : list ev) : Prop :=
  exists hs, in_order (c_path c l) hs /\
    e = match hs with
        | [] => if 30 <=? level then [Last_resort t] else []
        | _ => flat_map (fun h => match h with OtherH id lv => if lv <=? level then [Given id level t] else [] | ULogH _ => [] end) hs
        end.
Definition an_event (m : list Z) : Prop := exists r, m = [69; 86; 84; 58] ++ r.
(** A line of text: no NUL, no end of line, not empty, no event. *)
Definition one_line (t : list Z) : Prop := t <> [] /\ ~ In 0 t /\ no_eol t /\ ~ an_event t.

(** ** Lemmas *)

Lemma asked_iff p h : asked p h <-> In h (targets p).
Proof.
  split.
  - induction 1 as [g p h H|g p h H A IH]; cbn [targets]; apply in_or_app; [left; exact H|right]. rewrite H. exact IH.
  - induction p as [|g p IH]; cbn [targets]; [intros []|]. intros H. apply in_app_or in H. destruct H as [H|H]; [now apply own|].
    destruct (g_propagate g) eqn:E; [|destruct H]. apply inherited; [exact E|]. now apply IH.
Qed.
Lemma limit_iff p l : limit p l <-> effective p = l.
Proof.
  split.
  - induction 1 as [|g p N|g p l N L IH]; cbn [effective]; [reflexivity| |].
    + destruct (Z.eqb_spec (g_level g) 0); [contradiction|reflexivity].
    + rewrite N. exact IH.
  - intros <-. induction p as [|g p IH]; cbn [effective]; [constructor|]. destruct (Z.eqb_spec (g_level g) 0); [now apply set_above|now apply set_here].
Qed.
Lemma lets_pass_iff c l level : lets_pass c l level <-> enabled_for c l level = true.
Proof.
  unfold lets_pass, enabled_for. destruct (c_path c l) as [|g p].
  - split; [intros (g & p & lim & H & _); discriminate|discriminate].
  - split.
    + intros (g' & p' & lim & H & D & O & L & M). injection H as <- <-. apply limit_iff in L. rewrite D, L. lia.
    + intros H. exists g, p, (effective (g :: p)). split; [reflexivity|]. split; [destruct (g_disabled g); [discriminate|reflexivity]|].
      split; [lia|]. split; [now apply limit_iff|lia].
Qed.
Lemma native_app a b : native (a ++ b) = native a ++ native b.
Proof. unfold native. now rewrite map_app, concat_app. Qed.
Lemma not_event m : ~ an_event m -> startswith (bytes_of_string "EVT:") m = false.
Proof.
  intros NE. unfold startswith. destruct (bytes_eqb _ _) eqn:E; [|reflexivity]. apply bytes_eqb_eq in E. exfalso. apply NE.
  exists (skipn 4 m). rewrite <- (firstn_skipn 4 m) at 1. change (length (bytes_of_string "EVT:")) with 4%nat in E. rewrite E. reflexivity.
Qed.
Lemma strip_line t : one_line t -> strip t = t.
Proof.
  intros (N & _ & (A & B) & _).
  assert (L : forall l, l <> [] -> ~ In 10 l -> ~ In 13 l -> lstrip l = l).
  { intros [|x l]; [contradiction|]. intros _ H1 H2. cbn [lstrip]. unfold crlf. destruct (Z.eqb_spec x 10); [exfalso; apply H1; now left|].
    destruct (Z.eqb_spec x 13); [exfalso; apply H2; now left|reflexivity]. }
  unfold strip. rewrite (L t N A B). rewrite L; [apply rev_involutive| | |]; rewrite <- ?in_rev; auto.
  intros H. apply N. rewrite <- (rev_involutive t), H. reflexivity.
Qed.
Lemma split_line : forall t cur, no_eol t -> split cur t = match rev t ++ cur with [] => [] | l => [rev l] end.
Proof.
  induction t as [|x t IH]; intros cur (A & B); cbn [split]; [destruct cur; reflexivity|].
  destruct (Z.eqb_spec x 10); [exfalso; apply A; now left|]. destruct (Z.eqb_spec x 13); [exfalso; apply B; now left|].
  rewrite IH by (split; intros H; [apply A|apply B]; now right). cbn [rev]. now rewrite <- app_assoc.
Qed.
Lemma splitlines_line t : one_line t -> splitlines t = [t].
Proof.
  intros (N & _ & E & _). unfold splitlines. rewrite split_line by exact E. rewrite app_nil_r.
  destruct (rev t) as [|x r] eqn:R; [exfalso; apply N; rewrite <- (rev_involutive t), R; reflexivity|]. rewrite <- R, rev_involutive. reflexivity.
Qed.
Lemma cstr_line t : ~ In 0 t -> cstr (t ++ [0]) = t /\ cstr t = t.
Proof.
  induction t as [|x t IH]; intros N; [split; reflexivity|]. cbn [app cstr].
  destruct (Z.eqb_spec x 0); [exfalso; apply N; now left|]. destruct IH as (A & B); [intros H; apply N; now right|]. now rewrite A, B.
Qed.

(** The level of a priority of a record made from it again. *)
Lemma levels prio level : prio_logging prio = Some level -> exists q, logging_prio level = Some q /\ prio_logging q = Some level /\ 0 <= q <= 7.
Proof.
  unfold prio_logging. intros H. 
  assert (Q : level = 50 \/ level = 40 \/ level = 30 \/ level = 20 \/ level = 10).
  { destruct prio as [|[[p|p|]|[p|p|]|]|p]; try discriminate; cbn in H; repeat (match type of H with match ?x with _ => _ end = _ => destruct x; try discriminate end); injection H as <-; vm_compute; tauto. }
  destruct Q as [-> |[-> |[-> |[-> | ->]]]]; eexists; repeat split; try reflexivity; lia.
Qed.

Lemma seq_all {A} (f : A -> list ev * bool) l : (forall x, In x l -> snd (f x) = true) -> seq f l = (concat (map (fun x => fst (f x)) l), true).
Proof.
  induction l as [|x l IH]; intros H; [reflexivity|]. cbn [seq map concat]. assert (E := H x (or_introl eq_refl)). destruct (f x) as [a ok]. cbn [snd fst] in *. subst ok.
  rewrite IH; [reflexivity|]. intros y I. apply H. now right.
Qed.
Lemma give_ok c again level text h : c_utf8 c text = true -> logging_prio level <> None -> snd (give c again level text h) = true.
Proof.
  intros U L. unfold give. destruct (level <? hlevel h); [reflexivity|]. destruct h; [|reflexivity]. unfold emit_again.
  destruct (logging_prio level); [|contradiction]. rewrite U. reflexivity.
Qed.
Lemma handle_record_ok c again level text l : c_utf8 c text = true -> logging_prio level <> None -> snd (handle_record c again level text l) = true.
Proof.
  intros U L. unfold handle_record. destruct (targets (c_path c l)) as [|h hs]; [reflexivity|]. rewrite seq_all; [reflexivity|]. intros x _. now apply give_ok.
Qed.
Lemma write_bridge c s n prio level tag t : b_kernel s = Some Native -> prio_logging prio = Some level -> one_line t -> c_utf8 c t = true ->
  write c s (S (S n)) Bridge prio tag (t ++ [0]) =
    Native_out prio tag (t ++ [0]) :: concat (map (fun l => if enabled_for c l level then fst (handle_record c (write c s (S n) (b_current s)) level t l) else []) (b_loggers s)).
Proof.
  intros K P T U. destruct (levels _ _ P) as (q & Q & _). assert (T' := T). destruct T' as (T1 & T2 & T3 & T4). destruct (cstr_line t T2) as (C & _).
  change (write c s (S (S n)) Bridge prio tag (t ++ [0])) with
    (match b_kernel s with None => [] | Some g => write c s (S n) g prio tag (t ++ [0]) end ++
      match prio_logging prio with
      | None => []
      | Some level =>
        fst (seq (fun l => if enabled_for c l level then handle_record c (write c s (S n) (b_current s)) level (strip (cstr (t ++ [0]))) l else ([], true)) (b_loggers s))
      end).
  rewrite K, P, C, (strip_line t T). cbn [write app]. f_equal. rewrite seq_all.
  - cbn [fst]. f_equal. apply map_ext. intros l. destruct (enabled_for c l level); reflexivity.
  - intros l _. destruct (enabled_for c l level); [|reflexivity]. apply handle_record_ok; [exact U|congruence].
Qed.

Lemma in_order_targets p : in_order p (targets p).
Proof.
  induction p as [|g p IH]; cbn [targets]; [constructor|]. destruct (g_propagate g) eqn:E; [now apply goes_on|]. rewrite app_nil_r. now apply stops.
Qed.
Lemma prio_range prio : 0 <= prio <= 7 -> exists level, prio_logging prio = Some level.
Proof.
  intros H. assert (Q : prio = 0 \/ prio = 1 \/ prio = 2 \/ prio = 3 \/ prio = 4 \/ prio = 5 \/ prio = 6 \/ prio = 7) by lia.
  destruct Q as [->|[->|[->|[->|[->|[->|[->| ->]]]]]]]; eexists; reflexivity.
Qed.
Lemma land7 q : 0 <= q <= 7 -> Z.land q 7 = q.
Proof. intros H. change 7 with (Z.ones 3). rewrite Z.land_ones by lia. apply Z.mod_small. lia. Qed.
(** The bridge in use. *)
Lemma bridge_state ops : settled ops -> muted ops = false -> (exists l f, In (Enable l f) ops) ->
  b_current (after_ops ops) = Bridge /\ b_kernel (after_ops ops) = Some Native.
Proof.
  intros HS HM (l & f & I). destruct (good_ops ops HS) as (G1 & G2 & G3 & G4). split.
  - destruct (b_current (after_ops ops)); [|reflexivity]. exfalso. apply (proj1 G3 eq_refl l f I).
  - rewrite G4, HM. destruct (existsb _ ops) eqn:E; [reflexivity|]. exfalso.
    assert (existsb (fun o => match o with Enable _ _ => true | _ => false end) ops = true) by (apply existsb_exists; exists (Enable l f); auto). congruence.
Qed.
Lemma is_on_enabled ops l : is_on l ops = true -> exists x f, In (Enable x f) ops.
Proof.
  unfold is_on. induction ops as [|[y f|y] ops IH] using rev_ind; [discriminate| |]; rewrite fold_left_app; cbn [fold_left].
  - intros _. exists y, f. apply in_or_app. right. now left.
  - destruct (Nat.eqb l y); [discriminate|]. intros H. destruct (IH H) as (x & f & I). exists x, f. apply in_or_app. now left.
Qed.

(** ** C149 *)

(** A message of one line, of a plain priority, with loggers bridged with forwarding: unless one of the loggers gives it
    back to ulog, it reaches the native output exactly once, unchanged, and then each handler of each bridged logger that
    lets it pass, once. (Missing for the full C149: the case that a logger gives it back, false by C149_flood_refuted.) *)
Theorem C149_once_partial : forall c ops depth prio level tag t, settled ops -> muted ops = false -> (exists l f, In (Enable l f) ops) ->
  (2 <= depth)%nat -> prio_logging prio = Some level -> one_line t -> c_utf8 c t = true ->
  (forall l, is_on l ops = true -> ~ comes_back c l level) ->
  exists loggers parts, NoDup loggers /\ (forall l, In l loggers <-> is_on l ops = true /\ lets_pass c l level) /\
    Forall2 (gets c level t) loggers parts /\
    write c (after_ops ops) depth (b_current (after_ops ops)) prio tag (t ++ [0]) = Native_out prio tag (t ++ [0]) :: concat parts.
Proof.
  intros c ops depth prio level tag t HS HM HE HD HP HT HU HC.
  destruct (bridge_state ops HS HM HE) as (EC & EK). destruct (good_ops ops HS) as (G1 & G2 & _ & _).
  destruct (levels _ _ HP) as (q & LQ & PQ & RQ). destruct depth as [|[|n]]; try lia.
  rewrite EC, (write_bridge c _ n prio level tag t EK HP HT HU), EC. set (s := after_ops ops) in *. clearbody s.
  exists (filter (fun l => enabled_for c l level) (b_loggers s)).
  exists (map (fun l => fst (handle_record c (write c s (S n) Bridge) level t l)) (filter (fun l => enabled_for c l level) (b_loggers s))).
  split; [now apply NoDup_filter|]. split; [intros l; rewrite filter_In, G2, lets_pass_iff; tauto|]. split.
  - assert (A : forall l, In l (filter (fun l => enabled_for c l level) (b_loggers s)) -> gets c level t l (fst (handle_record c (write c s (S n) Bridge) level t l))).
    { intros l I. apply filter_In in I. destruct I as (I & E). exists (targets (c_path c l)). split; [apply in_order_targets|].
      assert (NB := HC l (proj1 (G2 l) I)). unfold handle_record. destruct (targets (c_path c l)) as [|h0 hs0] eqn:ET; [reflexivity|]. rewrite <- ET.
      rewrite seq_all by (intros x _; apply give_ok; [exact HU|congruence]). cbn [fst]. rewrite flat_map_concat_map. f_equal. apply map_ext_in. intros h J.
      unfold give. destruct h as [lv|id lv]; cbn [hlevel]; rewrite Z.ltb_antisym; destruct (Z.leb_spec lv level) as [LE|GT]; cbn [negb fst]; try reflexivity.
      unfold emit_again. rewrite LQ, HU, not_event by apply HT. cbn [fst]. rewrite splitlines_line by exact HT. cbn [map concat].
      rewrite land7 by exact RQ. destruct (Z.leb_spec q (c_master c)) as [QM|QM]; [|reflexivity]. exfalso. apply NB. split; [now apply lets_pass_iff|].
      split; [exists q; split; [exact LQ|exact QM]|]. exists lv. split; [apply asked_iff; rewrite ET; rewrite <- ET; exact J|exact LE]. }
    revert A. generalize (filter (fun l => enabled_for c l level) (b_loggers s)) as ls. induction ls as [|l ls IH]; intros A; cbn [map]; constructor; [apply A; now left|].
    apply IH. intros x I. apply A. now right.
  - f_equal. clear. induction (b_loggers s) as [|l ls IH]; [reflexivity|]. cbn [map concat filter]. destruct (enabled_for c l level); cbn [map concat app]; now rewrite IH.
Qed.

(** Otherwise it is written as many times as calls can be nested. *)
Theorem C149_flood : forall c ops n prio level tag t, settled ops -> muted ops = false ->
  prio_logging prio = Some level -> one_line t -> c_utf8 c t = true ->
  (exists l, is_on l ops = true /\ comes_back c l level) ->
  (n <= length (native (write c (after_ops ops) (S n) (b_current (after_ops ops)) prio tag (t ++ [0%Z]))))%nat.
Proof.
  intros c ops n prio level tag t HS HM HP HT HU (l & ON & LP & (q & LQ & QM) & h & AH & HL).
  destruct (bridge_state ops HS HM (is_on_enabled ops l ON)) as (EC & EK). destruct (good_ops ops HS) as (G1 & G2 & _ & _). rewrite EC.
  apply G2 in ON. destruct (levels _ _ HP) as (q' & LQ' & PQ & RQ). rewrite LQ in LQ'. injection LQ' as <-.
  set (s := after_ops ops) in *. clearbody s. apply lets_pass_iff in LP. apply asked_iff in AH.
  revert prio tag HP. induction n as [|n IH]; intros prio tag HP; [lia|].
  rewrite (write_bridge c s n prio level tag t EK HP HT HU), EC. change (Native_out ?a ?b ?d :: ?r) with ([Native_out a b d] ++ r). rewrite native_app, app_length. cbn [native map concat app length].
  assert (S1 : forall (f : nat -> list ev) (ls : list nat) x, In x ls -> (length (native (f x)) <= length (native (concat (map f ls))))%nat).
  { intros f ls x. induction ls as [|y ls IHl]; [intros []|]. cbn [map concat]. rewrite native_app, app_length. intros [->|I]; [lia|]. specialize (IHl I). lia. }
  specialize (S1 (fun l0 => if enabled_for c l0 level then fst (handle_record c (write c s (S n) Bridge) level t l0) else []) _ l ON). cbv beta in S1. rewrite LP in S1.
  assert (S2 : (n <= length (native (fst (handle_record c (write c s (S n) Bridge) level t l))))%nat); [|cbn in *; lia].
  unfold handle_record. destruct (targets (c_path c l)) as [|h0 hs0] eqn:ET; [destruct AH|]. rewrite <- ET in *.
  rewrite seq_all by (intros x _; apply give_ok; [exact HU|congruence]). cbn [fst].
  assert (S3 : forall (f : hdl -> list ev) (ls : list hdl) x, In x ls -> (length (native (f x)) <= length (native (concat (map f ls))))%nat).
  { intros f ls x. induction ls as [|y ls IHl]; [intros []|]. cbn [map concat]. rewrite native_app, app_length. intros [->|I]; [lia|]. specialize (IHl I). lia. }
  specialize (S3 (fun x => fst (give c (write c s (S n) Bridge) level t x)) _ (ULogH h) AH). cbv beta in S3.
  refine (Nat.le_trans _ _ _ _ S3). unfold give. cbn [hlevel]. destruct (Z.ltb_spec level h); [lia|]. unfold emit_again. rewrite LQ, HU, not_event by apply HT. cbn [fst].
  rewrite splitlines_line by exact HT. cbn [map concat]. rewrite app_nil_r, land7 by exact RQ. destruct (Z.leb_spec q (c_master c)); [|lia].
  destruct (cstr_line t) as (_ & ->); [apply HT|]. apply IH. exact PQ.
Qed.

(** So the full C149 is false, in the simplest program: setup_logging (a ULogHandler at the root, of level INFO, all
    loggers below it propagating) and enable_bridge of any logger. A message of C code is written without end. *)
Theorem C149_flood_refuted : exists c ops, ops = [Enable 1 true] /\ (forall l, c_path c l = [mkLgr 0 false true []; mkLgr INFO false true [ULogH 0]]) /\ c_off c = 0 /\ c_master c = 6 /\
  forall n tag, (n <= length (native (write c (after_ops ops) (S n) (b_current (after_ops ops)) 6%Z tag ([97%Z] ++ [0%Z]))))%nat.
Proof.
  exists (mkCtx (fun _ => [mkLgr 0 false true []; mkLgr INFO false true [ULogH 0]]) 0 6 (fun _ => true)), [Enable 1 true].
  do 4 (split; [reflexivity|]). intros n tag. apply (C149_flood _ _ n 6 INFO); [exact I|reflexivity|reflexivity| |reflexivity|].
  - split; [discriminate|]. split; [cbn; lia|]. split; [split; cbn; lia|]. intros (r & H). discriminate.
  - exists 1%nat. split; [reflexivity|]. split; [apply lets_pass_iff; reflexivity|]. split; [exists 6; split; [reflexivity|cbn; lia]|].
    exists 0. split; [|vm_compute; discriminate]. apply inherited; [reflexivity|]. apply own. now left.
Qed.
(** And a text that is not UTF-8, given to a ULogHandler, ends the call of the bridge: the loggers after do not get it. *)
Theorem C149_bytes_refuted : exists c ops t, ops = [Enable 1 true; Enable 2 true] /\ c_path c 2%nat = [mkLgr INFO false true [OtherH 7 0]] /\ c_utf8 c t = false /\
  forall n tag, write c (after_ops ops) (S (S n)) (b_current (after_ops ops)) 6 tag (t ++ [0]) = [Native_out 6 tag (t ++ [0])].
Proof.
  exists (mkCtx (fun l => if Nat.eqb l 1 then [mkLgr INFO false true [ULogH 0]] else [mkLgr INFO false true [OtherH 7 0]]) 0 6 (fun _ => false)), [Enable 1 true; Enable 2 true], [255].
  do 3 (split; [reflexivity|]). intros n tag. reflexivity.
Qed.

Example C149_once_ex : let c := mkCtx (fun _ => [mkLgr 0 false true [OtherH 3 0; OtherH 4 WARNING]; mkLgr INFO false false [OtherH 5 0]; mkLgr 0 false true [ULogH 0]]) 0 6 (fun _ => true) in
  let ops := [Enable 1 true; Enable 2 true; Disable 2] in settled ops /\ one_line [97] /\ ~ comes_back c 1 INFO /\
  write c (after_ops ops) 9 (b_current (after_ops ops)) 6 [116] [97; 0] = [Native_out 6 [116] [97; 0]; Given 3 INFO [97]; Given 5 INFO [97]].
Proof.
  cbv zeta. split; [cbn; tauto|]. split; [|split; [|reflexivity]].
  - split; [discriminate|]. split; [cbn; lia|]. split; [split; cbn; lia|]. intros (r & H). discriminate.
  - intros (_ & _ & h & A & _). apply asked_iff in A. cbn in A. destruct A as [A|[A|[A|[]]]]; discriminate.
Qed.

Print Assumptions C149_once_partial.
Print Assumptions C149_flood.
Print Assumptions C149_flood_refuted.
Print Assumptions C149_bytes_refuted.
