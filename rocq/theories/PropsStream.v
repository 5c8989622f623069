(** C57: text written to the C++ streams. *)
From Coq Require Import ZArith String List Bool Lia ZifyBool ZifyNat.
From Verif Require Import Bytes BytesProofs Stream.
Import ListNotations.
Open Scope Z_scope.

(** ** Specification *)

(** A log statement, UlogX << piece << piece << ... << std::endl: level of X, tag of the file, pieces, and
    std::endl or std::flush. *)
Record stmt := mkStmt { sm_level : Z; sm_tag : list Z; sm_pieces : list (list Z); sm_endl : bool }.
Definition stmt_ops (m : stmt) : list op :=
  Tag (sm_tag m) :: map (Write (sm_level m)) (sm_pieces m) ++
  (if sm_endl m then [Put (sm_level m) 10] else []) ++ [Flush (sm_level m)].

(** The message of a statement: the pieces in order (without the newline of std::endl). *)
Definition stmt_msg (m : stmt) : list event :=
  match concat (sm_pieces m) with [] => [] | x => [Log (sm_level m) (Some (sm_tag m)) x] end.

(** ** Proofs *)

Lemma run_app cap a b : forall s, run cap s (a ++ b) =
  let '(s1, e1) := run cap s a in let '(s2, e2) := run cap s1 b in (s2, e1 ++ e2).
Proof.
  induction a as [|o a IH]; intros s; cbn [run app].
  - destruct (run cap s b); reflexivity.
  - destruct (step cap s o) as [s1 e1]. rewrite IH. destruct (run cap s1 a) as [s2 e2]. destruct (run cap s2 b) as [s3 e3].
    now rewrite app_assoc.
Qed.

(** The characters kept of what is written after [c]. *)
Definition put_in (cap : Z) (str : option (list Z)) (ps : list (list Z)) : option (list Z) := fold_left (xsputn cap) ps str.

Lemma writes cap l : forall ps s, st_bad s l = false ->
  run cap s (map (Write l) ps) = (mkState (put_in cap (st_str s) ps) (st_tag s) (st_fill s) (st_bad s), []).
Proof.
  induction ps as [|p ps IH]; intros s H; cbn [map run].
  - destruct s; reflexivity.
  - cbn [step]. rewrite H. rewrite IH by exact H. reflexivity.
Qed.

Lemma put_in_some cap : forall ps c, zlen c <= cap -> put_in cap (Some c) ps = Some (ztake cap (c ++ concat ps)).
Proof.
  induction ps as [|p ps IH]; intros c H.
  - cbn. rewrite app_nil_r, ztake_all by lia. reflexivity.
  - pose proof (zlen_nonneg c). pose proof (zlen_nonneg p). unfold put_in in *. cbn [fold_left xsputn concat].
    rewrite IH by (rewrite zlen_app, zlen_ztake; lia). f_equal. rewrite <- app_assoc.
    rewrite !(ztake_app cap c), !(ztake_all cap c) by lia. f_equal. rewrite Z.max_r by lia.
    destruct (Z_le_gt_dec (zlen p) (cap - zlen c)).
    + rewrite Z.min_l by lia. rewrite (ztake_all (zlen p) p) by lia. reflexivity.
    + rewrite Z.min_r by lia. rewrite !ztake_app. rewrite zlen_ztake.
      rewrite !(ztake_nonpos (cap - zlen c - _)) by lia. rewrite !app_nil_r, ztake_ztake. f_equal. lia.
Qed.

Lemma put_in_none cap ps : CPP_BUF_SIZE <= cap -> zlen (concat ps) <= CPP_BUF_SIZE ->
  (ps = [] /\ put_in cap None ps = None) \/ put_in cap None ps = Some (concat ps).
Proof.
  intros HC HL. destruct ps as [|p ps]; [left; auto|right]. cbn [concat] in HL. rewrite zlen_app in HL.
  pose proof (zlen_nonneg p). pose proof (zlen_nonneg (concat ps)).
  change (put_in cap None (p :: ps)) with (put_in cap (Some (ztake (Z.min (zlen p) CPP_BUF_SIZE) p)) ps).
  rewrite Z.min_l by lia. rewrite (ztake_all (zlen p)) by lia. rewrite put_in_some by lia. cbn [concat].
  rewrite ztake_all by (rewrite zlen_app; lia). reflexivity.
Qed.

(** Between statements the string is absent or empty, and the streams are good. *)
Definition idle (s : state) : Prop :=
  (st_str s = None \/ st_str s = Some []) /\ (forall l, st_bad s l = false) /\ (forall l, st_fill s l = 0).

Lemma cstr_id s : ~ In 0 s -> cstr s = s.
Proof.
  induction s as [|c s IH]; intros H; [reflexivity|]. cbn [cstr].
  destruct (Z.eqb_spec c 0) as [->|]; [exfalso; apply H; now left|]. rewrite IH; [reflexivity|]. intros X; apply H; now right.
Qed.

Lemma stmt_ok cap s m : CPP_BUF_SIZE <= cap -> idle s -> zlen (concat (sm_pieces m)) <= CPP_BUF_SIZE -> ~ In 0 (concat (sm_pieces m)) ->
  exists s', idle s' /\ run cap s (stmt_ops m) = (s', stmt_msg m).
Proof.
  intros HC (HS & HB & HF) HL HN. destruct m as [l t ps nl]. unfold stmt_ops, stmt_msg. cbn [sm_level sm_tag sm_pieces sm_endl] in *.
  cbn [run step]. rewrite run_app, writes by apply HB. cbn [st_str st_tag st_fill st_bad].
  assert (HP : (concat ps = [] /\ (put_in cap (st_str s) ps = None \/ put_in cap (st_str s) ps = Some [])) \/ put_in cap (st_str s) ps = Some (concat ps)).
  { destruct HS as [-> | ->].
    - destruct (put_in_none cap ps HC HL) as [[-> E]|E]; [left; auto|right; exact E].
    - right. rewrite put_in_some by (change (zlen (@nil Z)) with 0; unfold CPP_BUF_SIZE in *; lia). cbn [app]. rewrite ztake_all by lia. reflexivity. }
  set (str := put_in cap (st_str s) ps) in *. clearbody str.
  assert (FL : forall f, (forall j, f j = 0 \/ j = l) -> exists s', idle s' /\ run cap (mkState str (Some t) f (st_bad s)) [Flush l] =
     (s', match concat ps with [] => [] | x => [Log l (Some t) x] end)).
  { intros f Hf. cbn [run step st_bad]. rewrite HB. unfold sync. cbn [st_str st_tag st_fill st_bad].
    assert (ID : forall x, x = None \/ x = Some [] -> idle (mkState x (Some t) (upd f l 0) (st_bad s))).
    { intros x Hx. split; [exact Hx|]. split; [exact HB|]. cbn [st_fill]. intros j. unfold upd. destruct (Z.eqb_spec j l); [reflexivity|]. destruct (Hf j); [assumption|contradiction]. }
    destruct HP as [[-> [-> | ->]] | ->].
    - eexists. split; [apply ID; now left|reflexivity].
    - eexists. split; [apply ID; now right|reflexivity].
    - destruct (concat ps) as [|c cs] eqn:EC.
      + eexists. split; [apply ID; now right|reflexivity].
      + rewrite cstr_id by exact HN. eexists. split; [apply ID; now right|reflexivity]. }
  destruct nl.
  - cbn [app]. cbn [run step st_bad st_fill st_str st_tag]. rewrite HB, HF. cbn [Z.ltb CPP_BUF_SIZE].
    change (0 <? CPP_BUF_SIZE) with true. cbv iota.
    destruct (FL (upd (st_fill s) l (0 + 1))) as (s' & I & E).
    { intros j. unfold upd. destruct (Z.eqb_spec j l); [now right|left; apply HF]. }
    cbn [run step st_bad] in E. exists s'. split; [exact I|].
    destruct (if st_bad s l then _ else _) as [s2 e2] eqn:Q in E |- *. cbn [app] in *. exact E.
  - cbn [app]. destruct (FL (st_fill s)) as (s' & I & E); [intros j; left; apply HF|]. exists s'. split; [exact I|].
    rewrite E. reflexivity.
Qed.

(** Every statement gives exactly its text, in order, at its level and under its tag; restricted to
    statements that run one after another, whose text has at most 512 bytes, no NUL, and goes through
    sputn. *)
Theorem C57_statements_partial : forall cap ms, 512 <= cap ->
  Forall (fun m => zlen (concat (sm_pieces m)) <= 512 /\ ~ In 0 (concat (sm_pieces m))) ms ->
  snd (run cap init (concat (map stmt_ops ms))) = concat (map stmt_msg ms).
Proof.
  intros cap ms HC HM. assert (I : idle init) by (repeat split; auto). revert I. generalize init as s.
  induction HM as [|m ms (HL & HN) HM IH]; intros s I; [reflexivity|]. cbn [map concat].
  rewrite run_app. destruct (stmt_ok cap s m HC I HL HN) as (s' & I' & ->). specialize (IH s' I').
  destruct (run cap s' (concat (map stmt_ops ms))) as [s2 e2]. cbn [snd] in *. now rewrite IH.
Qed.

Definition ex_stmts : list stmt :=
  [mkStmt 6 [116] [bytes_of_string "count "; bytes_of_string "42"] true; mkStmt 7 [116] [] true; mkStmt 3 [117] [zrepeat 97 512] false].
Example C57_ex : Forall (fun m => zlen (concat (sm_pieces m)) <= 512 /\ ~ In 0 (concat (sm_pieces m))) ex_stmts /\
  concat (map stmt_msg ex_stmts) = [Log 6 (Some [116]) (bytes_of_string "count 42"); Log 3 (Some [117]) (zrepeat 97 512)].
Proof.
  split; [|reflexivity]. constructor; [|constructor; [|constructor; [|constructor]]]; split; try (vm_compute; discriminate); try (vm_compute; intuition discriminate).
Qed.

(** Never more than the buffer is emitted, whatever the operations. *)
Lemma step_bound cap s o s' ev : 512 <= cap -> (forall c, st_str s = Some c -> zlen c <= cap) -> step cap s o = (s', ev) ->
  (forall c, st_str s' = Some c -> zlen c <= cap) /\ Forall (fun e => match e with Log _ _ x => zlen x <= cap end) ev.
Proof.
  intros HC HS E. assert (KEEP : forall q, st_str q = st_str s -> (forall c, st_str q = Some c -> zlen c <= cap)) by (intros q -> ; exact HS).
  destruct o as [t|l x|l c|l]; cbn [step] in E.
  - assert (s' = mkState (st_str s) (Some t) (st_fill s) (st_bad s)) as -> by congruence. assert (ev = []) as -> by congruence. auto.
  - destruct (st_bad s l).
    + assert (s' = s) as -> by congruence. assert (ev = []) as -> by congruence. auto.
    + assert (s' = mkState (xsputn cap (st_str s) x) (st_tag s) (st_fill s) (st_bad s)) as -> by congruence. assert (ev = []) as -> by congruence.
      split; [|constructor]. cbn [st_str]. intros c Hc. unfold xsputn, CPP_BUF_SIZE in Hc. destruct (st_str s) as [b|] eqn:B.
      * assert (c = b ++ ztake (Z.min (zlen x) (Z.max 0 (cap - zlen b))) x) as -> by congruence. specialize (HS b eq_refl).
        rewrite zlen_app, zlen_ztake. lia.
      * assert (c = ztake (Z.min (zlen x) 512) x) as -> by congruence. rewrite zlen_ztake. lia.
  - destruct (st_bad s l); [|destruct (st_fill s l <? CPP_BUF_SIZE)].
    + assert (s' = s) as -> by congruence. assert (ev = []) as -> by congruence. auto.
    + assert (ev = []) as -> by congruence. split; [|constructor]. apply KEEP. assert (s' = mkState (st_str s) (st_tag s) (upd (st_fill s) l (st_fill s l + 1)) (st_bad s)) as -> by congruence. reflexivity.
    + assert (ev = []) as -> by congruence. split; [|constructor]. apply KEEP. assert (s' = mkState (st_str s) (st_tag s) (st_fill s) (upd (st_bad s) l true)) as -> by congruence. reflexivity.
  - destruct (st_bad s l).
    + assert (s' = s) as -> by congruence. assert (ev = []) as -> by congruence. auto.
    + unfold sync in E. destruct (st_str s) as [[|c cs]|] eqn:B.
      * assert (ev = []) as -> by congruence. split; [|constructor]. intros d Hd. assert (st_str s' = Some []) as K by (replace s' with (mkState (Some []) (st_tag s) (upd (st_fill s) l 0) (st_bad s)) by congruence; reflexivity).
        assert (d = []) as -> by congruence. change (zlen (@nil Z)) with 0. lia.
      * assert (ev = [Log l (st_tag s) (cstr (c :: cs))]) as -> by congruence.
        assert (s' = mkState (Some []) (st_tag s) (upd (st_fill s) l 0) (st_bad s)) as -> by congruence. split.
        { cbn [st_str]. intros d Hd. assert (d = []) as -> by congruence. change (zlen (@nil Z)) with 0. lia. }
        constructor; [|constructor]. specialize (HS _ eq_refl). revert HS. generalize (c :: cs) as z. clear. intros z H.
        assert (L : zlen (cstr z) <= zlen z). { induction z as [|a z IH] in |- *; [reflexivity|]. cbn [cstr]. rewrite zlen_cons. pose proof (zlen_nonneg z). destruct (a =? 0); [change (zlen (@nil Z)) with 0; lia|rewrite zlen_cons; lia]. }
        lia.
      * assert (ev = []) as -> by congruence. split; [|constructor]. assert (s' = mkState None (st_tag s) (upd (st_fill s) l 0) (st_bad s)) as -> by congruence. cbn. discriminate.
Qed.

Theorem C57_pieces : forall cap ops, 512 <= cap ->
  Forall (fun e => match e with Log _ _ x => zlen x <= cap end) (snd (run cap init ops)).
Proof.
  intros cap ops HC. assert (I : forall c, st_str init = Some c -> zlen c <= cap) by (intros c H; discriminate).
  revert I. generalize init as s. induction ops as [|o ops IH]; intros s I; [constructor|]. cbn [run].
  destruct (step cap s o) as [s1 e1] eqn:E. destruct (step_bound cap s o s1 e1 HC I E) as (I1 & F1). specialize (IH s1 I1).
  destruct (run cap s1 ops) as [s2 e2]. cbn [snd] in *. apply Forall_app. auto.
Qed.

(** Text written to one stream is emitted at the level of the stream that is flushed next. *)
Theorem C57_level_refuted : exists ops, ops = [Tag [116]; Write 7 (bytes_of_string "debug "); Write 3 (bytes_of_string "error"); Flush 3] /\
  snd (run 512 init ops) = [Log 3 (Some [116]) (bytes_of_string "debug error")].
Proof. eexists. split; reflexivity. Qed.

(** Text beyond 512 bytes is lost. *)
Theorem C57_saturation_refuted : exists ops, ops = [Write 6 (zrepeat 97 512); Write 6 [98]; Flush 6] /\
  snd (run 512 init ops) = [Log 6 None (zrepeat 97 512)].
Proof. eexists. split; [reflexivity|]. vm_compute. reflexivity. Qed.

(** Characters written with put are lost. *)
Theorem C57_put_refuted : exists ops, ops = [Write 6 [97]; Put 6 98; Write 6 [99]; Flush 6] /\
  snd (run 512 init ops) = [Log 6 None [97; 99]].
Proof. eexists. split; reflexivity. Qed.

Print Assumptions C57_statements_partial.
Print Assumptions C57_pieces.
Print Assumptions C57_level_refuted.
Print Assumptions C57_saturation_refuted.
Print Assumptions C57_put_refuted.
