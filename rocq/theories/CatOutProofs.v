(** Lemmas for PropsCatOut.v. *)
From Coq Require Import ZArith String List Bool Lia ZifyBool ZifyNat Arith.
From Verif Require Import Bytes BytesProofs Cat Render Live CatOut.
Import ListNotations.
Open Scope Z_scope.

(** ** Events are only added *)
Definition grow (c c' : ctx) : Prop := exists l, c_out c' = c_out c ++ l.
Lemma grow_refl c c' : c_out c' = c_out c -> grow c c'.
Proof. intros E. exists []. now rewrite app_nil_r. Qed.
Lemma grow_trans a b c : grow a b -> grow b c -> grow a c.
Proof. intros (l & E) (m & F). exists (l ++ m). now rewrite F, E, app_assoc. Qed.
Lemma grow_emit c e : grow c (emit c e).
Proof. exists [e]. reflexivity. Qed.
Lemma grow_flush c f : grow c (flush_frame c f).
Proof.
  unfold flush_frame. cbv zeta. destruct (_ && _).
  - destruct (f_ok f).
    + eapply grow_trans; [|apply grow_emit]. eexists. reflexivity.
    + eexists. reflexivity.
  - destruct (f_ok f); [apply grow_emit|now apply grow_refl].
Qed.
Lemma grow_pend c drop c' : flush_pending_frame c drop = Ok c' -> grow c c'.
Proof.
  unfold flush_pending_frame. destruct (0 <? c_pending c); [|intros E; apply grow_refl; congruence].
  destruct (find_oldest c) as [f|]; [|discriminate]. cbv zeta. intros X.
  apply (grow_trans _ (if drop then c else flush_frame c f)). { destruct drop; [now apply grow_refl|apply grow_flush]. }
  injection X as X. subst c'. now apply grow_refl.
Qed.
Lemma grow_rend c drop c' : flush_render_frame c drop = Ok c' -> grow c c'.
Proof.
  unfold flush_render_frame. destruct (0 <? c_render c); [|intros E; apply grow_refl; congruence].
  destruct (c_rq c) as [|f q]; [discriminate|]. cbv zeta. intros X.
  apply (grow_trans _ (if drop then c else flush_frame c f)). { destruct drop; [now apply grow_refl|apply grow_flush]. }
  injection X as X. subst c'. now apply grow_refl.
Qed.
Lemma grow_pend_queue k : forall c c', flush_pending_queue k c = Ok c' -> grow c c'.
Proof.
  induction k as [|k IH]; intros c c'; cbn [flush_pending_queue]; destruct (0 <? c_pending c); try discriminate; try (intros E; apply grow_refl; congruence).
  destruct (flush_pending_frame c false) as [c1|] eqn:E; cbn [bind]; [|discriminate]. intros H. eapply grow_trans; [eapply grow_pend, E|eauto].
Qed.
Lemma grow_rend_queue k : forall c c', flush_render_queue k c = Ok c' -> grow c c'.
Proof.
  induction k as [|k IH]; intros c c'; cbn [flush_render_queue]; destruct (0 <? c_render c); try discriminate; try (intros E; apply grow_refl; congruence).
  destruct (flush_render_frame c false) as [c1|] eqn:E; cbn [bind]; [|discriminate]. intros H. eapply grow_trans; [eapply grow_rend, E|eauto].
Qed.
Lemma grow_tail_drop k : forall c c', tail_drop k c = Ok c' -> grow c c'.
Proof.
  induction k as [|k IH]; intros c c'; cbn [tail_drop]; destruct (c_tail c <? _); try discriminate; try (intros E; apply grow_refl; congruence).
  destruct (0 <? c_render c).
  - destruct (flush_render_frame c true) as [c1|] eqn:E; cbn [bind]; [|discriminate]. intros H. eapply grow_trans; [eapply grow_rend, E|eauto].
  - destruct (0 <? c_pending c); [|cbn [bind]; apply IH].
    destruct (flush_pending_frame c true) as [c1|] eqn:E; cbn [bind]; [|discriminate]. intros H. eapply grow_trans; [eapply grow_pend, E|eauto].
Qed.
Lemma grow_pull c c' : pull c = Ok c' -> grow c c'.
Proof.
  unfold pull. intros H. apply (grow_trans _ (update_mark_reached (pull_oldest c))).
  - apply (grow_trans _ (pull_oldest c)).
    + unfold pull_oldest. destruct (find_oldest c) as [f|]; [|now apply grow_refl]. cbv zeta.
      destruct (0 <? _).
      * unfold enqueue_render. destruct (_ <? _); [now apply grow_refl|]. destruct (_ ++ [f]); now apply grow_refl.
      * match goal with |- grow _ (free_frame (flush_frame ?x _) _) => apply (grow_trans _ x); [now apply grow_refl|]; apply (grow_trans _ (flush_frame x f)); [apply grow_flush|now apply grow_refl] end.
    + unfold update_mark_reached. destruct (_ || _); now apply grow_refl.
  - revert H. generalize (update_mark_reached (pull_oldest c)). intros b. unfold process_tail_flush. destruct (_ || _); [intros E; apply grow_refl; congruence|].
    destruct (tail_drop _ b) as [c1|] eqn:E; cbn [bind]; [|discriminate].
    destruct (flush_render_queue _ c1) as [c2|] eqn:E2; cbn [bind]; [|discriminate].
    intros X. injection X as X. subst c'. apply (grow_trans _ c1); [eapply grow_tail_drop, E|]. apply (grow_trans _ c2); [eapply grow_rend_queue, E2|]. now apply grow_refl.
Qed.
Lemma grow_read {W} (en : env W) fds rev k : forall i w c fr w' c' x, read_devices en k i fds rev w c fr = (w', c', x) -> grow c c'.
Proof.
  induction k as [|k IH]; intros i w c fr w' c' x; cbn [read_devices]; [intros E; apply grow_refl; congruence|].
  destruct (nth i rev false); cbn [negb].
  2: { destruct (_ && _); intros E; apply IH in E; [|exact E]. destruct E as (l & E). exists l. exact E. }
  unfold alloc_frame. destruct (c_free c) as [|f r].
  { intros E. apply IH in E. eapply grow_trans; [|exact E]. eexists. reflexivity. }
  destruct (e_recv en w i) as [w1 rx0]. destruct rx0 as [|dec|st da dec ok].
  - intros X. match type of X with (_, ?y, _) = _ => assert (c' = y) as -> by congruence end. now apply grow_refl.
  - intros X. match type of X with (_, ?y, _) = _ => assert (c' = y) as -> by congruence end. now apply grow_refl.
  - intros E. apply IH in E. destruct E as (l & E). exists l. exact E.
Qed.
Lemma grow_devices {W} (en : env W) w c w' c' x : process_devices en w c = Ok (w', c', x) -> grow c c'.
Proof.
  unfold process_devices. destruct (e_poll en w _) as [w1 [b|rev]]; [intros E; apply grow_refl; congruence|].
  destruct (read_devices en _ 0 _ rev w1 c 0) as [[w2 c2] y] eqn:E. apply grow_read in E.
  destruct y as [ret|fr].
  - intros X. assert (c' = c2) as -> by congruence. exact E.
  - destruct (pull c2) as [c3|] eqn:P; cbn [bind]; [|discriminate]. intros X. assert (c' = c3) as -> by congruence.
    eapply grow_trans; [exact E|]. now apply grow_pull.
Qed.
Lemma grow_skip c c' : grow c c' -> c_out c' = c_out c ++ skipn (length (c_out c)) (c_out c').
Proof. intros (l & ->). rewrite skipn_app, skipn_all, Nat.sub_diag. reflexivity. Qed.

(** ** Feeding *)
Lemma feed_app o paths a b s : feed o paths (a ++ b) s = let* t := feed o paths a s in feed o paths b t.
Proof.
  revert s. induction a as [|x a IH]; intros s; [reflexivity|]. cbn [app feed]. destruct (chunk_of o paths x) as [l|]; cbn [bind]; [|reflexivity]. apply IH.
Qed.
Lemma feed_kind o paths evs : forall s t, feed o paths evs s = Ok t -> k_kind t = k_kind s.
Proof.
  induction evs as [|x evs IH]; intros s t E; cbn [feed] in E; [congruence|]. destruct (chunk_of o paths x) as [l|]; cbn [bind] in E; [|discriminate].
  apply IH in E. rewrite E. destruct l as [l|]; [|reflexivity]. unfold output_rendered. destruct (k_err s); [reflexivity|].
  destruct (k_kind s) eqn:K; auto; [destruct (fwrite1 _ _) as [[a b] d]|destruct (write_loop _ _) as [[a b] d]]; reflexivity.
Qed.
