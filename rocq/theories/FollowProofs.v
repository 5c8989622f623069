(** Lemmas for C106: what was delivered is dropped, shown or waiting, in order. *)
From Coq Require Import ZArith String List Bool Lia ZifyBool ZifyNat Arith Permutation.
From Verif Require Import Bytes BytesProofs Cat CatSpec CatProofs FollowSpec.
Import ListNotations.
Open Scope Z_scope.

(** Entries of device [d] in a queue. *)
Definition on (d : nat) (q : list frame) : list (nat * Z * fdata) :=
  map (fun f => (f_dev f, f_stamp f, f_data f)) (filter (fun f => f_ok f && Nat.eqb (f_dev f) d) q).
Lemma on_app d a b : on d (a ++ b) = on d a ++ on d b.
Proof. unfold on. now rewrite filter_app, map_app. Qed.
Lemma on_cons d f q : on d (f :: q) = on d [f] ++ on d q.
Proof. apply (on_app d [f] q). Qed.
Lemma on_other d q : ~ In d (map f_dev q) -> on d q = [].
Proof.
  unfold on. induction q as [|f q IH]; cbn; auto. intros H.
  destruct (Nat.eqb_spec (f_dev f) d); [tauto|]. rewrite andb_false_r. apply IH. tauto.
Qed.
Lemma on_pull d q1 f q2 : NoDup (map f_dev (q1 ++ f :: q2)) -> on d (q1 ++ f :: q2) = on d [f] ++ on d (q1 ++ q2).
Proof.
  intros ND. rewrite map_app in ND. cbn in ND. apply NoDup_remove in ND as [_ NI].
  rewrite !on_app, on_cons. destruct (Nat.eq_dec (f_dev f) d) as [<-|Hne].
  - rewrite (on_other _ q1); [reflexivity|]. intros X. apply NI, in_or_app. now left.
  - rewrite (on_other d [f]); [reflexivity|]. cbn. tauto.
Qed.
Lemma printed_app a b : printed (a ++ b) = printed a ++ printed b.
Proof. induction a as [|e a IH]; cbn; auto. destruct e; cbn; now rewrite ?IH. Qed.
Lemma shown_app d a b : shown_from d (a ++ b) = shown_from d a ++ shown_from d b.
Proof. unfold shown_from. now rewrite printed_app, filter_app. Qed.
Lemma delivered_app d a b : delivered d (a ++ b) = delivered d a ++ delivered d b.
Proof. unfold delivered. now rewrite filter_app, map_app. Qed.
Lemma shown_flush d c f : shown_from d (c_out (flush_frame c f)) = shown_from d (c_out c) ++ on d [f].
Proof.
  unfold flush_frame. cbn zeta.
  assert (E : forall l, shown_from d (l ++ [EvFrame f]) = shown_from d l ++ (if Nat.eqb (f_dev f) d then [(f_dev f, f_stamp f, f_data f)] else [])).
  { intros l. rewrite shown_app. f_equal. }
  assert (B : forall l x, shown_from d (l ++ [EvBanner x]) = shown_from d l).
  { intros l x. rewrite shown_app. apply app_nil_r. }
  assert (O : on d [f] = if f_ok f then (if Nat.eqb (f_dev f) d then [(f_dev f, f_stamp f, f_data f)] else []) else []).
  { unfold on. cbn [filter]. destruct (f_ok f); cbn [andb]; [|reflexivity]. destruct (Nat.eqb _ d); reflexivity. }
  rewrite O. destruct (negb _ && _); destruct (f_ok f); cbn [emit set_dev c_out]; rewrite ?E, ?B, ?app_nil_r; reflexivity.
Qed.

#[local] Arguments on : simpl never.
#[local] Arguments shown_from : simpl never.
#[local] Arguments delivered : simpl never.

Section Follow.
Variable N : Z.

Record FI (c : ctx) (l : list got) : Prop := {
  fi_dev : forall d, exists dr, delivered d l = dr ++ shown_from d (c_out c) ++ on d (c_rq c ++ c_pq c) /\
             (dr <> [] -> 0 < N < zlen l);
  fi_new : c_tail c <> 0 -> forall d, shown_from d (c_out c) = [];
  fi_now : c_tail c = 0 -> c_rq c = [];
  fi_tail : c_tail c <> 0 -> c_tail c = N;
  fi_num : zlen (c_rq c) + zlen (c_pq c) <= zlen l }.

Lemma FI_same c c' l : FI c l -> c_out c' = c_out c -> c_tail c' = c_tail c -> c_rq c' = c_rq c -> c_pq c' = c_pq c -> FI c' l.
Proof. intros [] O T R P. constructor; rewrite ?O, ?T, ?R, ?P; auto. Qed.

(** The frame [f] leaves the front of the render queue, shown or dropped. *)
Lemma FI_rend n c l b c' : inv n c -> FI c l -> flush_render_frame c b = Ok c' ->
  (b = true -> c_tail c <> 0 /\ N < zlen l) ->
  (exists f, c_rq c = f :: c_rq c' \/ (c_rq c = [] /\ c' = c)) /\
  c_pq c' = c_pq c /\ c_tail c' = c_tail c /\
  (forall d, exists dr, delivered d l = dr ++ shown_from d (c_out c') ++ on d (c_rq c' ++ c_pq c') /\ (dr <> [] -> 0 < N < zlen l)) /\
  (b = true -> c_out c' = c_out c).
Proof.
  intros I F E Hb. unfold flush_render_frame in E.
  destruct (Z.ltb_spec 0 (c_render c)) as [Hp|Hp].
  2:{ injection E as <-. rewrite (iv_rend _ _ I) in Hp. split.
      { exists (mkFrame O O 0 (mkData [] None) false). right. split; auto. destruct (c_rq c); auto. rewrite zlen_cons in Hp.
        pose proof (zlen_nonneg l0). lia. }
      split; auto. split; auto. split; auto. apply F. }
  destruct (c_rq c) as [|f r] eqn:R; [discriminate|].
  injection E as <-. cbn.
  destruct (flush_frame_same c f) as (T & _ & _ & _ & Q & Q' & _).
  assert (U : unlink (f_id f) (c_rq (if b then c else flush_frame c f)) = r).
  { destruct b; rewrite ?Q', R; cbn; now rewrite Nat.eqb_refl. }
  rewrite U. split; [exists f; now left|].
  split; [destruct b; auto|]. split; [destruct b; auto|].
  split; [|intros ->; reflexivity].
  intros d. destruct (fi_dev _ _ F d) as (dr & D & Z). rewrite R in D. cbn [app] in D. rewrite on_cons in D.
  destruct b.
  - destruct (Hb eq_refl) as [H1 H2]. rewrite (fi_new _ _ F H1) in *. cbn [app] in *.
    exists (dr ++ on d [f]). split; [rewrite <- app_assoc; exact D|]. intros _.
    pose proof (fi_tail _ _ F H1). pose proof (iv_tail _ _ I). lia.
  - exists dr. rewrite shown_flush, Q. split; [|exact Z]. rewrite D. now rewrite <- !app_assoc.
Qed.

Lemma FI_pend n c l b c' : inv n c -> FI c l -> flush_pending_frame c b = Ok c' ->
  c_rq c = [] -> (b = true -> c_tail c <> 0 /\ N < zlen l) -> (b = false -> c_tail c = 0) -> FI c' l.
Proof.
  intros I F E R Hb Hb'. unfold flush_pending_frame in E.
  destruct (Z.ltb_spec 0 (c_pending c)) as [Hp|Hp]; [|now injection E as <-].
  destruct (find_oldest c) as [f|] eqn:Fo; [|discriminate].
  destruct (find_oldest_some _ _ Fo) as [Hf _].
  destruct (flush_frame_same c f) as (T & _ & _ & _ & Q & Q' & _).
  destruct (pq_remove _ _ _ I Hf) as (q1 & q2 & Eq & Eu).
  injection E as <-. 
  assert (U : unlink (f_id f) (c_pq (if b then c else flush_frame c f)) = q1 ++ q2) by (destruct b; rewrite ?Q; exact Eu).
  constructor; cbn; rewrite ?U.
  - intros d. destruct (fi_dev _ _ F d) as (dr & D & Z).
    pose proof (on_pull d q1 f q2) as OP. rewrite <- Eq in OP. specialize (OP (iv_nodup _ _ I)).
    rewrite R in D. cbn [app] in D. rewrite OP in D.
    assert (R' : c_rq (if b then c else flush_frame c f) = []) by (destruct b; rewrite ?Q'; exact R).
    rewrite R'. cbn [app]. destruct b.
    + destruct (Hb eq_refl) as [H1 H2]. rewrite (fi_new _ _ F H1) in *. cbn [app] in *.
      exists (dr ++ on d [f]). split; [rewrite <- app_assoc; exact D|]. intros _.
      pose proof (fi_tail _ _ F H1). pose proof (iv_tail _ _ I). lia.
    + exists dr. rewrite shown_flush. split; [|exact Z]. rewrite D. now rewrite <- !app_assoc.
  - destruct b; [apply F|]. rewrite T. intros X. now destruct (X (Hb' eq_refl)).
  - intros _. destruct b; rewrite ?Q'; exact R.
  - destruct b; [apply F|]. rewrite T. apply F.
  - pose proof (fi_num _ _ F) as X. rewrite Eq in X. rewrite zlen_app, zlen_cons in X.
    destruct b; rewrite ?Q', ?zlen_app; lia.
Qed.

Lemma FI_tail_drop n l k : forall c c', inv n c -> FI c l -> tail_drop k c = Ok c' -> c_tail c <> 0 ->
  inv n c' /\ FI c' l /\ c_tail c' = c_tail c.
Proof.
  induction k as [|k IH]; intros c c' I F; cbn; intros E Ht.
  { destruct (_ <? _); [discriminate|]. injection E as <-. auto. }
  destruct (Z.ltb_spec (c_tail c) (c_render c + c_pending c)) as [Hl|Hl]; [|injection E as <-; auto].
  assert (HN : N < zlen l).
  { pose proof (fi_num _ _ F). rewrite (iv_rend _ _ I), (iv_pend _ _ I) in Hl. rewrite (fi_tail _ _ F Ht) in Hl. lia. }
  destruct (Z.ltb_spec 0 (c_render c)) as [Hr|Hr].
  - destruct (flush_render_inv n c true I) as (c1 & E1 & I1 & _ & _ & T1 & _). rewrite E1 in E. cbn in E.
    destruct (FI_rend _ _ _ _ _ I F E1) as (X & P & _ & D & O); [auto|].
    assert (F1 : FI c1 l).
    { constructor; auto.
      - rewrite T1, O by reflexivity. apply F.
      - rewrite T1. intros Y. lia.
      - rewrite T1. apply F.
      - pose proof (fi_num _ _ F) as Y. destruct X as (f & [X|[X ->]]); [|lia].
        rewrite X, zlen_cons in Y. rewrite P. lia. }
    destruct (IH c1 c' I1 F1 E) as (A & B & C); [congruence|]. split; auto. split; auto. congruence.
  - assert (R : c_rq c = []).
    { rewrite (iv_rend _ _ I) in Hr. destruct (c_rq c) as [|x y]; auto. rewrite zlen_cons in Hr. pose proof (zlen_nonneg y). lia. }
    destruct (Z.ltb_spec 0 (c_pending c)) as [Hp|Hp].
    + destruct (flush_pending_inv n c true I) as (c1 & E1 & I1 & _ & _ & T1 & _). rewrite E1 in E. cbn in E.
      assert (F1 : FI c1 l) by (apply (FI_pend n c l true c1 I F E1 R); [auto|discriminate]).
      destruct (IH c1 c' I1 F1 E) as (A & B & C); [congruence|]. split; auto. split; auto. congruence.
    + cbn in E. destruct (IH c c' I F E Ht) as (A & B & C). auto.
Qed.

(** What stays true while the render queue is being shown. *)
Definition FR (c : ctx) (l : list got) : Prop :=
  (forall d, exists dr, delivered d l = dr ++ shown_from d (c_out c) ++ on d (c_rq c ++ c_pq c) /\ (dr <> [] -> 0 < N < zlen l)) /\
  zlen (c_rq c) + zlen (c_pq c) <= zlen l.
Lemma FR_rend n c l c' : inv n c -> FR c l -> flush_render_frame c false = Ok c' -> FR c' l.
Proof.
  intros I [F1 F2] E. unfold flush_render_frame in E.
  destruct (Z.ltb_spec 0 (c_render c)) as [Hp|Hp]; [|now injection E as <-].
  destruct (c_rq c) as [|f r] eqn:R; [discriminate|].
  injection E as <-. destruct (flush_frame_same c f) as (T & _ & _ & _ & Q & Q' & _).
  unfold FR. cbn. rewrite Q', Q, R. cbn. rewrite Nat.eqb_refl. rewrite zlen_cons in F2. split; [|lia].
  intros d. destruct (F1 d) as (dr & D & Z). cbn [app] in D. rewrite on_cons in D.
  exists dr. rewrite shown_flush. split; [|exact Z]. rewrite D. now rewrite <- !app_assoc.
Qed.
Lemma FR_queue n l k : forall c c', inv n c -> FR c l -> flush_render_queue k c = Ok c' ->
  inv n c' /\ FR c' l /\ c_render c' <= 0.
Proof.
  induction k as [|k IH]; intros c c' I F; cbn; intros E; destruct (Z.ltb_spec 0 (c_render c)) as [H|H].
  - discriminate.
  - injection E as <-. split; [exact I|]. split; [exact F|]. lia.
  - destruct (flush_render_inv n c false I) as (c1 & E1 & I1 & _). rewrite E1 in E. cbn in E.
    exact (IH c1 c' I1 (FR_rend n c l c1 I F E1) E).
  - injection E as <-. split; [exact I|]. split; [exact F|]. lia.
Qed.

Lemma FI_tail_flush n c l c' : inv n c -> FI c l -> process_tail_flush c = Ok c' ->
  FI c' l /\ (c_mark c = true -> c_tail c' = 0).
Proof.
  intros I F. unfold process_tail_flush.
  destruct (Z.eqb_spec (c_tail c) 0) as [T|T]; cbn [orb]; [intros [= <-]; auto|].
  destruct (c_mark c); cbn [negb]; [|intros [= <-]; split; [auto|discriminate]].
  destruct (tail_drop _ c) as [c1|] eqn:E1; [|discriminate].
  destruct (FI_tail_drop n l _ _ _ I F E1 T) as (I1 & F1 & T1). cbn.
  destruct (flush_render_queue _ c1) as [c2|] eqn:E2; [|discriminate]. cbn. intros [= <-].
  assert (R1 : FR c1 l) by (split; apply F1).
  destruct (FR_queue n l _ _ _ I1 R1 E2) as (I2 & [R2 R3] & Z2).
  split; [|reflexivity].
  assert (R : c_rq c2 = []).
  { rewrite (iv_rend _ _ I2) in Z2. destruct (c_rq c2) as [|x y]; auto. rewrite zlen_cons in Z2. pose proof (zlen_nonneg y). lia. }
  constructor; cbn; auto; intros X; now destruct X.
Qed.

Lemma FI_pull_oldest n c l : inv n c -> FI c l -> FI (pull_oldest c) l.
Proof.
  intros I F. unfold pull_oldest. destruct (find_oldest c) as [f|] eqn:Fo; [|exact F].
  destruct (find_oldest_some _ _ Fo) as [Hf _].
  destruct (pq_remove _ _ _ I Hf) as (q1 & q2 & Eq & Eu).
  pose proof (fi_num _ _ F) as FN. rewrite Eq, zlen_app, zlen_cons in FN.
  assert (OP : forall d, on d (c_pq c) = on d [f] ++ on d (q1 ++ q2)).
  { intros d. rewrite Eq. apply on_pull. rewrite <- Eq. apply (iv_nodup _ _ I). }
  cbn. rewrite Eu. destruct (Z.ltb_spec 0 (c_tail c)) as [Ht|Ht].
  - assert (H1 : c_tail c <> 0) by lia. pose proof (fi_tail _ _ F H1) as TN.
    unfold enqueue_render. cbn. destruct (Z.ltb_spec (c_render c) (c_tail c)) as [Hr|Hr].
    + constructor; cbn.
      * intros d. destruct (fi_dev _ _ F d) as (dr & D & Z). exists dr. split; [|exact Z].
        rewrite D. f_equal. f_equal. rewrite (on_app d (c_rq c)), OP, (on_app d (c_rq c ++ [f])), (on_app d (c_rq c)). now rewrite <- app_assoc.
      * apply F.
      * lia.
      * apply F.
      * rewrite !zlen_app, zlen_cons. change (zlen (@nil frame)) with 0. lia.
    + destruct (c_rq c) as [|g r] eqn:R.
      { pose proof (iv_rend _ _ I) as X. rewrite R in X. change (zlen (@nil frame)) with 0 in X. lia. }
      cbn. rewrite zlen_cons in FN. constructor; cbn.
      * intros d. destruct (fi_dev _ _ F d) as (dr & D & Z). rewrite (fi_new _ _ F H1) in *. cbn [app] in *.
        exists (dr ++ on d [g]). split.
        { rewrite D, R. cbn [app]. rewrite (on_cons d g), (on_app d r (c_pq c)), OP, (on_app d (r ++ [f])), (on_app d r). now rewrite <- !app_assoc. }
        intros _. pose proof (iv_rend _ _ I) as X. rewrite R, zlen_cons in X.
        pose proof (zlen_nonneg q1). pose proof (zlen_nonneg q2). lia.
      * apply F.
      * lia.
      * apply F.
      * rewrite !zlen_app, zlen_cons. change (zlen (@nil frame)) with 0. lia.
  - assert (H0 : c_tail c = 0) by (pose proof (iv_tail _ _ I); lia).
    match goal with |- FI (free_frame (flush_frame ?x f) f) _ => set (c1 := x) end.
    destruct (flush_frame_same c1 f) as (T & _ & _ & _ & Q & Q' & _).
    constructor; cbn; rewrite ?T, ?Q, ?Q'; cbn.
    + intros d. destruct (fi_dev _ _ F d) as (dr & D & Z). exists dr. split; [|exact Z].
      rewrite shown_flush, D. cbn. rewrite (fi_now _ _ F H0). cbn [app]. rewrite OP. now rewrite <- app_assoc.
    + intros X. now destruct (X H0).
    + apply F.
    + apply F.
    + rewrite (fi_now _ _ F H0) in *. rewrite zlen_app. lia.
Qed.

Lemma FI_update c l : FI c l -> FI (update_mark_reached c) l.
Proof. intros F. unfold update_mark_reached. destruct (_ || _); [exact F|]. eapply FI_same; eauto. Qed.

Lemma FI_read {W} (en : env W) n fds rev k : forall i w l c fr, inv n c -> FI c l ->
  (i + k <= length (c_devs c))%nat ->
  (forall j, (i <= j)%nat -> nth j rev false = true -> d_pending (get_dev c j) = false) ->
  let r := read_devices (tap en) k i fds rev (w, l) c fr in
  FI (snd (fst r)) (snd (fst (fst r))) /\ c_tail (snd (fst r)) = c_tail c /\ c_mark (snd (fst r)) = c_mark c.
Proof.
  induction k as [|k IH]; intros i w l c fr I F Hl Hp; cbn -[tap]; auto.
  destruct (nth i rev false) eqn:Er; cbn [negb].
  - pose proof (read_devices_inv (tap en) n fds rev 1 i (w, l) c fr I) as I1. cbn -[tap] in I1. rewrite Er in I1. cbn [negb] in I1.
    specialize (I1 ltac:(lia) Hp).
    unfold alloc_frame in *. destruct (c_free c) as [|f r] eqn:Ef; [destruct (inv_alloc _ _ I Ef)|].
    cbn [tap e_recv fst snd] in *. destruct (e_recv en w i) as [w' [ | dec | st da dec ok]]; cbn -[tap] in *.
    + rewrite app_nil_r. split; auto. eapply FI_same; eauto.
    + rewrite app_nil_r. split; auto. eapply FI_same; eauto.
    + match goal with |- context [read_devices _ k (S i) fds rev ?a ?b ?z] => specialize (IH (S i) w' (l ++ [(i, st, da, ok)]) b z) end.
      cbn zeta in IH. apply IH.
      * exact I1.
      * destruct F as [A B C D E]. constructor; cbn.
        { intros d. destruct (A d) as (dr & X & Z). exists dr.
          rewrite delivered_app, X, (app_assoc (c_rq c)), (on_app d (c_rq c ++ c_pq c)). split.
          - rewrite <- !app_assoc. f_equal. f_equal. f_equal. unfold delivered, on. cbn.
            destruct (ok && Nat.eqb i d); reflexivity.
          - intros Y. specialize (Z Y). rewrite zlen_app. assert (G : zlen [(i, st, da, ok)] = 1) by reflexivity. unfold got in *. lia. }
        { exact B. } { exact C. } { exact D. }
        { rewrite !zlen_app. assert (G : zlen [(i, st, da, ok)] = 1) by reflexivity.
          assert (G' : zlen [mkFrame (f_id f) i st da ok] = 1) by reflexivity. unfold got in *. lia. }
      * cbn. rewrite set_nth_length. lia.
      * intros j Hj Hr. unfold get_dev. cbn. rewrite nth_set_nth.
        destruct (Nat.eqb_spec j i); [lia|]. cbn. apply Hp; auto. lia.
  - match goal with |- context [read_devices _ k (S i) fds rev _ ?b _] => set (c1 := b) end.
    destruct (IH (S i) w l c1 fr) as (A & B & C).
    + unfold c1. destruct (_ && _); auto. apply set_dev_inv; auto.
    + unfold c1. destruct (_ && _); auto. eapply FI_same; eauto.
    + unfold c1. destruct (_ && _); cbn; rewrite ?set_nth_length; lia.
    + intros j Hj Hr. unfold c1. destruct (_ && _).
      * rewrite nth_set_dev. destruct (Nat.eqb_spec j i); [lia|]. cbn. apply Hp; auto; lia.
      * apply Hp; auto; lia.
    + split; [exact A|]. rewrite B, C. unfold c1. destruct (_ && _); auto.
Qed.

Lemma tap_sane {W} (en : env W) : poll_sane en -> poll_sane (tap en).
Proof.
  intros H [w l] fds w' rev. cbn. destruct (e_poll en w fds) as [w1 r] eqn:E. intros [= <- ->]. eapply H, E.
Qed.

Lemma FI_process {W} (en : env W) n w l c w' l' c' r : poll_sane en -> inv n c -> FI c l -> (c_mark c = true -> c_tail c = 0) ->
  process_devices (tap en) (w, l) c = Ok (w', l', c', r) ->
  inv n c' /\ FI c' l' /\ (c_mark c' = true -> c_tail c' = 0).
Proof.
  intros PS I F M E.
  destruct (process_devices_inv (tap en) n (w, l) c (tap_sane en PS) I) as (w0 & c0 & r0 & E0 & I0).
  rewrite E0 in E. injection E as -> -> ->. split; [exact I0|].
  unfold process_devices in E0. cbn [tap e_poll fst snd] in E0.
  destruct (e_poll en w _) as [w1 [b|rev]] eqn:Ep.
  { injection E0 as <- <- <- <-. auto. }
  specialize (PS _ _ _ _ Ep).
  match type of E0 with context [read_devices _ ?b ?i ?d ?e _ _ ?z] =>
    pose proof (FI_read en n d e b i w1 l c z I F ltac:(lia)) as RF;
    pose proof (read_devices_inv (tap en) n d e b i (w1, l) c z I ltac:(lia)) as RI end.
  assert (PD : forall j, (0 <= j)%nat -> nth j rev false = true -> d_pending (get_dev c j) = false).
  { intros j _ Hj. apply PS in Hj. destruct (Nat.lt_ge_cases j (length (c_devs c))) as [Hl|Hl].
    - rewrite (nth_indep _ _ (negb (d_pending dflt))) in Hj by now rewrite map_length.
      rewrite (map_nth (fun d => negb (d_pending d)) (c_devs c) dflt j) in Hj. apply negb_true_iff in Hj. exact Hj.
    - rewrite nth_overflow in Hj by now rewrite map_length. discriminate. }
  specialize (RF PD). specialize (RI PD). cbn zeta in RF.
  destruct (read_devices _ _ _ _ _ _ _ _) as [[[w2 l2] c2] x] eqn:E. cbn [fst snd] in *.
  destruct RF as (F2 & T2 & M2). destruct x as [ret|fr].
  { injection E0 as <- <- <- <-. split; [exact F2|]. rewrite T2, M2. exact M. }
  unfold pull in E0. destruct (process_tail_flush _) as [c3|] eqn:E3; [|discriminate].
  cbn in E0. injection E0 as <- <- <- <-.
  destruct (FI_tail_flush n _ l2 c3 (update_mark_inv n _ (pull_oldest_inv n _ RI)) (FI_update _ _ (FI_pull_oldest n _ _ RI F2)) E3) as (F3 & M3).
  split; [exact F3|]. intros X. apply M3.
  assert (Y : c_mark c3 = c_mark (update_mark_reached (pull_oldest c2))).
  { revert E3. unfold process_tail_flush. destruct (_ || _); [now intros [= <-]|].
    set (cc := update_mark_reached (pull_oldest c2)).
    assert (IC : inv n cc) by apply (update_mark_inv n _ (pull_oldest_inv n _ RI)).
    pose proof (iv_tail _ _ IC) as TT.
    assert (HP : 0 <= c_pending cc) by (rewrite (iv_pend _ _ IC); apply zlen_nonneg).
    destruct (tail_drop_inv n (Z.to_nat (c_render cc + c_pending cc)) cc IC) as (c4 & E4 & I4 & M4); [lia|].
    rewrite E4. cbn. pose proof (iv_tail _ _ I4).
    destruct (flush_render_queue_inv n (Z.to_nat (c_render c4)) c4 I4) as (c5 & E5 & I5 & _ & M5); [lia|].
    rewrite E5. cbn. intros [= <-]. cbn. congruence. }
  congruence.
Qed.

Lemma FI_pend_queue n l k : forall c c', inv n c -> FI c l -> c_tail c = 0 -> flush_pending_queue k c = Ok c' -> FI c' l.
Proof.
  induction k as [|k IH]; intros c c' I F T; cbn; intros E; destruct (Z.ltb_spec 0 (c_pending c)) as [H|H].
  - discriminate.
  - injection E as <-. exact F.
  - destruct (flush_pending_inv n c false I) as (c1 & E1 & I1 & _ & _ & T1 & _). rewrite E1 in E. cbn in E.
    apply (IH c1 c' I1); [|congruence|exact E].
    apply (FI_pend n c l false c1 I F E1); [apply F, T|discriminate|auto].
  - injection E as <-. exact F.
Qed.

Lemma FI_tail_of n k : forall c c', inv n c -> flush_pending_queue k c = Ok c' -> c_tail c' = c_tail c.
Proof.
  induction k as [|k IH]; intros c c' I; cbn; intros E; destruct (Z.ltb_spec 0 (c_pending c)) as [H|H].
  - discriminate.
  - now injection E as <-.
  - destruct (flush_pending_inv n c false I) as (c1 & E1 & I1 & _ & _ & T1 & _). rewrite E1 in E. cbn in E.
    rewrite <- T1. now apply IH.
  - now injection E as <-.
Qed.

(** After any number of rounds. *)
Lemma FI_logs {W} (en : env W) n dump max k : forall w l c fr w' l' c' x, poll_sane en -> inv n c -> FI c l ->
  (c_mark c = true -> c_tail c = 0) ->
  process_logs k (tap en) dump max (w, l) c fr = Ok (Some (w', l', c', x)) ->
  inv n c' /\ FI c' l' /\ (c_mark c' = true -> c_tail c' = 0) /\
  (dump = true -> 0 <= x -> (max = 0 \/ c_mark c' = true) -> c_pq c' = []).
Proof.
  induction k as [|k IH]; intros w l c fr w' l' c' x PS I F M; cbn -[tap]; [discriminate|].
  destruct (process_devices_inv (tap en) n (w, l) c (tap_sane en PS) I) as ([w0 l0] & c0 & r0 & E0 & I0).
  destruct (FI_process _ _ _ _ _ _ _ _ _ PS I F M E0) as (_ & F0 & M0). rewrite E0. cbn -[tap].
  destruct (Z.ltb_spec r0 0) as [Hr|Hr].
  { intros [= <- <- <- <-]. split; [exact I0|]. split; [exact F0|]. split; [exact M0|]. lia. }
  destruct dump eqn:Dm; cbn [andb].
  - destruct (c_mark c0) eqn:Mc.
    + destruct (flush_pending_queue_inv n (Z.to_nat (c_pending c0)) c0 I0) as (c2 & E2 & I2 & P2).
      { rewrite (iv_pend _ _ I0). pose proof (zlen_nonneg (c_pq c0)). lia. }
      rewrite E2. cbn. intros [= <- <- <- <-].
      pose proof (FI_pend_queue n _ _ _ _ I0 F0 (M0 eq_refl) E2) as F2.
      assert (Q : c_pq c2 = []).
      { rewrite (iv_pend _ _ I2) in P2. destruct (c_pq c2) as [|f q]; auto. rewrite zlen_cons in P2. pose proof (zlen_nonneg q). lia. }
      split; [exact I2|]. split; [exact F2|]. split; [|auto]. intros _.
      destruct (Z.eq_dec (c_tail c2) 0) as [T|T]; [exact T|].
      pose proof (FI_tail_of n _ _ _ I0 E2) as TT. rewrite TT. auto.
    + destruct ((max =? 0) || _) eqn:Hm; [intros E; eapply IH; [exact PS|exact I0|exact F0| |exact E]; congruence|].
      intros [= <- <- <- <-]. split; [exact I0|]. split; [exact F0|]. split; [congruence|].
      intros _ _ [->|X]; [discriminate|congruence].
  - destruct ((max =? 0) || _) eqn:Hm; [intros E; eapply IH; [exact PS|exact I0|exact F0|exact M0|exact E]|].
    intros [= <- <- <- <-]. split; [exact I0|]. split; [exact F0|]. split; [exact M0|]. discriminate.
Qed.
End Follow.
