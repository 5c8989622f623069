(** The pool invariant of the log reader (C42). *)
From Coq Require Import ZArith String List Bool Permutation Sorted Lia ZifyBool ZifyNat Arith.
From Verif Require Import Bytes BytesProofs Cat CatSpec.
Import ListNotations.
Open Scope Z_scope.

Lemma set_nth_length {A} n (x : A) l : length (set_nth n x l) = length l.
Proof. revert n; induction l; destruct n; cbn; auto. Qed.
Lemma nth_set_nth {A} n m (x d : A) l :
  nth m (set_nth n x l) d = if Nat.eqb m n && Nat.ltb n (length l) then x else nth m l d.
Proof.
  revert n m; induction l as [|a l IH]; intros [|n] [|m]; cbn; try reflexivity.
  - now rewrite andb_false_r.
  - rewrite IH. reflexivity.
Qed.

Lemma unlink_split id q f :
  NoDup (map f_id q) -> In f q -> f_id f = id ->
  exists q1 q2, q = q1 ++ f :: q2 /\ unlink id q = q1 ++ q2.
Proof.
  induction q as [|g q IH]; cbn; [contradiction|]; intros ND [->|Hi] He.
  - rewrite He, Nat.eqb_refl. now exists [], q.
  - inversion ND as [|? ? Hn ND']; subst.
    destruct (Nat.eqb_spec (f_id g) (f_id f)) as [E|E].
    + exfalso; apply Hn. rewrite E. now apply in_map.
    + destruct (IH ND' Hi eq_refl) as (q1 & q2 & -> & ->). now exists (g :: q1), q2.
Qed.

Lemma oldest_from_spec q : forall res r, oldest_from res q = r ->
  (r = None -> res = None /\ q = []) /\
  (forall f, r = Some f -> (res = Some f \/ In f q) /\
      (forall g, In g q -> f_stamp f <= f_stamp g) /\
      (forall g, res = Some g -> f_stamp f <= f_stamp g)).
Proof.
  induction q as [|g q IH]; cbn; intros res r E.
  - subst. split; [auto|]. intros f ->. repeat split; auto; [contradiction|]. intros ? [= ->]; lia.
  - destruct (IH _ _ E) as [N S]; split.
    + intros ->. destruct (N eq_refl) as [X _]. destruct res as [h|]; [destruct (_ <? _)|]; discriminate.
    + intros f ->. destruct (S f eq_refl) as (I & L & R).
      destruct res as [h|].
      * destruct (Z.ltb_spec (f_stamp g) (f_stamp h)) as [Hl|Hl].
        { specialize (R g eq_refl). split; [|split].
          - destruct I as [[= ->]|I]; auto.
          - intros k [<-|Hk]; auto.
          - intros k [= <-]; lia. }
        { specialize (R h eq_refl). split; [|split].
          - destruct I as [[= ->]|I]; auto.
          - intros k [<-|Hk]; [lia|auto].
          - intros k [= <-]; lia. }
      * specialize (R g eq_refl). split; [|split].
        { destruct I as [[= ->]|I]; auto. }
        { intros k [<-|Hk]; auto. }
        { discriminate. }
Qed.

Lemma find_oldest_some c f : find_oldest c = Some f ->
  In f (c_pq c) /\ forall g, In g (c_pq c) -> f_stamp f <= f_stamp g.
Proof.
  intros E. destruct (oldest_from_spec _ _ _ E) as [_ S]. destruct (S f eq_refl) as (I & L & _).
  split; auto. destruct I; [discriminate|auto].
Qed.
Lemma find_oldest_none c : find_oldest c = None -> c_pq c = [].
Proof. intros E. destruct (oldest_from_spec _ _ _ E) as [N _]. now destruct (N eq_refl). Qed.

(** ** The invariant *)
Record inv (n : nat) (c : ctx) : Prop := {
  iv_perm : Permutation (map f_id (c_free c ++ c_pq c ++ c_rq c)) (seq 0 n);
  iv_pend : c_pending c = zlen (c_pq c);
  iv_rend : c_render c = zlen (c_rq c);
  iv_tail : 0 <= c_render c <= c_tail c;
  iv_room : c_tail c + zlen (c_devs c) + 1 <= Z.of_nat n;
  iv_nodup : NoDup (map f_dev (c_pq c));
  iv_devs : forall i, In i (map f_dev (c_pq c)) <->
              (i < length (c_devs c))%nat /\ d_pending (get_dev c i) = true;
  iv_out : ~ In EvNoFrame (c_out c) }.

Lemma inv_pool n c : inv n c -> pool_ok n c.
Proof.
  intros []; constructor; auto. intros f Hf. destruct (iv_devs0 (f_dev f)) as [X _].
  now destruct (X (in_map f_dev _ _ Hf)).
Qed.

Lemma inv_ids n c : inv n c -> NoDup (map f_id (c_free c ++ c_pq c ++ c_rq c)).
Proof. intros [P]. apply (Permutation_NoDup (Permutation_sym P)), seq_NoDup. Qed.
Lemma NoDup_app_l {A} (a b : list A) : NoDup (a ++ b) -> NoDup a.
Proof. induction a; cbn; intros H; constructor; inversion H; subst; auto. intros X; apply H2, in_or_app; auto. Qed.
Lemma NoDup_app_r {A} (a b : list A) : NoDup (a ++ b) -> NoDup b.
Proof. induction a; cbn; intros H; auto. inversion H; auto. Qed.
Lemma inv_pq_ids n c : inv n c -> NoDup (map f_id (c_pq c)).
Proof. intros I%inv_ids. rewrite !map_app in I. eapply NoDup_app_l, NoDup_app_r, I. Qed.
Lemma inv_rq_ids n c : inv n c -> NoDup (map f_id (c_rq c)).
Proof. intros I%inv_ids. rewrite !map_app in I. eapply NoDup_app_r, NoDup_app_r, I. Qed.

Lemma inv_len n c : inv n c ->
  zlen (c_free c) + zlen (c_pq c) + zlen (c_rq c) = Z.of_nat n.
Proof.
  intros [P]. apply Permutation_length in P. rewrite seq_length, map_length, !app_length in P.
  unfold zlen. lia.
Qed.

Lemma nodup_bound (l : list nat) k : NoDup l -> (forall i, In i l -> (i < k)%nat) -> (length l <= k)%nat.
Proof.
  intros ND B. rewrite <- (seq_length k 0). apply NoDup_incl_length; auto.
  intros i Hi. apply in_seq. specialize (B i Hi). lia.
Qed.

Lemma inv_pq_len n c : inv n c -> zlen (c_pq c) <= zlen (c_devs c).
Proof.
  intros []. unfold zlen. rewrite <- (map_length f_dev (c_pq c)).
  apply inj_le, nodup_bound; auto. intros i Hi. now apply iv_devs0 in Hi.
Qed.
Lemma inv_alloc n c : inv n c -> c_free c <> [].
Proof.
  intros I E. pose proof (inv_len _ _ I) as L. pose proof (inv_pq_len _ _ I).
  destruct I. rewrite E in L. change (zlen (@nil frame)) with 0 in L. lia.
Qed.

(** ** Printing *)
Lemma flush_frame_same c f :
  let c' := flush_frame c f in
  c_tail c' = c_tail c /\ c_pending c' = c_pending c /\ c_render c' = c_render c /\
  c_free c' = c_free c /\ c_pq c' = c_pq c /\ c_rq c' = c_rq c /\ c_mark c' = c_mark c /\
  map d_mark (c_devs c') = map d_mark (c_devs c) /\
  map d_pending (c_devs c') = map d_pending (c_devs c) /\
  (~ In EvNoFrame (c_out c) -> ~ In EvNoFrame (c_out c')).
Proof.
  unfold flush_frame. cbn zeta.
  assert (P : forall T (g : dev -> T) l i b, (forall a p q, g (mkDev (d_mark a) (d_pending a) p) = g (mkDev (d_mark a) (d_pending a) q)) ->
     (forall a, g a = g (mkDev (d_mark a) (d_pending a) true)) ->
     map g (set_nth i (mkDev (d_mark (nth i l dflt)) (d_pending (nth i l dflt)) b) l) = map g l).
  { intros T g l; induction l as [|a l IH]; intros [|i] b H1 H2; cbn; auto.
    - f_equal. rewrite (H2 a). apply H1.
    - f_equal; auto. }
  destruct (negb _ && _); destruct (f_ok f); cbn; repeat split; auto;
    try (unfold get_dev; apply P; reflexivity);
    intros H X; apply H; repeat (apply in_app_or in X; destruct X as [X|X]);
    auto; destruct X as [X|[]]; discriminate.
Qed.

Lemma map_nth_dev {T} (g : dev -> T) l l' i :
  map g l = map g l' -> g (nth i l dflt) = g (nth i l' dflt).
Proof. intros E. rewrite <- (map_nth g l), <- (map_nth g l'). now rewrite E. Qed.

Lemma flush_frame_inv n c f : inv n c -> inv n (flush_frame c f).
Proof.
  intros I. destruct (flush_frame_same c f) as (T & P & R & F & Q & Q' & M & D & D' & O).
  assert (L : length (c_devs (flush_frame c f)) = length (c_devs c))
    by (rewrite <- (map_length d_mark), D; apply map_length).
  destruct I. constructor; rewrite ?T, ?P, ?R, ?F, ?Q, ?Q'; auto.
  - unfold zlen. rewrite L. exact iv_room0.
  - intros i. rewrite L. unfold get_dev. rewrite (map_nth_dev d_pending _ _ i D'). apply iv_devs0.
Qed.

(** Moving a pending frame out. *)
Lemma nth_set_dev c i d j :
  get_dev (set_dev c i d) j = if Nat.eqb j i && Nat.ltb i (length (c_devs c)) then d else get_dev c j.
Proof. unfold get_dev. cbn. apply nth_set_nth. Qed.

Lemma pq_remove n c f : inv n c -> In f (c_pq c) ->
  exists q1 q2, c_pq c = q1 ++ f :: q2 /\ unlink (f_id f) (c_pq c) = q1 ++ q2.
Proof. intros I Hf. eapply unlink_split; eauto using inv_pq_ids. Qed.

Lemma devs_remove n c f q1 q2 p : inv n c -> c_pq c = q1 ++ f :: q2 ->
  NoDup (map f_dev (q1 ++ q2)) /\
  (forall i, In i (map f_dev (q1 ++ q2)) <->
    (i < length (c_devs (set_dev c (f_dev f) (mkDev (d_mark (get_dev c (f_dev f))) false p))))%nat /\
    d_pending (get_dev (set_dev c (f_dev f) (mkDev (d_mark (get_dev c (f_dev f))) false p)) i) = true).
Proof.
  intros I E. destruct I.
  rewrite E, map_app in iv_nodup0. cbn in iv_nodup0.
  pose proof (NoDup_remove _ _ _ iv_nodup0) as [ND NI].
  rewrite map_app. split; auto.
  intros i. rewrite nth_set_dev. cbn [set_dev c_devs]. rewrite set_nth_length.
  specialize (iv_devs0 i). rewrite E, map_app in iv_devs0. cbn in iv_devs0.
  destruct (Nat.eqb_spec i (f_dev f)) as [->|Hne]; cbn [andb].
  - destruct (Nat.ltb_spec (f_dev f) (length (c_devs c))) as [Hl|Hl].
    + split; [intros X; contradiction|intros [_ X]; discriminate].
    + split; [intros X; contradiction|intros [X _]; lia].
  - rewrite <- iv_devs0. rewrite !in_app_iff. cbn. split; intros [X|X]; auto.
    destruct X as [X|X]; auto. congruence.
Qed.

Lemma perm_move {A} (a b1 b2 r : list A) x :
  Permutation ((a ++ [x]) ++ (b1 ++ b2) ++ r) (a ++ (b1 ++ x :: b2) ++ r).
Proof.
  rewrite <- !app_assoc. apply Permutation_app_head. cbn.
  apply Permutation_middle.
Qed.
Lemma perm_move_r {A} (a b1 b2 r : list A) x :
  Permutation (a ++ (b1 ++ b2) ++ r ++ [x]) (a ++ (b1 ++ x :: b2) ++ r).
Proof.
  apply Permutation_app_head.
  rewrite (app_assoc (b1 ++ b2)). rewrite <- !app_assoc.
  apply Permutation_app_head. cbn. rewrite app_assoc.
  apply Permutation_sym, Permutation_cons_append.
Qed.

Lemma flush_pending_inv n c b : inv n c ->
  exists c', flush_pending_frame c b = Ok c' /\ inv n c' /\
    c_pending c' = Z.max 0 (c_pending c - 1) /\ c_render c' = c_render c /\ c_tail c' = c_tail c /\
    c_mark c' = c_mark c.
Proof.
  intros I. unfold flush_pending_frame.
  destruct (Z.ltb_spec 0 (c_pending c)) as [Hp|Hp].
  2:{ exists c; split; [reflexivity|]; split; [exact I|]; repeat split; auto. rewrite (iv_pend _ _ I) in *.
      pose proof (zlen_nonneg (c_pq c)). lia. }
  destruct (find_oldest c) as [f|] eqn:F.
  2:{ apply find_oldest_none in F. rewrite (iv_pend _ _ I), F in Hp. cbn in Hp. lia. }
  destruct (find_oldest_some _ _ F) as [Hf _].
  set (c1 := if b then c else flush_frame c f).
  assert (I1 : inv n c1) by (unfold c1; destruct b; auto using flush_frame_inv).
  assert (S1 : c_pq c1 = c_pq c /\ c_pending c1 = c_pending c /\ c_render c1 = c_render c /\ c_tail c1 = c_tail c
               /\ c_mark c1 = c_mark c).
  { unfold c1; destruct b; auto. destruct (flush_frame_same c f) as (?&?&?&?&?&?&?&?&?). auto. }
  destruct S1 as (Sq & Sp & Sr & St & Sm). rewrite <- Sq in Hf.
  destruct (pq_remove _ _ _ I1 Hf) as (q1 & q2 & Eq & Eu).
  eexists; split; [reflexivity|]. cbn. rewrite Eu.
  split; [|rewrite ?Sp, ?Sr, ?St, ?Sm; repeat split; lia].
  destruct (devs_remove n c1 f q1 q2 (d_printed (get_dev c1 (f_dev f))) I1 Eq) as [ND DV].
  pose proof I1 as I1'.
  destruct I1; constructor; cbn.
  - etransitivity; [|exact iv_perm0]. rewrite Eq. apply Permutation_map, perm_move.
  - rewrite iv_pend0, Eq. rewrite !zlen_app, zlen_cons. lia.
  - auto.
  - auto.
  - unfold zlen. rewrite set_nth_length. exact iv_room0.
  - exact ND.
  - exact DV.
  - exact iv_out0.
Qed.

Lemma flush_render_inv n c b : inv n c ->
  exists c', flush_render_frame c b = Ok c' /\ inv n c' /\
    c_render c' = Z.max 0 (c_render c - 1) /\ c_pending c' = c_pending c /\ c_tail c' = c_tail c /\
    c_mark c' = c_mark c.
Proof.
  intros I. unfold flush_render_frame.
  destruct (Z.ltb_spec 0 (c_render c)) as [Hp|Hp].
  2:{ exists c; split; [reflexivity|]; split; [exact I|]; repeat split; auto. pose proof (iv_tail _ _ I). lia. }
  destruct (c_rq c) as [|f r] eqn:F.
  { rewrite (iv_rend _ _ I), F in Hp. cbn in Hp. lia. }
  set (c1 := if b then c else flush_frame c f).
  assert (I1 : inv n c1) by (unfold c1; destruct b; auto using flush_frame_inv).
  assert (S1 : c_rq c1 = f :: r /\ c_pending c1 = c_pending c /\ c_render c1 = c_render c /\ c_tail c1 = c_tail c
               /\ c_mark c1 = c_mark c).
  { unfold c1; destruct b; auto. destruct (flush_frame_same c f) as (?&?&?&?&?&?&?&?&?). rewrite <- F. auto. }
  destruct S1 as (Sq & Sp & Sr & St & Sm).
  eexists; split; [reflexivity|]. cbn. rewrite Sq. cbn. rewrite Nat.eqb_refl.
  split; [|rewrite ?Sp, ?Sr, ?St, ?Sm; repeat split; lia].
  destruct I1; constructor; cbn; auto.
  - etransitivity; [|exact iv_perm0]. rewrite Sq. apply Permutation_map.
    rewrite <- app_assoc. apply Permutation_app_head. cbn. apply Permutation_middle.
  - rewrite iv_rend0, Sq, zlen_cons. lia.
  - lia.
Qed.

Lemma flush_pending_queue_inv n fuel : forall c, inv n c -> c_pending c <= Z.of_nat fuel ->
  exists c', flush_pending_queue fuel c = Ok c' /\ inv n c' /\ c_pending c' = 0.
Proof.
  induction fuel as [|k IH]; intros c I Hf; cbn.
  - destruct (Z.ltb_spec 0 (c_pending c)); [lia|]. exists c; split; [reflexivity|]; split; [exact I|]; repeat split; auto.
    rewrite (iv_pend _ _ I) in *. pose proof (zlen_nonneg (c_pq c)). lia.
  - destruct (Z.ltb_spec 0 (c_pending c)).
    + destruct (flush_pending_inv n c false I) as (c1 & -> & I1 & P1 & _). cbn.
      apply IH; auto. lia.
    + exists c; split; [reflexivity|]; split; [exact I|]; repeat split; auto.
      rewrite (iv_pend _ _ I) in *. pose proof (zlen_nonneg (c_pq c)). lia.
Qed.
Lemma flush_render_queue_inv n fuel : forall c, inv n c -> c_render c <= Z.of_nat fuel ->
  exists c', flush_render_queue fuel c = Ok c' /\ inv n c' /\ c_render c' = 0 /\ c_mark c' = c_mark c.
Proof.
  induction fuel as [|k IH]; intros c I Hf; cbn; pose proof (iv_tail _ _ I).
  - destruct (Z.ltb_spec 0 (c_render c)); [lia|]. exists c; split; [reflexivity|]; split; [exact I|]; repeat split; auto. lia.
  - destruct (Z.ltb_spec 0 (c_render c)).
    + destruct (flush_render_inv n c false I) as (c1 & -> & I1 & P1 & _ & _ & M1). cbn.
      rewrite <- M1. apply IH; auto. lia.
    + exists c; split; [reflexivity|]; split; [exact I|]; repeat split; auto. lia.
Qed.

Lemma tail_drop_inv n fuel : forall c, inv n c -> c_render c + c_pending c <= Z.of_nat fuel ->
  exists c', tail_drop fuel c = Ok c' /\ inv n c' /\ c_mark c' = c_mark c.
Proof.
  induction fuel as [|k IH]; intros c I Hf; cbn; pose proof (iv_tail _ _ I);
    (assert (Hp : 0 <= c_pending c) by (rewrite (iv_pend _ _ I); apply zlen_nonneg)).
  - destruct (Z.ltb_spec (c_tail c) (c_render c + c_pending c)); [lia|]. exists c; auto.
  - destruct (Z.ltb_spec (c_tail c) (c_render c + c_pending c)); [|exists c; auto].
    destruct (Z.ltb_spec 0 (c_render c)).
    + destruct (flush_render_inv n c true I) as (c1 & -> & I1 & P1 & P2 & P3 & M1). cbn.
      rewrite <- M1. apply IH; auto. lia.
    + destruct (Z.ltb_spec 0 (c_pending c)); [|lia].
      destruct (flush_pending_inv n c true I) as (c1 & -> & I1 & P1 & P2 & P3 & M1). cbn.
      rewrite <- M1. apply IH; auto. lia.
Qed.

Lemma process_tail_flush_inv n c : inv n c -> exists c', process_tail_flush c = Ok c' /\ inv n c'.
Proof.
  intros I. unfold process_tail_flush.
  destruct ((c_tail c =? 0) || negb (c_mark c)); [exists c; auto|].
  pose proof (iv_tail _ _ I).
  assert (Hp : 0 <= c_pending c) by (rewrite (iv_pend _ _ I); apply zlen_nonneg).
  destruct (tail_drop_inv n (Z.to_nat (c_render c + c_pending c)) c I) as (c1 & -> & I1 & _); [lia|]. cbn.
  pose proof (iv_tail _ _ I1).
  destruct (flush_render_queue_inv n (Z.to_nat (c_render c1)) c1 I1) as (c2 & -> & I2 & R2 & _); [lia|]. cbn.
  eexists; split; [reflexivity|]. destruct I2; constructor; cbn; auto; lia.
Qed.

Lemma update_mark_inv n c : inv n c -> inv n (update_mark_reached c).
Proof. intros I. unfold update_mark_reached. destruct (_ || _); auto. destruct I; constructor; auto. Qed.

Lemma pull_oldest_inv n c : inv n c -> inv n (pull_oldest c).
Proof.
  intros I. unfold pull_oldest.
  destruct (find_oldest c) as [f|] eqn:F; auto.
  destruct (find_oldest_some _ _ F) as [Hf _].
  destruct (pq_remove _ _ _ I Hf) as (q1 & q2 & Eq & Eu).
  destruct (devs_remove n c f q1 q2 (d_printed (get_dev c (f_dev f))) I Eq) as [ND DV].
  pose proof (zlen_nonneg (c_rq c)).
  cbn. rewrite Eu.
  destruct (Z.ltb_spec 0 (c_tail c)) as [Ht|Ht].
  - unfold enqueue_render. cbn.
    destruct (Z.ltb_spec (c_render c) (c_tail c)) as [Hr|Hr].
    + destruct I; constructor; cbn; auto.
      * etransitivity; [|exact iv_perm0]. rewrite Eq. apply Permutation_map, perm_move_r.
      * rewrite iv_pend0, Eq, !zlen_app, zlen_cons. lia.
      * rewrite zlen_app, zlen_cons. change (zlen (@nil frame)) with 0. lia.
      * lia.
      * unfold zlen. rewrite set_nth_length. exact iv_room0.
    + destruct (c_rq c) as [|g r] eqn:Er.
      { destruct I. rewrite Er in *. change (zlen (@nil frame)) with 0 in *. lia. }
      cbn. destruct I; constructor; cbn; auto.
      * etransitivity; [|exact iv_perm0]. rewrite Eq, Er. apply Permutation_map.
        etransitivity; [apply (perm_move_r (c_free c ++ [g]) q1 q2 r f)|].
        rewrite <- !app_assoc. apply Permutation_app_head. cbn.
        replace (q1 ++ f :: q2 ++ g :: r) with ((q1 ++ f :: q2) ++ g :: r) by (now rewrite <- app_assoc).
        replace (g :: q1 ++ f :: q2 ++ r) with (g :: (q1 ++ f :: q2) ++ r) by (now rewrite <- app_assoc).
        apply Permutation_middle.
      * rewrite iv_pend0, Eq, !zlen_app, zlen_cons. lia.
      * rewrite iv_rend0, Er, zlen_app, !zlen_cons. change (zlen (@nil frame)) with 0. lia.
      * unfold zlen. rewrite set_nth_length. exact iv_room0.
  - match goal with |- inv _ (free_frame (flush_frame ?x f) f) => set (c1 := x) end.
    destruct (flush_frame_same c1 f) as (T & P & R & Fr & Q & Q' & M & D & D' & O).
    assert (L : length (c_devs (flush_frame c1 f)) = length (c_devs c)).
    { rewrite <- (map_length d_mark), D. rewrite map_length. apply set_nth_length. }
    destruct I; constructor; cbn; rewrite ?T, ?P, ?R, ?Fr, ?Q, ?Q'; cbn; auto.
    + etransitivity; [|exact iv_perm0]. rewrite Eq. apply Permutation_map, perm_move.
    + rewrite iv_pend0, Eq, !zlen_app, zlen_cons. lia.
    + unfold zlen. rewrite L. exact iv_room0.
    + intros i. rewrite (DV i). unfold get_dev. cbn [free_frame set_free c_devs].
      rewrite L. rewrite (map_nth_dev d_pending _ _ i D'). cbn. rewrite set_nth_length. reflexivity.
Qed.

Lemma pull_inv n c : inv n c -> exists c', pull c = Ok c' /\ inv n c'.
Proof. intros I. apply process_tail_flush_inv, update_mark_inv, pull_oldest_inv, I. Qed.

Lemma set_dev_inv n c i d : inv n c -> d_pending d = d_pending (get_dev c i) -> inv n (set_dev c i d).
Proof.
  intros [] E; constructor; try assumption.
  - unfold zlen. cbn. rewrite set_nth_length. exact iv_room0.
  - change (c_pq (set_dev c i d)) with (c_pq c). intros j. rewrite iv_devs0, nth_set_dev. cbn [set_dev c_devs]. rewrite set_nth_length.
    destruct (Nat.eqb_spec j i) as [->|]; cbn [andb]; [|tauto].
    destruct (Nat.ltb_spec i (length (c_devs c))); [|tauto]. rewrite E. tauto.
Qed.

Lemma free_alloc n c f r : inv n c -> c_free c = f :: r -> inv n (free_frame (set_free c r) f).
Proof.
  intros [] E; constructor; cbn; auto.
  etransitivity; [|exact iv_perm0]. rewrite E. apply Permutation_map.
  rewrite <- app_assoc. cbn. apply Permutation_sym, Permutation_middle.
Qed.

Lemma read_devices_inv {W} (en : env W) n fds rev k : forall i w c fr,
  inv n c -> (i + k <= length (c_devs c))%nat ->
  (forall j, (i <= j)%nat -> nth j rev false = true -> d_pending (get_dev c j) = false) ->
  inv n (snd (fst (read_devices en k i fds rev w c fr))).
Proof.
  induction k as [|k IH]; intros i w c fr I Hl Hp; cbn; auto.
  destruct (nth i rev false) eqn:Er; cbn [negb].
  - specialize (Hp i (le_n _) Er) as Hpi.
    unfold alloc_frame. destruct (c_free c) as [|f r] eqn:Ef; [destruct (inv_alloc _ _ I Ef)|].
    destruct (e_recv en w i) as [w' [ | dec | st da dec ok]]; cbn.
    + apply free_alloc; auto.
    + apply (set_dev_inv n (free_frame (set_free c r) f)); auto. apply free_alloc; auto.
    + apply IH.
      * destruct I; constructor; cbn; auto.
        { etransitivity; [|exact iv_perm0]. rewrite Ef, !map_app. cbn.
          rewrite <- !app_assoc. cbn. rewrite !(app_assoc (map f_id r)).
          apply Permutation_sym, Permutation_middle. }
        { rewrite iv_pend0, zlen_app, zlen_cons. change (zlen (@nil frame)) with 0. lia. }
        { unfold zlen. rewrite set_nth_length. exact iv_room0. }
        { rewrite map_app. cbn. apply NoDup_Add with (a := i) (l := map f_dev (c_pq c)).
          - rewrite <- (app_nil_r (map f_dev (c_pq c))) at 1. apply Add_app.
          - split; auto. intros X. apply iv_devs0 in X. destruct X; congruence. }
        { intros j. rewrite map_app, in_app_iff. cbn.
          unfold get_dev. cbn [c_devs set_pq set_dev set_free]. rewrite set_nth_length, nth_set_nth.
          rewrite iv_devs0. unfold get_dev.
          destruct (Nat.eqb_spec j i) as [->|Hne]; cbn [andb].
          - destruct (Nat.ltb_spec i (length (c_devs c))); [|lia]. cbn. intuition.
          - intuition; try congruence. }
      * cbn. rewrite set_nth_length. lia.
      * intros j Hj Hr. unfold get_dev. cbn. rewrite nth_set_nth.
        destruct (Nat.eqb_spec j i); [lia|]. cbn. apply Hp; auto. lia.
  - apply IH.
    + destruct (_ && _); auto. apply set_dev_inv; auto.
    + destruct (_ && _); cbn; rewrite ?set_nth_length; lia.
    + intros j Hj Hr. destruct (_ && _).
      * rewrite nth_set_dev. destruct (Nat.eqb_spec j i); [lia|]. cbn. apply Hp; auto; lia.
      * apply Hp; auto; lia.
Qed.

Lemma process_devices_inv {W} (en : env W) n w c : poll_sane en -> inv n c ->
  exists w' c' r, process_devices en w c = Ok (w', c', r) /\ inv n c'.
Proof.
  intros PS I. unfold process_devices.
  destruct (e_poll en w _) as [w1 [b|rev]] eqn:Ep.
  - eauto 6.
  - specialize (PS _ _ _ _ Ep).
    match goal with |- context [read_devices ?a ?b ?c0 ?d ?e ?f ?g ?h] =>
      pose proof (read_devices_inv a n d e b c0 f g h I) as R;
      destruct (read_devices a b c0 d e f g h) as [[w2 c2] x] eqn:E end.
    cbn in R.
    assert (I2 : inv n c2).
    { apply R; [lia|]. intros j _ Hj. apply PS in Hj.
      destruct (Nat.lt_ge_cases j (length (c_devs c))) as [Hl|Hl].
      - rewrite (nth_indep _ _ (negb (d_pending dflt))) in Hj by now rewrite map_length.
        rewrite (map_nth (fun d => negb (d_pending d)) (c_devs c) dflt j) in Hj. apply negb_true_iff in Hj. exact Hj.
      - rewrite nth_overflow in Hj by now rewrite map_length. discriminate. }
    destruct x; [eauto 6|].
    destruct (pull_inv n c2 I2) as (c3 & -> & I3). cbn. eauto 6.
Qed.

Lemma open_inv tail marks : 0 <= tail ->
  inv (Z.to_nat (tail + zlen marks + 1)) (open_ctx tail marks).
Proof.
  intros Ht. pose proof (zlen_nonneg marks). constructor; cbn; try (change (zlen (@nil frame)) with 0); try lia.
  - rewrite app_nil_r. unfold pool. rewrite map_map. cbn. rewrite map_id. apply Permutation_refl.
  - unfold zlen in *. rewrite map_length. lia.
  - constructor.
  - intros i. split; [contradiction|]. intros [_ X]. unfold get_dev in X. cbn in X.
    change dflt with ((fun m => mkDev m false false) 0) in X. rewrite map_nth in X. discriminate.
Qed.

Lemma rounds_inv {W} (en : env W) n k : forall w c, poll_sane en -> inv n c ->
  exists w' c', rounds k en w c = Ok (w', c') /\ inv n c'.
Proof.
  induction k as [|k IH]; intros w c PS I; cbn; [eauto|].
  destruct (process_devices_inv en n w c PS I) as (w1 & c1 & r & -> & I1). cbn. now apply IH.
Qed.

Lemma process_logs_inv {W} (en : env W) n dump max fuel : forall w c fr, poll_sane en -> inv n c ->
  exists r, process_logs fuel en dump max w c fr = Ok r /\
    forall w' c' x, r = Some (w', c', x) -> inv n c'.
Proof.
  induction fuel as [|k IH]; intros w c fr PS I; cbn.
  { eexists; split; [reflexivity|]. discriminate. }
  destruct (process_devices_inv en n w c PS I) as (w1 & c1 & r & -> & I1). cbn.
  destruct (r <? 0); [eexists; split; [reflexivity|]; intros ? ? ? [= <- <- <-]; auto|].
  destruct (dump && c_mark c1).
  - destruct (flush_pending_queue_inv n (Z.to_nat (c_pending c1)) c1 I1) as (c2 & -> & I2 & _).
    { rewrite (iv_pend _ _ I1). pose proof (zlen_nonneg (c_pq c1)). lia. }
    cbn. eexists; split; [reflexivity|]; intros ? ? ? [= <- <- <-]; auto.
  - destruct ((max =? 0) || _); [now apply IH|].
    eexists; split; [reflexivity|]; intros ? ? ? [= <- <- <-]; auto.
Qed.
