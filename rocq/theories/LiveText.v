(** Banners (C104) and text (C103): what the reader emits is announced, for every environment. *)
From Coq Require Import ZArith String List Bool Permutation Sorted Lia ZifyBool ZifyNat Arith.
From Verif Require Import Bytes BytesProofs Ring Parse Cat CatSpec CatProofs Render RenderSpec RenderProofs PropsRender Live LiveSpec LiveProofs.
Import ListNotations.
Open Scope Z_scope.

Definition vis (x : ev) : bool := match x with EvNoFrame => false | _ => true end.

Lemma announced_snoc many fl : forall seen f,
  announced many seen (fl ++ [f]) =
  announced many seen fl ++ (if many && negb (existsb (Nat.eqb (f_dev f)) (rev (map f_dev fl) ++ seen)) then [EvBanner (f_dev f)] else [])
    ++ (if f_ok f then [EvFrame f] else []).
Proof.
  induction fl as [|g fl IH]; intros seen f; cbn [announced app map rev]; [now rewrite app_nil_r|].
  rewrite IH, <- !app_assoc. cbn [app]. reflexivity.
Qed.

Section Banner.
Variable n : nat.
Variable P : frame -> Prop.
Let many := (1 <? Z.of_nat n).
Let G (f : frame) : Prop := (f_dev f < n)%nat /\ P f.
Record BI (c : ctx) : Prop := {
  bi_n : length (c_devs c) = n;
  bi_pq : Forall G (c_pq c);
  bi_rq : Forall G (c_rq c);
  bi_out : exists fl, filter vis (c_out c) = announced many [] fl /\ Forall G fl /\
    forall i, (i < n)%nat -> many = true -> d_printed (get_dev c i) = existsb (Nat.eqb i) (rev (map f_dev fl)) }.

Lemma BI_same c c' : BI c -> length (c_devs c') = length (c_devs c) ->
  (forall i, (i < n)%nat -> d_printed (get_dev c' i) = d_printed (get_dev c i)) ->
  filter vis (c_out c') = filter vis (c_out c) -> Forall G (c_pq c') -> Forall G (c_rq c') -> BI c'.
Proof.
  intros [A B C (fl & D & E & F)] H1 H2 H3 H4 H5. constructor; auto; [lia|].
  exists fl. rewrite H3. split; [exact D|]. split; [exact E|]. intros i Hi Hm. rewrite H2 by exact Hi. auto.
Qed.
Lemma set_dev_printed c i x j : d_printed x = d_printed (get_dev c i) ->
  d_printed (get_dev (set_dev c i x) j) = d_printed (get_dev c j).
Proof.
  intros H. unfold get_dev, set_dev in *. cbn [c_devs]. rewrite nth_set_nth.
  destruct (Nat.eqb_spec j i) as [->|]; [|reflexivity]. destruct (Nat.ltb_spec i (length (c_devs c))); auto.
Qed.
Lemma set_dev_len c i x : length (c_devs (set_dev c i x)) = length (c_devs c).
Proof. apply set_nth_length. Qed.
Lemma Forall_unlink id q : Forall G q -> Forall G (unlink id q).
Proof. induction 1; cbn; [constructor|]. destruct (Nat.eqb _ _); auto. Qed.
Lemma existsb_rev i (l : list nat) : existsb (Nat.eqb i) (rev l) = existsb (Nat.eqb i) l.
Proof.
  induction l as [|x l IH]; cbn; auto. rewrite existsb_app. cbn. rewrite IH. destruct (Nat.eqb i x), (existsb _ l); reflexivity.
Qed.

Lemma BI_flush c f : BI c -> G f -> BI (flush_frame c f).
Proof.
  intros B [Hf HP]. unfold flush_frame.
  assert (Ez : (1 <? zlen (c_devs c)) = many) by (unfold many, zlen; now rewrite (bi_n _ B)). rewrite Ez.
  destruct B as [A B C (fl & D & E & F)].
  assert (S : forall i, (i < n)%nat -> many = true -> existsb (Nat.eqb i) (rev (map f_dev (fl ++ [f]))) =
     (i =? f_dev f)%nat || existsb (Nat.eqb i) (rev (map f_dev fl))).
  { intros i Hi _. rewrite map_app, rev_app_distr. reflexivity. }
  set (c1 := if negb (d_printed (get_dev c (f_dev f))) && many then _ else _).
  assert (H1 : length (c_devs c1) = n /\ c_pq c1 = c_pq c /\ c_rq c1 = c_rq c /\
    filter vis (c_out c1) = announced many [] fl ++
      (if many && negb (existsb (Nat.eqb (f_dev f)) (rev (map f_dev fl) ++ [])) then [EvBanner (f_dev f)] else []) /\
    forall i, (i < n)%nat -> many = true -> d_printed (get_dev c1 i) = (i =? f_dev f)%nat || existsb (Nat.eqb i) (rev (map f_dev fl))).
  { subst c1. rewrite app_nil_r. destruct many eqn:Em.
    - rewrite <- (F _ Hf eq_refl). destruct (d_printed (get_dev c (f_dev f))) eqn:Ep; cbn [negb andb].
      + repeat split; auto. { now rewrite app_nil_r. }
        intros i Hi _. rewrite (F i Hi eq_refl). destruct (Nat.eqb_spec i (f_dev f)) as [->|]; [|reflexivity].
        rewrite <- (F _ Hf eq_refl), Ep. reflexivity.
      + rewrite set_dev_len. cbn [set_dev emit c_devs c_pq c_rq c_out]. rewrite filter_app, D. cbn [filter vis].
        repeat split; auto. intros i Hi _. unfold get_dev. cbn [set_dev emit c_devs]. rewrite nth_set_nth.
        destruct (Nat.eqb_spec i (f_dev f)) as [->|Ne]; cbn [orb].
        * destruct (Nat.ltb_spec (f_dev f) (length (c_devs c))); [reflexivity|lia].
        * exact (F i Hi eq_refl).
    - rewrite andb_false_r. cbn [andb]. repeat split; auto; [now rewrite app_nil_r|]. discriminate. }
  clearbody c1. destruct H1 as (H1 & H2 & H3 & H4 & H5).
  assert (HG : Forall G (fl ++ [f])) by (apply Forall_app; split; [exact E|repeat constructor; assumption]).
  destruct (f_ok f) eqn:Eo; constructor; cbn [emit c_devs c_pq c_rq c_out]; rewrite ?H2, ?H3; auto;
    exists (fl ++ [f]); rewrite announced_snoc, Eo; rewrite ?filter_app, H4; cbn [filter vis]; rewrite ?app_nil_r, <- ?app_assoc;
    (split; [reflexivity|]); (split; [exact HG|]); intros i Hi Hm; rewrite (S i Hi Hm); try apply (H5 i Hi Hm).
Qed.

Lemma BI_free c f : BI c -> BI (free_frame c f).
Proof. intros B. apply (BI_same c); try reflexivity; [exact B|apply B|apply B]. Qed.
Lemma BI_set_free c q : BI c -> BI (set_free c q).
Proof. intros B. apply (BI_same c); try reflexivity; [exact B|apply B|apply B]. Qed.
Lemma BI_set_pq c k q : BI c -> Forall G q -> BI (set_pq c k q).
Proof. intros B H. apply (BI_same c); try reflexivity; [exact B|exact H|apply B]. Qed.
Lemma BI_set_rq c k q : BI c -> Forall G q -> BI (set_rq c k q).
Proof. intros B H. apply (BI_same c); try reflexivity; [exact B|apply B|exact H]. Qed.
Lemma BI_set_dev c i x : BI c -> d_printed x = d_printed (get_dev c i) -> BI (set_dev c i x).
Proof.
  intros B H. apply (BI_same c); try reflexivity; [exact B|apply set_dev_len| |apply B|apply B].
  intros j _. now apply set_dev_printed.
Qed.
Lemma BI_noframe c : BI c -> BI (emit c EvNoFrame).
Proof.
  intros B. apply (BI_same c); try reflexivity; [exact B| |apply B|apply B]. cbn [emit c_out].
  rewrite filter_app. cbn. apply app_nil_r.
Qed.
Lemma BI_oldest c f : BI c -> find_oldest c = Some f -> G f.
Proof. intros B E. apply find_oldest_some in E. destruct E as (E & _). pose proof (bi_pq _ B) as H. rewrite Forall_forall in H. auto. Qed.

Lemma BI_pend c drop c' : BI c -> flush_pending_frame c drop = Ok c' -> BI c'.
Proof.
  intros B. unfold flush_pending_frame. destruct (0 <? c_pending c); [|congruence].
  destruct (find_oldest c) as [f|] eqn:E; [|discriminate]. pose proof (BI_oldest c f B E) as Gf.
  cbv zeta. set (c1 := if drop then c else flush_frame c f).
  assert (B1 : BI c1) by (subst c1; destruct drop; [exact B|now apply BI_flush]). clearbody c1.
  set (c2 := set_dev c1 (f_dev f) _). assert (B2 : BI c2) by (apply BI_set_dev; [exact B1|reflexivity]). clearbody c2.
  intros X. injection X as X. subst c'. apply BI_set_pq; [|cbn; apply Forall_unlink, B2].
  apply BI_free, BI_set_pq; [exact B2|apply Forall_unlink, B2].
Qed.
Lemma BI_rend c drop c' : BI c -> flush_render_frame c drop = Ok c' -> BI c'.
Proof.
  intros B. unfold flush_render_frame. destruct (0 <? c_render c); [|congruence].
  destruct (c_rq c) as [|f q] eqn:E; [discriminate|].
  assert (Gf : G f) by (pose proof (bi_rq _ B) as H; rewrite E in H; rewrite Forall_forall in H; apply H; now left).
  cbv zeta. set (c1 := if drop then c else flush_frame c f).
  assert (B1 : BI c1) by (subst c1; destruct drop; [exact B|now apply BI_flush]). clearbody c1.
  intros X. injection X as X. subst c'. apply BI_set_rq; [|cbn; apply Forall_unlink, B1].
  apply BI_free, BI_set_rq; [exact B1|apply Forall_unlink, B1].
Qed.
Lemma BI_pend_queue k : forall c c', BI c -> flush_pending_queue k c = Ok c' -> BI c'.
Proof.
  induction k as [|k IH]; intros c c' B; cbn [flush_pending_queue]; destruct (0 <? c_pending c); try discriminate; try congruence.
  destruct (flush_pending_frame c false) as [c1|] eqn:E; cbn [bind]; [|discriminate]. intros H. eapply IH; [|exact H].
  eapply BI_pend; eassumption.
Qed.
Lemma BI_rend_queue k : forall c c', BI c -> flush_render_queue k c = Ok c' -> BI c'.
Proof.
  induction k as [|k IH]; intros c c' B; cbn [flush_render_queue]; destruct (0 <? c_render c); try discriminate; try congruence.
  destruct (flush_render_frame c false) as [c1|] eqn:E; cbn [bind]; [|discriminate]. intros H. eapply IH; [|exact H].
  eapply BI_rend; eassumption.
Qed.
Lemma BI_tail_drop k : forall c c', BI c -> tail_drop k c = Ok c' -> BI c'.
Proof.
  induction k as [|k IH]; intros c c' B; cbn [tail_drop]; destruct (c_tail c <? _); try discriminate; try congruence.
  destruct (0 <? c_render c).
  - destruct (flush_render_frame c true) as [c1|] eqn:E; cbn [bind]; [|discriminate]. intros H. eapply IH; [|exact H]. eapply BI_rend; eassumption.
  - destruct (0 <? c_pending c); [|cbn [bind]; apply IH; exact B].
    destruct (flush_pending_frame c true) as [c1|] eqn:E; cbn [bind]; [|discriminate]. intros H. eapply IH; [|exact H]. eapply BI_pend; eassumption.
Qed.
Lemma BI_tail_flush c c' : BI c -> process_tail_flush c = Ok c' -> BI c'.
Proof.
  intros B. unfold process_tail_flush. destruct (_ || _); [congruence|].
  destruct (tail_drop _ c) as [c1|] eqn:E; cbn [bind]; [|discriminate]. pose proof (BI_tail_drop _ _ _ B E) as B1.
  destruct (flush_render_queue _ c1) as [c2|] eqn:E2; cbn [bind]; [|discriminate]. pose proof (BI_rend_queue _ _ _ B1 E2) as B2.
  intros X. injection X as X. subst c'. apply (BI_same c2); try reflexivity; [exact B2|apply B2|apply B2].
Qed.
Lemma BI_enqueue c f : BI c -> G f -> BI (enqueue_render c f).
Proof.
  intros B Gf. assert (H : Forall G (c_rq c ++ [f])) by (apply Forall_app; split; [apply B|repeat constructor; apply Gf]).
  unfold enqueue_render. destruct (c_render c <? c_tail c); [now apply BI_set_rq|].
  destruct (c_rq c ++ [f]) as [|g r]; [exact B|]. apply BI_free, BI_set_rq; [exact B|exact (Forall_inv_tail H)].
Qed.
Lemma BI_mark c : BI c -> BI (update_mark_reached c).
Proof.
  intros B. unfold update_mark_reached. destruct (_ || _); [exact B|].
  apply (BI_same c); try reflexivity; [exact B|apply B|apply B].
Qed.
Lemma BI_pull c c' : BI c -> pull c = Ok c' -> BI c'.
Proof.
  intros B. unfold pull. intros H. eapply BI_tail_flush; [|exact H]. clear H.
  assert (B1 : BI (pull_oldest c)).
  { unfold pull_oldest. destruct (find_oldest c) as [f|] eqn:E; [|exact B]. pose proof (BI_oldest c f B E) as Gf.
    cbv zeta. set (c1 := set_pq c _ _). assert (B1 : BI c1) by (apply BI_set_pq; [exact B|apply Forall_unlink, B]). clearbody c1.
    set (c2 := set_dev c1 _ _). assert (B2 : BI c2) by (apply BI_set_dev; [exact B1|reflexivity]). clearbody c2.
    set (c3 := set_pq c2 _ _). assert (B3 : BI c3) by (apply BI_set_pq; [exact B2|apply B2]). clearbody c3.
    destruct (0 <? c_tail c3); [now apply BI_enqueue|now apply BI_free, BI_flush]. }
  now apply BI_mark.
Qed.

Variable W : Type.
Variable en : env W.
Hypothesis frames_P : forall w i w' st da dec ok, e_recv en w i = (w', RxFrame st da dec ok) ->
  forall id, P (mkFrame id i st da ok).

Lemma BI_read fds rev k : forall i w c fr w' c' x, BI c -> (i + k <= n)%nat ->
  read_devices en k i fds rev w c fr = (w', c', x) -> BI c'.
Proof.
  induction k as [|k IH]; intros i w c fr w' c' x B Hk; cbn [read_devices]; [congruence|].
  destruct (nth i rev false); cbn [negb].
  2:{ destruct (_ && _); intros E; (eapply IH; [| |exact E]; [|lia]); [apply BI_set_dev; [exact B|reflexivity]|exact B]. }
  unfold alloc_frame. destruct (c_free c) as [|f r]; [intros E; eapply IH; [| |exact E]; [|lia]; now apply BI_noframe|].
  assert (B0 : BI (set_free c r)) by now apply BI_set_free.
  destruct (e_recv en w i) as [w1 rx0] eqn:Er. destruct rx0 as [|dec|st da dec ok].
  - intros X. assert (c' = free_frame (set_free c r) f) as -> by congruence. now apply BI_free.
  - intros X. match type of X with (_, ?y, _) = _ => assert (c' = y) as -> by congruence end.
    apply BI_free, BI_set_dev; [exact B0|reflexivity].
  - set (c1 := set_dev (set_free c r) i _). assert (B1 : BI c1) by (apply BI_set_dev; [exact B0|reflexivity]). clearbody c1.
    intros E. eapply IH; [| |exact E]; [|lia]. apply BI_set_pq; [exact B1|].
    apply Forall_app. split; [apply B1|]. constructor; [|constructor]. split; [cbn [f_dev]; lia|]. eapply frames_P, Er.
Qed.
Lemma BI_devices w c w' c' x : BI c -> process_devices en w c = Ok (w', c', x) -> BI c'.
Proof.
  intros B. unfold process_devices. destruct (e_poll en w _) as [w1 [b|rev]]; [congruence|].
  destruct (read_devices en _ 0 _ rev w1 c 0) as [[w2 c2] y] eqn:E.
  assert (B2 : BI c2) by (eapply BI_read; [exact B| |exact E]; rewrite (bi_n _ B); lia).
  destruct y as [ret|fr]; [congruence|].
  destruct (pull c2) as [c3|] eqn:Ep; cbn [bind]; [|discriminate]. intros X. assert (c' = c3) as -> by congruence.
  eapply BI_pull; eassumption.
Qed.
Lemma BI_logs dump max k : forall w c fr w' c' x, BI c ->
  process_logs k en dump max w c fr = Ok (Some (w', c', x)) -> BI c'.
Proof.
  induction k as [|k IH]; intros w c fr w' c' x B; cbn [process_logs]; [discriminate|].
  destruct (process_devices en w c) as [[[w1 c1] r]|] eqn:E; cbn [bind]; [|discriminate].
  pose proof (BI_devices _ _ _ _ _ B E) as B1.
  destruct (r <? 0); [intros X; assert (c' = c1) as -> by congruence; exact B1|].
  destruct (dump && c_mark c1).
  - destruct (flush_pending_queue _ c1) as [c2|] eqn:E2; cbn [bind]; [|discriminate].
    intros X. assert (c' = c2) as -> by congruence. eapply BI_pend_queue; eassumption.
  - destruct (_ || _); [now apply IH|]. intros X. assert (c' = c1) as -> by congruence. exact B1.
Qed.
End Banner.

Lemma BI_open P tail marks : BI (length marks) P (open_ctx tail marks).
Proof.
  constructor; cbn [open_ctx c_devs c_pq c_rq c_out]; [now rewrite map_length|constructor|constructor|].
  exists []. split; [reflexivity|]. split; [constructor|]. intros i Hi _. unfold get_dev. cbn [open_ctx c_devs].
  change dflt with ((fun m => mkDev m false false) 0). rewrite map_nth. reflexivity.
Qed.
Lemma vis_all l : ~ In EvNoFrame l -> filter vis l = l.
Proof.
  induction l as [|x l IH]; intros H; cbn; auto. rewrite IH by (intros X; apply H; now right).
  destruct x; try reflexivity. exfalso. apply H. now left.
Qed.

(** ** The driver's frames *)
Definition live_ok (f : frame) : Prop :=
  f_ok f = true /\ exists e, fd_entry (f_data f) = Some e /\ 0 <= pe_prio e < 8.
Lemma live_frames csv uid w i w' st da dec ok : e_recv (live_env csv uid) w i = (w', RxFrame st da dec ok) ->
  forall id, live_ok (mkFrame id i st da ok).
Proof.
  cbn [e_recv live_env]. destruct (nth_error w i) as [[d fid]|]; [|discriminate].
  unfold live_recv. destruct (sys_read d fid uid FRAME_BUFSIZE) as [d1 r1].
  destruct (if _ : bool then sys_read d1 fid uid ENTRY_MAX_LEN else (d1, r1)) as [d2 r2].
  intros X id. assert (E : (match ulog_receive_entry csv r1 true r2 with Ok x => x | Bug _ => RxFail end) = RxFrame st da dec ok) by congruence.
  clear X. unfold ulog_receive_entry in E. cbv zeta in E. rewrite andb_false_r in E.
  destruct (if _ : bool then r2 else r1) as [e|bs]; [destruct (_ || _); discriminate|].
  destruct (_ =? 0); [discriminate|]. destruct (_ <? 24); [discriminate|]. destruct (negb _); [discriminate|].
  destruct (ulog_parse_buf bs) as [[bs' e]|] eqn:Ep; cbn [bind] in E; [|discriminate].
  destruct (_ && _); [discriminate|].
  assert (da = mkData bs' (Some e)) as -> by congruence. assert (ok = true) as -> by congruence.
  split; [reflexivity|]. exists e. split; [reflexivity|].
  clear E. revert Ep. unfold ulog_parse_buf. destruct (mem_read bs 0 24) as [h|]; cbn [bind]; [|discriminate].
  unfold parse_at. destruct (mem_read bs _ _) as [blk|]; cbn [bind]; [|discriminate].
  destruct (parse_payload blk 0 _ _ _ _ _) as [[m0 e0]|] eqn:Ey; cbn [bind]; [|discriminate].
  destruct (mem_write _ _ _); cbn [bind]; [|discriminate].
  pose proof (prio_range _ _ _ _ _ _ _ _ _ Ey) as H0.
  intros X. match type of X with Ok (_, ?y) = _ => replace e with y by congruence end. exact H0.
Qed.

(** ** Text *)
Lemma some_cells (cells : list (option Z)) : Forall (fun c => c <> None) cells -> exists l, cells = map Some l.
Proof.
  induction 1 as [|x l H _ (r & ->)]; [exists []; reflexivity|]. destruct x as [x|]; [|contradiction]. exists (x :: r). reflexivity.
Qed.
Lemma banner_some path : exists b, render_banner path = Ok (Some (map Some b)).
Proof.
  destruct (C46_banner path) as (r & E & H). destruct r as [cells|].
  - destruct (H cells eq_refl) as [_ H2]. destruct (some_cells cells H2) as (l & ->). eauto.
  - exfalso. revert E. unfold render_banner.
    assert (HB : zlen (banner_text path) <= 5000).
    { unfold banner_text, local_str. rewrite !zlen_app, zlen_ztake, zlen_cons. change (zlen (@nil Z)) with 0.
      change (zlen (bytes_of_string "---------------------------------------")) with 39. lia. }
    destruct (snprintf_after [] fresh (banner_text path) (zlen_nonneg _)) as (r & R & Hr).
    cbn [map app] in R. change (zlen (@nil Z)) with 0 in R. rewrite zlen_fresh in R, Hr. rewrite R. cbn [bind].
    unfold cut in *. unfold text_render_size in *.
    destruct (Z.leb_spec (5 * 1024 + 128) 0); [lia|].
    destruct (Z.ltb_spec (zlen (banner_text path)) (5 * 1024 + 128)); [|lia].
    pose proof (zlen_nonneg (banner_text path)). pose proof (zlen_nonneg r).
    unfold handed. destruct (Z.ltb_spec (zlen (banner_text path)) 0); [lia|].
    destruct (Z.ltb_spec (zlen (map Some (banner_text path) ++ r)) (zlen (banner_text path))) as [X|X];
      [rewrite zlen_app, zlen_map in X; lia|].
    cbn [orb]. discriminate.
Qed.
Lemma text_announced o paths many : forall fl seen, Forall live_ok fl ->
  exists text, output o paths (announced many seen fl) = Ok (map Some text) /\
    text_of o paths many seen (entries (announced many seen fl)) text.
Proof.
  induction fl as [|f fl IH]; intros seen HF; cbn [announced].
  - exists []. split; [reflexivity|constructor].
  - inversion HF as [|? ? (Hok & e & Ee & He) HF']; subst. rewrite Hok.
    destruct (IH (f_dev f :: seen) HF') as (rest & Er & Tr). clear IH.
    set (u := resolve (fd_buf (f_data f)) e).
    assert (HL : exists line, flush_text o paths (EvFrame f) = Ok (map Some line) /\
       (text_render false o u = Ok (Some (map Some line)) \/ (text_render false o u = Ok None /\ line = []))).
    { unfold flush_text. rewrite Ee. fold u. destruct (C46_buffer false o u) as (r & E & H); [exact He|].
      rewrite E. cbn [bind]. destruct r as [cells|]; [|exists []; auto].
      destruct (H cells eq_refl) as [_ H2]. destruct (some_cells cells H2) as (l & ->). eauto. }
    destruct HL as (line & EL & TL).
    assert (Ent : entries ([EvFrame f] ++ announced many (f_dev f :: seen) fl) = (f_dev f, u) :: entries (announced many (f_dev f :: seen) fl)).
    { cbn [app entries]. rewrite Ee. reflexivity. }
    destruct (many && negb (existsb (Nat.eqb (f_dev f)) seen)) eqn:Eb.
    + destruct (banner_some (nth (f_dev f) paths [])) as (b & Ebn).
      exists (b ++ line ++ rest). split.
      * cbn [app output]. unfold flush_text at 1. rewrite Ebn. cbn [bind]. rewrite EL, Er. cbn [bind]. now rewrite !map_app.
      * cbn [app entries]. rewrite Ee. fold u. constructor; [rewrite Eb; exact Ebn|exact TL|exact Tr].
    + exists ([] ++ line ++ rest). split.
      * cbn [app output]. rewrite EL, Er. cbn [bind]. now rewrite !map_app.
      * rewrite app_nil_l, Ent. constructor; [rewrite Eb; reflexivity|exact TL|exact Tr].
Qed.
