(** Lemmas for property C150. *)
From Coq Require Import ZArith String List Bool Lia ZifyBool ZifyNat Arith.
From Verif Require Import Bytes BytesProofs Ring RingSpec RingRefine RingHistory RingInv RingObs WaitQ WaitQProofs LinSpec.
Import ListNotations.
Open Scope Z_scope.

(** ** Mode of the files *)

Definition attrs (d : dev) (f : Z) : option (bool * bool) :=
  option_map (fun g => (f_write g, f_raw g)) (lookup f (d_files d)).

Lemma lookup_upd : forall fs f g k, lookup k (update f g fs) =
  if k =? f then option_map (fun _ => g) (lookup f fs) else lookup k fs.
Proof.
  induction fs as [|[i x] fs IH]; intros f g k; cbn [update lookup].
  - destruct (k =? f); reflexivity.
  - destruct (Z.eqb_spec i f) as [->|N]; cbn [lookup].
    + destruct (Z.eqb_spec f k) as [->|N]; [rewrite Z.eqb_refl; reflexivity|].
      destruct (Z.eqb_spec k f); [congruence|reflexivity].
    + destruct (Z.eqb_spec i k) as [->|N']; [destruct (Z.eqb_spec k f); [congruence|reflexivity]|apply IH].
Qed.

Lemma lookup_rem : forall fs f k, k <> f -> lookup k (remove f fs) = lookup k fs.
Proof.
  induction fs as [|[i x] fs IH]; intros f k N; cbn [remove lookup]; [reflexivity|].
  destruct (Z.eqb_spec i f) as [->|N1]; cbn [lookup].
  - destruct (Z.eqb_spec f k); [congruence|reflexivity].
  - destruct (i =? k); [reflexivity|apply IH; exact N].
Qed.

Lemma lookup_map_files : forall h fs k, lookup k (map (fun p : Z * file => (fst p, h (snd p))) fs) = option_map h (lookup k fs).
Proof.
  induction fs as [|[i x] fs IH]; intros k; cbn [map lookup fst snd]; [reflexivity|].
  destruct (i =? k); [reflexivity|apply IH].
Qed.

Lemma lookup_snoc : forall fs f g k, lookup k (fs ++ [(f, g)]) =
  match lookup k fs with Some x => Some x | None => if f =? k then Some g else None end.
Proof.
  induction fs as [|[i x] fs IH]; intros f g k; cbn [app lookup]; [reflexivity|].
  destruct (i =? k); [reflexivity|apply IH].
Qed.

Lemma fix_up_attrs : forall l o n z fs fs' k, fix_up_files l o n z fs = Ok fs' ->
  option_map (fun g => (f_write g, f_raw g)) (lookup k fs') = option_map (fun g => (f_write g, f_raw g)) (lookup k fs).
Proof.
  induction fs as [|[i x] fs IH]; intros fs' k E; cbn [fix_up_files] in E.
  - injection E as <-. reflexivity.
  - destruct (f_reader x) as [r|] eqn:Er.
    + destruct (fix_up_reader l o n z r) as [r'|]; cbn [bind] in E; [|discriminate].
      destruct (fix_up_files l o n z fs) as [rest|] eqn:Ef; cbn [bind] in E; [|discriminate].
      injection E as <-. cbn [lookup]. destruct (i =? k); [reflexivity|]. apply IH. reflexivity.
    + cbn [bind] in E.
      destruct (fix_up_files l o n z fs) as [rest|] eqn:Ef; cbn [bind] in E; [|discriminate].
      injection E as <-. cbn [lookup]. destruct (i =? k); [reflexivity|]. apply IH. reflexivity.
Qed.

Lemma bind_ok : forall {A B} (m : M A) (f : A -> M B) y, bind m f = Ok y -> exists x, m = Ok x /\ f x = Ok y.
Proof. intros A B [x|b] f y H; cbn [bind] in H; [eauto|discriminate]. Qed.

Lemma write_attrs : forall d raw t x y it d' v k, ulogger_write_iter d raw t x y it = Ok (d', v) -> attrs d' k = attrs d k.
Proof.
  intros d raw t x y it d' v k H. unfold ulogger_write_iter in H.
  destruct (raw && _); [congruence|]. cbv zeta in H.
  match type of H with (if ?b then _ else _) = _ => destruct b end; [congruence|].
  apply bind_ok in H. destruct H as (d1 & E1 & H).
  apply bind_ok in H. destruct H as ([l2 s1] & E2 & H).
  apply bind_ok in H. destruct H as ([l3 ret] & E3 & H).
  assert (E : d_files d' = d_files d1) by (destruct ret; injection H as <- _; reflexivity).
  unfold attrs. rewrite E. unfold fix_up_readers in E1.
  apply bind_ok in E1. destruct E1 as (l' & E1 & E4).
  apply bind_ok in E4. destruct E4 as (fs & E4 & E5). injection E5 as <-. cbn [d_files].
  eapply fix_up_attrs. exact E4.
Qed.

Lemma step_attrs : forall d o d' x k m, step d o = Ok (d', x) -> o <> OpClose k ->
  (forall a b c e, o <> OpIoctl k (SetRawMode a b c) e) ->
  attrs d k = Some m -> attrs d' k = Some m.
Proof.
  intros d o d' x k m H Nc Nr A. destruct o as [f rd wr al nm|f|f nb sg|f eu ct vl|f tk y z it|f eu|f cm eu]; cbn [step] in H.
  - injection H as H. unfold ulogger_open in H. destruct (lookup f (d_files d)); [congruence|].
    destruct (rd && nm); [congruence|]. injection H as <- _. unfold attrs in *. cbn [d_files]. rewrite lookup_snoc.
    destruct (lookup k (d_files d)); [exact A|discriminate].
  - destruct (lookup f (d_files d)); [|congruence]. injection H as <- _. unfold attrs in *. cbn [d_files].
    rewrite lookup_rem; [exact A|congruence].
  - destruct (lookup f (d_files d)) as [[w m' [r|]]|]; congruence.
  - destruct (lookup f (d_files d)) as [[w m' [r|]]|] eqn:El; try congruence.
    apply bind_ok in H. destruct H as ([r' y] & E & H). injection H as <- _. unfold attrs in *. cbn [d_files].
    rewrite lookup_upd. destruct (Z.eqb_spec k f) as [->|N]; [|exact A]. rewrite El in *. exact A.
  - destruct (lookup f (d_files d)) as [g|]; [|congruence]. destruct (f_write g); [|congruence].
    apply bind_ok in H. destruct H as ([d1 v] & E & H). injection H as <- _. rewrite (write_attrs _ _ _ _ _ _ _ _ _ E). exact A.
  - destruct (lookup f (d_files d)) as [[w m' [r|]]|] eqn:El; try congruence.
    apply bind_ok in H. destruct H as ([r' y] & E & H). injection H as <- _. unfold attrs in *. cbn [d_files].
    rewrite lookup_upd. destruct (Z.eqb_spec k f) as [->|N]; [|exact A]. rewrite El in *. exact A.
  - destruct (lookup f (d_files d)) as [g|] eqn:El; [|congruence].
    apply bind_ok in H. destruct H as ([[[l' f'] fl] v] & E & H). injection H as <- _.
    assert (G : k = f -> f_write f' = f_write g /\ f_raw f' = f_raw g).
    { intros ->. destruct cm; cbn [ulogger_ioctl] in E; try (exfalso; eapply Nr; reflexivity);
        repeat match type of E with context [match f_reader g with _ => _ end] => destruct (f_reader g) end;
        try (injection E as _ <- _ _; auto; fail).
      - apply bind_ok in E. destruct E as (r' & E1 & E).
        destruct (negb (w_off (d_log d) =? r_off r')).
        + apply bind_ok in E. destruct E as (ml & E2 & E). injection E as _ <- _ _. auto.
        + injection E as _ <- _ _. auto.
      - destruct (negb (f_write g)); injection E as _ <- _ _; auto.
      - destruct arg as [v'|]; [|injection E as _ <- _ _; auto].
        destruct (_ || _); injection E as _ <- _ _; auto. }
    assert (A' : option_map (fun g => (f_write g, f_raw g)) (lookup k (update f f' (d_files d))) = Some m).
    { rewrite lookup_upd. destruct (Z.eqb_spec k f) as [->|N]; [|exact A]. destruct (G eq_refl) as [G1 G2].
      unfold attrs in A. rewrite El in *. cbn [option_map] in *. rewrite G1, G2. exact A. }
    unfold attrs. cbn [d_files]. destruct fl; [|exact A'].
    rewrite lookup_map_files. destruct (lookup k (update f f' (d_files d))) as [g'|]; [|discriminate A'].
    cbn [option_map] in *. unfold flush_file. destruct (f_reader g'); cbn [f_write f_raw]; exact A'.
Qed.

(** ** Traces *)

Lemma effs_app : forall a b, effs (a ++ b) = effs a ++ effs b.
Proof. intros. unfold effs. apply flat_map_app. Qed.

Lemma run_snoc : forall ops d d1 xs o d2 x, run d ops = Ok (d1, xs) -> step d1 o = Ok (d2, x) ->
  run d (ops ++ [o]) = Ok (d2, xs ++ [x]).
Proof.
  induction ops as [|p ops IH]; intros d d1 xs o d2 x H1 H2; cbn [run app] in *.
  - injection H1 as <- <-. rewrite H2. reflexivity.
  - apply bind_ok in H1. destruct H1 as ([d3 y] & E & H1). rewrite E. cbn [bind].
    apply bind_ok in H1. destruct H1 as ([d4 ys] & E' & H1). injection H1 as -> <-.
    rewrite (IH _ _ _ _ _ _ E' H2). reflexivity.
Qed.

(** ** A write in another mode *)

Fixpoint sr (f : Z) (b : bool) (fs : list (Z * file)) : list (Z * file) :=
  match fs with
  | [] => []
  | (id, g) :: r => if id =? f then (id, mkFile (f_write g) b (f_reader g)) :: r else (id, g) :: sr f b r
  end.
Lemma sr_update : forall f b fs g, lookup f fs = Some g -> update f (mkFile (f_write g) b (f_reader g)) fs = sr f b fs.
Proof.
  induction fs as [|[i h] fs IH]; intros g H; cbn in *; [discriminate|]. destruct (i =? f); [injection H as ->; reflexivity|].
  rewrite (IH g H). reflexivity.
Qed.
Lemma sr_lookup : forall f b fs g, lookup f fs = Some g -> lookup f (sr f b fs) = Some (mkFile (f_write g) b (f_reader g)).
Proof.
  induction fs as [|[i h] fs IH]; intros g H; cbn in *; [discriminate|]. destruct (i =? f) eqn:E; cbn; rewrite E; [injection H as ->; reflexivity|].
  apply IH. exact H.
Qed.
Lemma sr_back : forall f b m fs w, option_map (fun g => (f_write g, f_raw g)) (lookup f fs) = Some (w, m) -> sr f m (sr f b fs) = fs.
Proof.
  induction fs as [|[i h] fs IH]; intros w H; cbn in *; [discriminate|]. destruct (i =? f) eqn:E; cbn; rewrite E.
  - cbn in H. injection H as _ <-. destruct h; reflexivity.
  - rewrite (IH w H). reflexivity.
Qed.
Lemma sr_fix_up : forall l o n z f b fs, fix_up_files l o n z (sr f b fs) =
  match fix_up_files l o n z fs with Ok fs' => Ok (sr f b fs') | Bug e => Bug e end.
Proof.
  induction fs as [|[i h] fs IH]; [reflexivity|]. cbn [sr fix_up_files]. destruct (i =? f) eqn:E.
  - destruct h as [hw hm hr]. cbn [fix_up_files f_reader f_write f_raw]. destruct hr as [r|].
    + destruct (fix_up_reader l o n z r); [|reflexivity]. cbn [bind]. destruct (fix_up_files l o n z fs); [|reflexivity].
      cbn [bind sr]. rewrite E. reflexivity.
    + cbn [bind]. destruct (fix_up_files l o n z fs); [|reflexivity]. cbn [bind sr]. rewrite E. reflexivity.
  - cbn [fix_up_files]. rewrite IH. destruct (match f_reader h with Some r => _ | None => _ end); [|reflexivity].
    cbn [bind]. destruct (fix_up_files l o n z fs); [|reflexivity]. cbn [bind sr]. rewrite E. reflexivity.
Qed.
Lemma sr_write : forall d f b raw t x y it d' v, ulogger_write_iter d raw t x y it = Ok (d', v) ->
  ulogger_write_iter (mkDev (d_log d) (sr f b (d_files d))) raw t x y it = Ok (mkDev (d_log d') (sr f b (d_files d')), v).
Proof.
  intros d f b raw t x y it d' v H. unfold ulogger_write_iter in *. cbn [d_log d_files].
  destruct (raw && _); [injection H as <- <-; reflexivity|]. cbv zeta in *.
  match type of H with (if ?c then _ else _) = _ => destruct c end; [injection H as <- <-; reflexivity|].
  apply bind_ok in H. destruct H as (d1 & E1 & H).
  apply bind_ok in H. destruct H as ([l2 s1] & E2 & H).
  apply bind_ok in H. destruct H as ([l3 ret] & E3 & H).
  match goal with |- bind ?m _ = _ => assert (Q : m = Ok (mkDev (d_log d1) (sr f b (d_files d1)))) end.
  { unfold fix_up_readers in *. cbn [d_log d_files]. apply bind_ok in E1. destruct E1 as (l' & E1 & E4). rewrite E1. cbn [bind].
    apply bind_ok in E4. destruct E4 as (fs & E4 & E5). injection E5 as <-. rewrite sr_fix_up, E4. reflexivity. }
  rewrite Q. cbn [bind d_log d_files]. rewrite E2. cbn [bind]. rewrite E3. cbn [bind].
  destruct ret; injection H as <- <-; reflexivity.
Qed.
Lemma mode_step : forall d f b raw, attrs d f = Some (true, raw) ->
  step d (mode_op f b) = Ok (mkDev (d_log d) (sr f b (d_files d)), OutVal 0).
Proof.
  intros d f b raw A. unfold attrs in A. unfold mode_op. cbn [step]. destruct (lookup f (d_files d)) as [g|] eqn:El; [|discriminate].
  cbn in A. injection A as A1 A2. cbn [ulogger_ioctl]. rewrite A1. cbn [negb andb].
  rewrite <- (sr_update f b _ g El). destruct b; cbn; rewrite A1; reflexivity.
Qed.
Lemma other_mode : forall d w m raw d' v, attrs d (wa_fid w) = Some (true, m) ->
  ulogger_write_iter d raw (wa_task w) (wa_sec w) (wa_nsec w) (wa_it w) = Ok (d', v) ->
  run d [mode_op (wa_fid w) raw; wop w; mode_op (wa_fid w) m] = Ok (d', [OutVal 0; ret_out v; OutVal 0]).
Proof.
  intros d w m raw d' v A E. cbn [run]. rewrite (mode_step d _ raw m A). cbn [bind].
  assert (A' : attrs d' (wa_fid w) = Some (true, m)) by (rewrite (write_attrs _ _ _ _ _ _ _ _ _ E); exact A).
  assert (B : attrs (mkDev (d_log d) (sr (wa_fid w) raw (d_files d))) (wa_fid w) = Some (true, raw)).
  { unfold attrs in *. cbn [d_files]. destruct (lookup (wa_fid w) (d_files d)) as [g|] eqn:El; [|discriminate]. cbn in A. injection A as A1 A2.
    rewrite (sr_lookup _ raw _ g El). cbn. rewrite A1. reflexivity. }
  assert (B' : attrs (mkDev (d_log d') (sr (wa_fid w) raw (d_files d'))) (wa_fid w) = Some (true, raw)).
  { unfold attrs in *. cbn [d_files]. destruct (lookup (wa_fid w) (d_files d')) as [g|] eqn:El; [|discriminate]. cbn in A'. injection A' as A1 A2.
    rewrite (sr_lookup _ raw _ g El). cbn. rewrite A1. reflexivity. }
  pose proof (sr_write d (wa_fid w) raw _ _ _ _ _ _ _ E) as W.
  assert (S2 : step (mkDev (d_log d) (sr (wa_fid w) raw (d_files d))) (wop w) = Ok (mkDev (d_log d') (sr (wa_fid w) raw (d_files d')), ret_out v)).
  { unfold wop. cbn [step]. unfold attrs in B. destruct (lookup (wa_fid w) (d_files (mkDev (d_log d) (sr (wa_fid w) raw (d_files d))))) as [g|]; [|discriminate].
    cbn in B. injection B as B1 B2. rewrite B1, B2, W. reflexivity. }
  rewrite S2. cbn [bind]. rewrite (mode_step _ _ m raw B'). cbn [bind d_log d_files].
  rewrite (sr_back _ raw m _ true A'). destruct d'. reflexivity.
Qed.

Section Loose.
Variable loose : bool.
Notation done := (LinSpec.done loose).
Notation calls := (LinSpec.calls loose).
Notation explained := (LinSpec.explained loose).

Lemma run_more : forall ops2 ops1 d d1 d2 x1 x2, run d ops1 = Ok (d1, x1) -> run d1 ops2 = Ok (d2, x2) -> run d (ops1 ++ ops2) = Ok (d2, x1 ++ x2).
Proof.
  intros ops2. induction ops1 as [|o ops1 IH]; intros d d1 d2 x1 x2 H1 H2; cbn [run app] in *.
  - injection H1 as <- <-. exact H2.
  - apply bind_ok in H1. destruct H1 as ([d3 y] & E & H1). rewrite E. cbn [bind].
    apply bind_ok in H1. destruct H1 as ([d4 ys] & E' & H1). injection H1 as -> <-.
    rewrite (IH _ _ _ _ _ E' H2). reflexivity.
Qed.

(** What a task has done of its call when it is at a statement. *)
Definition part (p : pc) (c : call) (l : list (op * out)) : Prop :=
  match p with
  | Idle => False
  | RLock a | RPrep a | RTest a | RSched a => c = CRead a /\ waiting a l
  | RUnlock a e | RDecide a e => c = CRead a /\ exists l', waiting a l' /\
      l = l' ++ [(check a, if e then if ra_nb a then OutErr EAGAIN else OutSleep else OutCont)]
  | RFinish a ret => c = CRead a /\ exists l', waiting a l' /\
      ((ret = 0 /\ l = l' ++ [(check a, OutCont)]) \/
       (ret = - EAGAIN /\ ra_nb a = true /\ l = l' ++ [(check a, OutErr EAGAIN)]) \/
       (ret = - EINTR /\ ra_nb a = false /\ l = l' ++ [(check a, OutSleep)]))
  | RLock2 a | RBody a => c = CRead a /\ exists l', waiting a l' /\ l = l' ++ [(check a, OutCont)]
  | RUnlock2 a x => c = CRead a /\ exists l', waiting a l' /\ l = l' ++ [(check a, OutCont); (body a, x)]
  | WStart w | WLock w _ | WBody w _ => c = CWrite w /\ l = []
  | WUnlock v | WWake v => exists w, c = CWrite w /\ (l = [(wop w, ret_out v)] \/ loose = true /\ exists m m',
      l = [(mode_op (wa_fid w) m, OutVal 0); (wop w, ret_out v); (mode_op (wa_fid w) m', OutVal 0)])
  | PReg f u | PLock f u | PBody f u | PSet f u | PChk f u | PSched f u | PWoke f u =>
      c = CPoll f u /\ polling f u l
  | PUnlock f u b | PDecide f u b => c = CPoll f u /\ exists l', polling f u l' /\ l = l' ++ [(OpPoll f u, OutPoll b)]
  | PFree x => exists f u l', c = CPoll f u /\ polling f u l' /\
      ((x = OutPoll true /\ l = l' ++ [(OpPoll f u, OutPoll true)]) \/
       (x = OutErr EINTR /\ l = l' ++ [(OpPoll f u, OutPoll false)]))
  | OLock o | OBody o => c = COther o /\ l = []
  | OUnlock x => exists o, c = COther o /\ l = [(o, x)]
  end.

Definition loc (t : nat) (p : pc) (w : list label) : Prop :=
  exists tr0, calls t tr0 /\
  ((p = Idle /\ w = tr0) \/ exists c l, w = tr0 ++ Inv t c :: map (eff t) l /\ part p c l).

Lemma loc_inv : forall t w p c, loc t Idle w -> part p c [] -> loc t p (w ++ [Inv t c]).
Proof.
  intros t w p c (tr0 & Hc & [[_ ->]|(c' & l & _ & [])]) Hp. exists tr0. split; [exact Hc|].
  right. exists c, []. auto.
Qed.
Lemma loc_refuse : forall t w c, loc t Idle w -> loc t Idle (w ++ [Inv t c; Res t OutNoFile]).
Proof.
  intros t w c (tr0 & Hc & [[_ ->]|(c' & l & _ & [])]). eexists. split; [|left; split; [reflexivity|reflexivity]].
  apply (calls_next _ t tr0 c [] OutNoFile Hc). constructor.
Qed.
Lemma loc_move : forall t w p p', loc t p w -> p <> Idle -> (forall c l, part p c l -> part p' c l) -> loc t p' w.
Proof.
  intros t w p p' (tr0 & Hc & [[E _]|(c & l & E & Hp)]) N H; [contradiction|].
  exists tr0. split; [exact Hc|]. right. exists c, l. auto.
Qed.
Lemma loc_eff : forall t w p p' o x, loc t p w -> p <> Idle ->
  (forall c l, part p c l -> part p' c (l ++ [(o, x)])) -> loc t p' (w ++ [Eff t o x]).
Proof.
  intros t w p p' o x (tr0 & Hc & [[E _]|(c & l & E & Hp)]) N H; [contradiction|].
  exists tr0. split; [exact Hc|]. right. exists c, (l ++ [(o, x)]). split; [|auto].
  rewrite map_app. cbn [map]. unfold eff at 2. cbn [fst snd]. subst w. rewrite <- app_assoc. reflexivity.
Qed.
Lemma loc_res : forall t w p x, loc t p w -> p <> Idle -> (forall c l, part p c l -> done c l x) ->
  loc t Idle (w ++ [Res t x]).
Proof.
  intros t w p x (tr0 & Hc & [[E _]|(c & l & E & Hp)]) N H; [contradiction|].
  exists (w ++ [Res t x]). split; [|left; auto]. subst w. rewrite <- app_assoc. cbn [app].
  apply calls_next; auto.
Qed.

Lemma loc_explained : forall t p w, loc t p w -> explained t w.
Proof.
  intros t p w (tr0 & Hc & [[_ ->]|(c & l & -> & Hp)]); [left; exact Hc|right].
  assert (Q : exists l' x, done c (l ++ l') x).
  { assert (RD : forall a l', waiting a l' -> exists l1 x, done (CRead a) ((l' ++ [(check a, OutCont)]) ++ l1) x).
    { intros a l' Hw. exists [(body a, OutData [])], (OutData []). rewrite <- app_assoc. cbn [app]. constructor; [exact Hw|discriminate]. }
    assert (RW : forall a l', waiting a l' -> exists l1 x, done (CRead a) (l' ++ l1) x).
    { intros a l' Hw. exists [(check a, OutCont); (body a, OutData [])], (OutData []). constructor; [exact Hw|discriminate]. }
    assert (PW : forall f u l', polling f u l' -> exists l1 x, done (CPoll f u) (l' ++ l1) x).
    { intros f u l' Hw. exists [(OpPoll f u, OutPoll true)], (OutPoll true). constructor; exact Hw. }
    assert (ID : forall x, done c l x -> exists l' x, done c (l ++ l') x).
    { intros x Hx. exists [], x. rewrite app_nil_r. exact Hx. }
    destruct p; cbn [part] in Hp; try contradiction.
    - destruct Hp as (-> & Hw); auto.
    - destruct Hp as (-> & Hw); auto.
    - destruct Hp as (-> & Hw); auto.
    - destruct Hp as (-> & l' & Hw & ->). destruct e; [|auto]. destruct (ra_nb c0) eqn:En; eapply ID; constructor; assumption.
    - destruct Hp as (-> & l' & Hw & ->). destruct e; [|auto]. destruct (ra_nb c0) eqn:En; eapply ID; constructor; assumption.
    - destruct Hp as (-> & Hw); auto.
    - destruct Hp as (-> & l' & Hw & [(_ & ->)|[(_ & En & ->)|(_ & En & ->)]]); [auto|eapply ID; constructor; assumption|eapply ID; constructor; assumption].
    - destruct Hp as (-> & l' & Hw & ->); auto.
    - destruct Hp as (-> & l' & Hw & ->); auto.
    - destruct Hp as (-> & l' & Hw & ->).
      assert (G : x = OutRetry \/ x <> OutRetry) by (destruct x; auto; right; discriminate).
      destruct G as [->|N]; [apply RW; constructor; exact Hw|eapply ID; constructor; assumption].
    - destruct Hp as (-> & ->). eexists [(wop w, OutVal 0)], _. constructor.
    - destruct Hp as (-> & ->). eexists [(wop w, OutVal 0)], _. constructor.
    - destruct Hp as (-> & ->). eexists [(wop w, OutVal 0)], _. constructor.
    - destruct Hp as (w & -> & [->|(Hm & m & m' & ->)]); eapply ID; constructor; exact Hm.
    - destruct Hp as (w & -> & [->|(Hm & m & m' & ->)]); eapply ID; constructor; exact Hm.
    - destruct Hp as (-> & Hw); auto.
    - destruct Hp as (-> & Hw); auto.
    - destruct Hp as (-> & Hw); auto.
    - destruct Hp as (-> & l' & Hw & ->). destruct b; eapply ID; constructor; assumption.
    - destruct Hp as (-> & l' & Hw & ->). destruct b; eapply ID; constructor; assumption.
    - destruct Hp as (-> & Hw); auto.
    - destruct Hp as (-> & Hw); auto.
    - destruct Hp as (-> & Hw); auto.
    - destruct Hp as (-> & Hw); auto.
    - destruct Hp as (f & u & l' & -> & Hw & [(-> & ->)|(-> & ->)]); eapply ID; constructor; assumption.
    - destruct Hp as (-> & ->). eexists [(o, OutVal 0)], _. constructor.
    - destruct Hp as (-> & ->). eexists [(o, OutVal 0)], _. constructor.
    - destruct Hp as (o & -> & ->). eapply ID. constructor. }
  destruct Q as (l' & x & Q). exists tr0, c, l, l', x. auto.
Qed.

(** The file of a write, and the mode read. *)
Definition writer (d : dev) (p : pc) : Prop :=
  match p with
  | WStart w => exists raw, attrs d (wa_fid w) = Some (true, raw)
  | WLock w raw | WBody w raw => exists m, attrs d (wa_fid w) = Some (true, m) /\ (loose = false -> m = raw)
  | _ => True
  end.

Definition LInv (d0 : dev) (s : state) (tr : list label) : Prop :=
  WInv s /\
  (forall t th, nth_error (s_ths s) t = Some th -> writer (s_dev s) (t_pc th) /\ loc t (t_pc th) (filter (of t) tr)) /\
  (forall t, nth_error (s_ths s) t = None -> filter (of t) tr = []) /\
  run d0 (map fst (effs tr)) = Ok (s_dev s, map snd (effs tr)).

Lemma filter_mine : forall t dt, (forall l, In l dt -> who l = t) -> filter (of t) dt = dt.
Proof.
  induction dt as [|x dt IH]; intros H; cbn [filter]; [reflexivity|]. unfold of at 1. rewrite (H x (or_introl eq_refl)), Nat.eqb_refl.
  f_equal. apply IH. intros l Hl. apply H. right. exact Hl.
Qed.
Lemma filter_other : forall t t' dt, t' <> t -> (forall l, In l dt -> who l = t) -> filter (of t') dt = [].
Proof.
  induction dt as [|x dt IH]; intros N H; cbn [filter]; [reflexivity|]. unfold of at 1. rewrite (H x (or_introl eq_refl)).
  destruct (Nat.eqb_spec t t'); [congruence|]. apply IH; auto. intros l Hl. apply H. right. exact Hl.
Qed.

Lemma lin_frame : forall d0 s tr t th s' th' dt, LInv d0 s tr -> WInv s' ->
  nth_error (s_ths s) t = Some th -> nth_error (s_ths s') t = Some th' ->
  (forall t', t' <> t -> option_map t_pc (nth_error (s_ths s') t') = option_map t_pc (nth_error (s_ths s) t')) ->
  (forall l, In l dt -> who l = t) ->
  writer (s_dev s') (t_pc th') -> loc t (t_pc th') (filter (of t) tr ++ dt) ->
  (forall t' y, t' <> t -> nth_error (s_ths s) t' = Some y -> writer (s_dev s) (t_pc y) -> writer (s_dev s') (t_pc y)) ->
  (effs dt = [] /\ s_dev s' = s_dev s \/ (exists o x, effs dt = [(o, x)] /\ step (s_dev s) o = Ok (s_dev s', x)) \/
   run (s_dev s) (map fst (effs dt)) = Ok (s_dev s', map snd (effs dt))) ->
  LInv d0 s' (tr ++ dt).
Proof.
  intros d0 s tr t th s' th' dt (_ & HL & HN & HR) HI Ht Ht' Ho Hd Hw Hl Hk He. split; [exact HI|]. split; [|split].
  - intros u y Hu. rewrite filter_app. destruct (Nat.eq_dec u t) as [->|N].
    + assert (y = th') by congruence. subst y. rewrite (filter_mine t dt Hd). auto.
    + specialize (Ho u N). rewrite Hu in Ho. destruct (nth_error (s_ths s) u) as [z|] eqn:Ez; [|discriminate].
      cbn in Ho. injection Ho as Ho. destruct (HL u z Ez) as [A B]. rewrite (filter_other t u dt N Hd), app_nil_r.
      rewrite Ho. split; [eapply Hk; eassumption|exact B].
  - intros u Hu. destruct (Nat.eq_dec u t) as [->|N]; [congruence|].
    specialize (Ho u N). rewrite Hu in Ho. destruct (nth_error (s_ths s) u) as [z|] eqn:Ez; [discriminate|].
    rewrite filter_app, (filter_other t u dt N Hd), app_nil_r. auto.
  - rewrite effs_app, !map_app. destruct He as [[-> ->]|[(o & x & -> & E)|E]]; cbn [map fst snd].
    + rewrite !app_nil_r. exact HR.
    + eapply run_snoc; eassumption.
    + eapply run_more; eassumption.
Qed.

Lemma put_at : forall {A} (l : list A) t x y, nth_error l t = Some x -> nth_error (put t y l) t = Some y.
Proof. induction l as [|z l IH]; intros [|t] x y H; cbn in *; try discriminate; [reflexivity|]. eapply IH. exact H. Qed.
Lemma put_off : forall {A} (l : list A) t t' y, t' <> t -> nth_error (put t y l) t' = nth_error l t'.
Proof. induction l as [|z l IH]; intros [|t] [|t'] y N; cbn; try reflexivity; try congruence. apply IH. congruence. Qed.

Lemma nores : forall (t : nat) (r : list out), (match r with x :: r' => if Nat.eqb (length r') (length r) then [Res t x] else [] | [] => [] end) = [].
Proof. intros t [|x r]; [reflexivity|]. destruct (Nat.eqb_spec (length r) (length (x :: r))) as [E|]; [cbn in E; lia|reflexivity]. Qed.

Lemma step_wr : forall d o d' x k w m, step d o = Ok (d', x) -> o <> OpClose k ->
  attrs d k = Some (w, m) -> exists m', attrs d' k = Some (w, m').
Proof.
  intros d o d' x k w m H Nc A.
  assert (D : (exists a b c e, o = OpIoctl k (SetRawMode a b c) e) \/ forall a b c e, o <> OpIoctl k (SetRawMode a b c) e).
  { destruct o as [| | | | | |f cm eu]; try (right; intros; discriminate).
    destruct (Z.eq_dec f k) as [->|N]; [|right; intros; congruence].
    destruct cm; try (right; intros; discriminate). left. eauto. }
  destruct D as [(a & b & c & e & ->)|D]; [|exists m; eapply step_attrs; eassumption].
  cbn [step] in H. unfold attrs in *. destruct (lookup k (d_files d)) as [g|] eqn:El; [|discriminate A].
  cbn [option_map] in A. injection A as A1 A2. cbn [ulogger_ioctl] in H.
  assert (Q : exists g', f_write g' = w /\ d_files d' = update k g' (d_files d)).
  { destruct (negb (f_write g)); [cbn [bind] in H; injection H as <- _; exists g; auto|].
    destruct (b && negb c); [cbn [bind] in H; injection H as <- _; exists g; auto|].
    destruct a as [z|]; [|cbn [bind] in H; injection H as <- _; exists g; auto].
    destruct (_ && _); cbn [bind] in H; injection H as <- _; [exists g; auto|].
    eexists. split; [|reflexivity]. exact A1. }
  destruct Q as (g' & Q1 & Q2). rewrite Q2, lookup_upd, Z.eqb_refl, El. cbn [option_map]. rewrite Q1. eauto.
Qed.

Lemma lin_put : forall d0 s tr t th s' th' dt, LInv d0 s tr -> WInv s' -> nth_error (s_ths s) t = Some th ->
  s_dev s' = s_dev s -> s_ths s' = put t th' (s_ths s) ->
  (forall l, In l dt -> who l = t) -> effs dt = [] ->
  writer (s_dev s) (t_pc th') -> loc t (t_pc th') (filter (of t) tr ++ dt) -> LInv d0 s' (tr ++ dt).
Proof.
  intros d0 s tr t th s' th' dt HL HI Ht Ed Eths Hd He Hw Hl.
  eapply (lin_frame d0 s tr t th s' th'); try eassumption.
  - rewrite Eths. eapply put_at. exact Ht.
  - intros t' N. rewrite Eths, put_off by exact N. reflexivity.
  - rewrite Ed. exact Hw.
  - rewrite Ed. auto.
  - left. auto.
Qed.

(** Others keep their file over an operation of a task. *)
Lemma others_keep : forall s t th t' y o d' x, WInv s -> (loose = false -> calm_state s) -> nth_error (s_ths s) t = Some th ->
  (forall f, o = OpClose f -> closes (t_pc th) = Some f) ->
  (forall f a b c e, o = OpIoctl f (SetRawMode a b c) e -> sets_raw (t_pc th) f) ->
  step (s_dev s) o = Ok (d', x) -> nth_error (s_ths s) t' = Some y ->
  writer (s_dev s) (t_pc y) -> writer d' (t_pc y).
Proof.
  intros s t th t' y o d' x HI HC Ht Hc Hr Es Hy Hw. destruct HI as (a & _ & _ & _ & _ & HE).
  assert (NC : forall f, uses (t_pc y) = Some f -> o <> OpClose f).
  { intros f Hu E. apply (HE t t' th y f Ht Hy (Hc f E)). exact Hu. }
  assert (NR : loose = false -> forall f, mid_write (t_pc y) f -> forall a b c e, o <> OpIoctl f (SetRawMode a b c) e).
  { intros Hs f Hm a' b c e E. apply (HC Hs t t' th y f Ht Hy (Hr f a' b c e E)). exact Hm. }
  destruct (t_pc y); try exact I; cbn [writer uses mid_write] in *.
  - destruct Hw as (raw & Hw). eapply step_wr; [exact Es|apply NC; reflexivity|exact Hw].
  - destruct Hw as (m & Hw & Hm). destruct (step_wr _ _ _ _ _ _ _ Es (NC _ eq_refl) Hw) as (m' & Hw'). exists m'. split; [exact Hw'|].
    intros Hs. rewrite <- (Hm Hs). pose proof (step_attrs _ _ _ _ _ _ Es (NC _ eq_refl) (NR Hs _ eq_refl) Hw). congruence.
  - destruct Hw as (m & Hw & Hm). destruct (step_wr _ _ _ _ _ _ _ Es (NC _ eq_refl) Hw) as (m' & Hw'). exists m'. split; [exact Hw'|].
    intros Hs. rewrite <- (Hm Hs). pose proof (step_attrs _ _ _ _ _ _ Es (NC _ eq_refl) (NR Hs _ eq_refl) Hw). congruence.
Qed.

(** The same over a write in any mode. *)
Lemma others_keep_write : forall s y d' raw t x z it v, ulogger_write_iter (s_dev s) raw t x z it = Ok (d', v) ->
  writer (s_dev s) (t_pc y) -> writer d' (t_pc y).
Proof.
  intros s y d' raw t x z it v E Hw. destruct (t_pc y); try exact I; cbn [writer] in *; rewrite (write_attrs _ _ _ _ _ _ _ _ _ E); exact Hw.
Qed.

Lemma lin_dev : forall d0 s tr t th s' th' o x, LInv d0 s tr -> WInv s' -> (loose = false -> calm_state s) -> nth_error (s_ths s) t = Some th ->
  s_ths s' = put t th' (s_ths s) -> step (s_dev s) o = Ok (s_dev s', x) ->
  (forall f, o = OpClose f -> closes (t_pc th) = Some f) ->
  (forall f a b c e, o = OpIoctl f (SetRawMode a b c) e -> sets_raw (t_pc th) f) ->
  (match t_pc th' with WStart _ | WLock _ _ | WBody _ _ => False | _ => True end) ->
  loc t (t_pc th') (filter (of t) tr ++ [Eff t o x]) -> LInv d0 s' (tr ++ [Eff t o x]).
Proof.
  intros d0 s tr t th s' th' o x HL HI HC Ht Eths Es Hc Hr Hp Hl.
  eapply (lin_frame d0 s tr t th s' th'); try eassumption.
  - rewrite Eths. eapply put_at. exact Ht.
  - intros t' N. rewrite Eths, put_off by exact N. reflexivity.
  - intros l [<-|[]]. reflexivity.
  - destruct (t_pc th'); try exact I; contradiction.
  - intros t' y _ Hy Hw. destruct HL as (HI0 & _). exact (others_keep s t th t' y o _ x HI0 HC Ht Hc Hr Es Hy Hw).
  - right. left. exists o, x. auto.
Qed.

Lemma null_write : forall d raw t x y it, write_locks raw t it = false ->
  exists v, ulogger_write_iter d raw t x y it = Ok (d, v).
Proof.
  intros d raw t x y it H. unfold write_locks in H. unfold ulogger_write_iter.
  destruct (raw && _); [eauto|]. cbn [negb andb] in H. cbv zeta in *. apply negb_false_iff in H. rewrite H. eauto.
Qed.

Lemma writer_step : forall d w raw d' v, attrs d (wa_fid w) = Some (true, raw) ->
  ulogger_write_iter d raw (wa_task w) (wa_sec w) (wa_nsec w) (wa_it w) = Ok (d', v) ->
  step d (wop w) = Ok (d', ret_out v).
Proof.
  intros d w raw d' v A E. unfold wop. cbn [step]. unfold attrs in A.
  destruct (lookup (wa_fid w) (d_files d)) as [f|]; [|discriminate]. cbn in A. injection A as A1 A2.
  rewrite A1, A2, E. reflexivity.
Qed.

Ltac ev := unfold event; cbn [s_ths]; repeat match goal with H : nth_error _ _ = Some _ |- _ => rewrite H end;
  erewrite put_at by eassumption; cbn [t_pc t_rets set_pc set_run set_trig ret_user]; rewrite ?nores, ?Nat.eqb_refl; cbn [app].
Ltac mine := intros ? Hin; cbn in Hin; intuition (subst; reflexivity).

Lemma lin_go : forall d0 s tr t th s', LInv d0 s tr -> (loose = false -> calm_state s) -> nth_error (s_ths s) t = Some th ->
  go s t th = Ok s' -> exists dt, LInv d0 s' (tr ++ dt) /\ filter seen dt = event s (t, Go) s'.
Proof.
  intros d0 s tr t th s' HL HC Ht Hg. pose proof HL as (HI & HT & _ & HR).
  destruct (go_inv s t th HI Ht) as (s1 & E1 & HI'). assert (s1 = s') by congruence. subst s1. clear E1.
  destruct (HT t th Ht) as [Hw Hl].
  assert (STAY : s' = s -> exists dt, LInv d0 s' (tr ++ dt) /\ filter seen dt = event s (t, Go) s').
  { intros ->. exists []. rewrite app_nil_r. split; [exact HL|]. unfold event. rewrite Ht. rewrite nores. reflexivity. }
  assert (MOVE : forall th', s_dev s' = s_dev s -> s_ths s' = put t th' (s_ths s) -> t_rets th' = t_rets th ->
    t_pc th <> Idle -> writer (s_dev s) (t_pc th') -> (forall c l, part (t_pc th) c l -> part (t_pc th') c l) ->
    exists dt, LInv d0 s' (tr ++ dt) /\ filter seen dt = event s (t, Go) s').
  { intros th' Ed Eths Er Np Hw' Hp. exists []. split.
    - eapply (lin_put d0 s tr t th s' th'); try eassumption; [mine|reflexivity|]. rewrite app_nil_r. eapply loc_move; eassumption.
    - unfold event. rewrite Ht, Eths. erewrite put_at by eassumption. rewrite Er, nores. reflexivity. }
  assert (RET : forall th' x, s_dev s' = s_dev s -> s_ths s' = put t th' (s_ths s) -> t_rets th' = x :: t_rets th ->
    t_pc th <> Idle -> t_pc th' = Idle -> (forall c l, part (t_pc th) c l -> done c l x) ->
    exists dt, LInv d0 s' (tr ++ dt) /\ filter seen dt = event s (t, Go) s').
  { intros th' x Ed Eths Er Np Ei Hp. exists [Res t x]. split.
    - eapply (lin_put d0 s tr t th s' th'); try eassumption; [mine|reflexivity|rewrite Ei; exact I|]. rewrite Ei.
      eapply loc_res; eassumption.
    - unfold event. rewrite Ht, Eths. erewrite put_at by eassumption. rewrite Er, Nat.eqb_refl. reflexivity. }
  assert (EFF : forall th' o x, step (s_dev s) o = Ok (s_dev s', x) -> s_ths s' = put t th' (s_ths s) -> t_rets th' = t_rets th ->
    t_pc th <> Idle -> (match t_pc th' with WStart _ | WLock _ _ | WBody _ _ => False | _ => True end) ->
    (forall f, o = OpClose f -> closes (t_pc th) = Some f) ->
    (forall f a b c e, o = OpIoctl f (SetRawMode a b c) e -> sets_raw (t_pc th) f) ->
    (forall c l, part (t_pc th) c l -> part (t_pc th') c (l ++ [(o, x)])) ->
    exists dt, LInv d0 s' (tr ++ dt) /\ filter seen dt = event s (t, Go) s').
  { intros th' o x Es Eths Er Np Hn Hc Hr Hp. exists [Eff t o x]. split.
    - eapply (lin_dev d0 s tr t th s' th'); try eassumption. eapply loc_eff; eassumption.
    - unfold event. rewrite Ht, Eths. erewrite put_at by eassumption. rewrite Er, nores. reflexivity. }
  assert (LOCK : forall p, s' = lock s t th p -> t_pc th <> Idle -> writer (s_dev s) p ->
    (forall c l, part (t_pc th) c l -> part p c l) ->
    exists dt, LInv d0 s' (tr ++ dt) /\ filter seen dt = event s (t, Go) s').
  { intros p El Np Hw' Hp. unfold lock in El. destruct (s_mx s); [apply STAY; exact El|].
    eapply (MOVE (set_run (set_pc th p) true)); try (rewrite El; reflexivity); try reflexivity; try exact I; assumption. }
  unfold go in Hg. destruct (t_pc th) as [| c | c | c | c e | c e | c | c ret | c | c | c x
    | w | w raw | w raw | v | v | f u | f u | f u | f u b | f u b | f u | f u | f u | f u | x | o | o | x] eqn:Ep.
  - apply STAY. congruence.
  - injection Hg as Hg. eapply LOCK; [symmetry; exact Hg|discriminate|exact I|]. cbn [part]. auto.
  - injection Hg as <-. eapply MOVE; try reflexivity; try exact I; [discriminate|]. cbn [part set_run set_pc t_pc]. auto.
  - destruct (the_reader (s_dev s) (ra_fid c)) as [r|] eqn:Er; [|discriminate]. injection Hg as <-.
    unfold the_reader in Er. destruct (lookup (ra_fid c) (d_files (s_dev s))) as [[gw gm gr]|] eqn:El; [|discriminate]. cbn [f_reader] in Er. subst gr.
    eapply (EFF _ (check c) (if w_off (d_log (s_dev s)) =? r_off r then if ra_nb c then OutErr EAGAIN else OutSleep else OutCont));
      try reflexivity; try exact I; try discriminate.
    + cbn [goto s_dev check step]. rewrite El. unfold ulogger_read_check. destruct (w_off (d_log (s_dev s)) =? r_off r); [|reflexivity].
      cbn [negb]. destruct (ra_nb c); reflexivity.
    + intros c' l (-> & Hwt). split; [reflexivity|]. exists l. auto.
  - injection Hg as <-. eapply MOVE; try reflexivity; try exact I; [discriminate|]. cbn [part set_run set_pc t_pc]. auto.
  - destruct e; cbn [negb] in Hg.
    + destruct (ra_nb c) eqn:En; [|destruct (t_sig th)]; injection Hg as <-;
        (eapply MOVE; try reflexivity; try exact I; [discriminate|]); intros c' l (-> & l' & Hwt & ->); rewrite En; cbn [part set_pc t_pc].
      * split; [reflexivity|]. exists l'. auto 10.
      * split; [reflexivity|]. exists l'. auto 10.
      * split; [reflexivity|]. constructor; assumption.
    + injection Hg as <-. (eapply MOVE; try reflexivity; try exact I; [discriminate|]).
      intros c' l (-> & l' & Hwt & ->). split; [reflexivity|]. exists l'. auto.
  - destruct (t_run th); [|apply STAY; congruence]. injection Hg as <-. eapply MOVE; try reflexivity; try exact I; [discriminate|]. cbn [part set_run set_pc t_pc]. auto.
  - injection Hg as <-. destruct (ret =? 0) eqn:E0.
    + eapply MOVE; try reflexivity; try exact I; [discriminate|]. cbn [part set_run set_pc t_pc].
      intros c' l (-> & l' & Hwt & [(_ & ->)|[(E & _)|(E & _)]]); [|unfold EAGAIN in E; lia|unfold EINTR in E; lia]. eauto.
    + eapply (RET _ (OutErr (- ret))); try reflexivity; try exact I; [discriminate|].
      intros c' l (-> & l' & Hwt & [(E & _)|[(E & En & ->)|(E & En & ->)]]); [lia| |];
        subst ret; rewrite Z.opp_involutive; constructor; assumption.
  - injection Hg as Hg. eapply LOCK; [symmetry; exact Hg|discriminate|exact I|]. cbn [part]. auto.
  - apply bind_ok in Hg. destruct Hg as ([d' x] & Es & Hg). injection Hg as <-.
    eapply (EFF _ (body c) x); try reflexivity; try exact I; try discriminate; [exact Es|].
    intros c' l (-> & l' & Hwt & ->). split; [reflexivity|]. exists l'. rewrite <- app_assoc. auto.
  - injection Hg as <-.
    assert (G : x = OutRetry \/ x <> OutRetry) by (destruct x; auto; right; discriminate).
    destruct G as [->|N].
    + eapply MOVE; try reflexivity; try exact I; [discriminate|]. intros c' l (-> & l' & Hwt & ->). split; [reflexivity|]. constructor; assumption.
    + eapply (RET (ret_user th x) x); try reflexivity; try exact I; [destruct x; try reflexivity; try exact I; contradiction|discriminate|].
      intros c' l (-> & l' & Hwt & ->). constructor; assumption.
  - destruct Hw as (raw & Ha). pose proof Ha as Ha'. unfold attrs in Ha.
    destruct (lookup (wa_fid w) (d_files (s_dev s))) as [g|] eqn:El; [|discriminate]. cbn in Ha. injection Ha as A1 A2. rewrite A2 in Hg.
    destruct (write_locks raw (wa_task w) (wa_it w)) eqn:Ew.
    + injection Hg as <-. eapply MOVE; try reflexivity; try exact I; [discriminate|exists raw; split; [exact Ha'|reflexivity]|]. cbn [part set_pc t_pc]. auto.
    + destruct (null_write (s_dev s) raw (wa_task w) (wa_sec w) (wa_nsec w) (wa_it w) Ew) as (v & Ev). rewrite Ev in Hg.
      cbn [bind] in Hg. injection Hg as <-. exists [Eff t (wop w) (ret_out v); Res t (ret_out v)]. split.
      * eapply (lin_frame d0 s tr t th); try eassumption; cbn [leave_user s_ths s_dev].
        -- eapply put_at. exact Ht.
        -- intros t' N. rewrite put_off by exact N. reflexivity.
        -- mine.
        -- exact I.
        -- cbn [ret_user t_pc]. change [Eff t (wop w) (ret_out v); Res t (ret_out v)] with ([Eff t (wop w) (ret_out v)] ++ [Res t (ret_out v)]).
           rewrite app_assoc. eapply (loc_res t _ (WUnlock v)); [|discriminate|].
           ++ eapply loc_eff; [exact Hl|discriminate|]. intros c l (-> & ->). exists w. auto.
           ++ intros c l (w' & -> & [->|(Hm & m & m' & ->)]); constructor; exact Hm.
        -- auto.
        -- right. left. eexists _, _. split; [reflexivity|]. eapply writer_step; eassumption.
      * unfold leave_user. ev. reflexivity.
  - injection Hg as Hg. eapply LOCK; [symmetry; exact Hg|discriminate|exact Hw|]. cbn [part]. auto.
  - apply bind_ok in Hg. destruct Hg as ([d' v] & Es & Hg). injection Hg as <-.
    destruct Hw as (m & Ha & Hm). destruct (Bool.bool_dec m raw) as [->|Nm].
    + eapply (EFF _ (wop w) (ret_out v)); try reflexivity; try exact I; try discriminate; [eapply writer_step; eassumption|].
      intros c' l (-> & ->). exists w. auto.
    + assert (Hs : loose = true) by (destruct loose; [reflexivity|exfalso; apply Nm, Hm; reflexivity]).
      exists [Eff t (mode_op (wa_fid w) raw) (OutVal 0); Eff t (wop w) (ret_out v); Eff t (mode_op (wa_fid w) m) (OutVal 0)]. split.
      * eapply (lin_frame d0 s tr t th); try eassumption; cbn [s_ths s_dev].
        -- eapply put_at. exact Ht.
        -- intros t' N. rewrite put_off by exact N. reflexivity.
        -- mine.
        -- exact I.
        -- change [Eff t (mode_op (wa_fid w) raw) (OutVal 0); Eff t (wop w) (ret_out v); Eff t (mode_op (wa_fid w) m) (OutVal 0)] with
             (map (eff t) [(mode_op (wa_fid w) raw, OutVal 0); (wop w, ret_out v); (mode_op (wa_fid w) m, OutVal 0)]).
           destruct Hl as (tr0 & Hc & [[E0 _]|(c & l & E0 & Hp)]); [discriminate|]. destruct Hp as (-> & ->). cbn [map] in E0.
           exists tr0. split; [exact Hc|]. right. eexists _, _. rewrite E0, <- app_assoc. cbn [app]. split; [reflexivity|].
           exists w. split; [reflexivity|]. right. split; [exact Hs|]. eauto.
        -- intros t' y _ _ Hy. eapply others_keep_write; eassumption.
        -- right. right. cbn [effs flat_map app map fst snd]. apply other_mode; assumption.
      * ev. reflexivity.
  - injection Hg as <-. destruct (v <? 0).
    + eapply (RET _ (ret_out v)); try reflexivity; try exact I; [discriminate|]. intros c l (w & -> & [->|(Hm & m & m' & ->)]); constructor; exact Hm.
    + eapply MOVE; try reflexivity; try exact I; [discriminate|]. cbn [part set_run set_pc t_pc]. auto.
  - injection Hg as <-. exists [Res t (ret_out v)].
    assert (P : nth_error (wake_all (s_wq s) 0 (s_ths s)) t = Some (wake_one (s_wq s) t th)).
    { rewrite nth_wake, Ht. reflexivity. }
    split.
    + eapply (lin_frame d0 s tr t th); try eassumption; cbn [s_ths s_dev].
      * eapply put_at. exact P.
      * intros t' N. rewrite put_off by exact N. rewrite nth_wake. destruct (nth_error (s_ths s) t'); cbn; [|reflexivity].
        rewrite wake_one_pc. reflexivity.
      * mine.
      * exact I.
      * eapply loc_res; [exact Hl|discriminate|]. intros c l (w & -> & [->|(Hm & m & m' & ->)]); constructor; exact Hm.
      * auto.
      * left. auto.
    + unfold event. cbn [s_ths]. rewrite Ht. erewrite put_at by exact P. cbn [ret_user t_rets]. rewrite Nat.eqb_refl. reflexivity.
  - injection Hg as <-. eapply MOVE; try reflexivity; try exact I; [discriminate|]. cbn [part set_run set_trig set_pc t_pc]. auto.
  - injection Hg as Hg. eapply LOCK; [symmetry; exact Hg|discriminate|exact I|]. cbn [part]. auto.
  - apply bind_ok in Hg. destruct Hg as ([d' x] & Es & Hg). destruct x; try discriminate Hg. injection Hg as <-.
    eapply (EFF _ (OpPoll f u) _); try reflexivity; try exact I; try discriminate; [exact Es|].
    intros c' l (-> & Hwt). split; [reflexivity|]. exists l. auto.
  - injection Hg as <-. eapply MOVE; try reflexivity; try exact I; [discriminate|]. cbn [part set_run set_pc t_pc]. auto.
  - destruct b; [|destruct (t_sig th)]; injection Hg as <-; (eapply MOVE; try reflexivity; try exact I; [discriminate|]);
      intros c l (-> & l' & Hwt & ->); cbn [part set_pc t_pc].
    + exists f, u, l'. auto.
    + exists f, u, l'. auto.
    + split; [reflexivity|]. constructor. exact Hwt.
  - injection Hg as <-. eapply MOVE; try reflexivity; try exact I; [discriminate|]. cbn [part set_run set_pc t_pc]. auto.
  - injection Hg as <-. destruct (t_trig th); (eapply MOVE; try reflexivity; try exact I; [discriminate|]); cbn [part set_run set_pc t_pc]; auto.
  - destruct (t_run th); [|apply STAY; congruence]. injection Hg as <-. eapply MOVE; try reflexivity; try exact I; [discriminate|]. cbn [part set_run set_pc t_pc]. auto.
  - injection Hg as <-. eapply MOVE; try reflexivity; try exact I; [discriminate|]. cbn [part set_run set_trig set_pc t_pc]. auto.
  - injection Hg as <-. eapply (RET _ x); try reflexivity; try exact I; [discriminate|].
    intros c l (f & u & l' & -> & Hwt & [(-> & ->)|(-> & ->)]); constructor; assumption.
  - injection Hg as Hg. eapply LOCK; [symmetry; exact Hg|discriminate|exact I|]. cbn [part]. auto.
  - apply bind_ok in Hg. destruct Hg as ([d' x] & Es & Hg). injection Hg as <-.
    eapply (EFF _ o x); try reflexivity; try exact I; try discriminate; [exact Es| | |].
    + intros f ->. reflexivity.
    + intros f a b c e ->. reflexivity.
    + intros c' l (-> & ->). exists o. auto.
  - injection Hg as <-. eapply (RET _ x); try reflexivity; try exact I; [discriminate|]. intros c l (o & -> & ->). constructor.
Qed.

Lemma lin_start : forall d0 s tr t th c, LInv d0 s tr -> nth_error (s_ths s) t = Some th -> t_pc th = Idle ->
  user_event (t, Call c) ->
  exists dt, LInv d0 (mkS (s_dev s) (s_mx s) (s_wq s) (put t (start s th c) (s_ths s))) (tr ++ dt) /\
    filter seen dt = event s (t, Call c) (mkS (s_dev s) (s_mx s) (s_wq s) (put t (start s th c) (s_ths s))).
Proof.
  intros d0 s tr t th c HL Ht Ep Hu. pose proof HL as (HI & HT & _ & _).
  pose proof (start_inv s t th c HI Ht Ep Hu) as HI'.
  destruct (HT t th Ht) as [_ Hl]. rewrite Ep in Hl.
  assert (REF : entry_point c = true -> start s th c = ret_user th OutNoFile ->
    exists dt, LInv d0 (mkS (s_dev s) (s_mx s) (s_wq s) (put t (start s th c) (s_ths s))) (tr ++ dt) /\
    filter seen dt = event s (t, Call c) (mkS (s_dev s) (s_mx s) (s_wq s) (put t (start s th c) (s_ths s)))).
  { intros Ec Es. rewrite Es in *. exists [Inv t c; Res t OutNoFile]. split.
    - eapply (lin_put d0 s tr t th); try eassumption; try reflexivity; try exact I; [mine|]. apply loc_refuse. exact Hl.
    - ev. rewrite Ep, Ec. reflexivity. }
  assert (GO : forall p, entry_point c = true -> start s th c = set_pc th p -> writer (s_dev s) p -> part p c [] ->
    exists dt, LInv d0 (mkS (s_dev s) (s_mx s) (s_wq s) (put t (start s th c) (s_ths s))) (tr ++ dt) /\
    filter seen dt = event s (t, Call c) (mkS (s_dev s) (s_mx s) (s_wq s) (put t (start s th c) (s_ths s)))).
  { intros p Ec Es Hw Hp. rewrite Es in *. exists [Inv t c]. split.
    - eapply (lin_put d0 s tr t th); try eassumption; try reflexivity; try exact I; [mine|exact Hw|]. apply loc_inv; [exact Hl|exact Hp].
    - ev. rewrite Ep, Ec. reflexivity. }
  assert (SAME : entry_point c = false -> start s th c = th ->
    exists dt, LInv d0 (mkS (s_dev s) (s_mx s) (s_wq s) (put t (start s th c) (s_ths s))) (tr ++ dt) /\
    filter seen dt = event s (t, Call c) (mkS (s_dev s) (s_mx s) (s_wq s) (put t (start s th c) (s_ths s)))).
  { intros Ec Es. rewrite Es in *. exists []. split.
    - eapply (lin_put d0 s tr t th); try eassumption; try reflexivity; try exact I; [mine|rewrite Ep; exact I|]. rewrite app_nil_r, Ep. exact Hl.
    - ev. rewrite Ep, Ec. reflexivity. }
  destruct c as [c|w|f u|o].
  - cbn [start] in *. destruct (the_reader (s_dev s) (ra_fid c)); [|apply REF; reflexivity].
    destruct (closing s (ra_fid c)); [apply REF; reflexivity|]. eapply GO; try reflexivity; try exact I. cbn. split; [reflexivity|constructor].
  - cbn [start] in *. destruct (lookup (wa_fid w) (d_files (s_dev s))) as [g|] eqn:El; [|apply REF; reflexivity].
    destruct (f_write g && negb (closing s (wa_fid w))) eqn:Eb; [|apply REF; reflexivity].
    apply andb_true_iff in Eb. destruct Eb as [Eb _].
    eapply GO; try reflexivity; try exact I; [|cbn; auto]. exists (f_raw g). unfold attrs. rewrite El. cbn. rewrite Eb. reflexivity.
  - cbn [start] in *. destruct (the_reader (s_dev s) f); [|apply REF; reflexivity].
    destruct (closing s f); [apply REF; reflexivity|]. eapply GO; try reflexivity; try exact I. cbn. split; [reflexivity|constructor].
  - destruct o as [f rd wr al nm|f|f nb sg|f eu ct vl|f tk x y it|f eu|f cm eu]; try (apply SAME; reflexivity).
    + eapply GO; try reflexivity; try exact I. cbn. auto.
    + cbn [start] in *. destruct (in_use s f || closing s f); [apply REF; reflexivity|]. eapply GO; try reflexivity; try exact I. cbn; auto.
    + cbn [start] in *. destruct (closing s f); [apply REF; reflexivity|]. eapply GO; try reflexivity; try exact I. cbn; auto.
Qed.

Lemma lin_step : forall d0 s tr e s', LInv d0 s tr -> (loose = false -> calm_state s) -> user_event e -> wstep s e = Ok s' ->
  exists dt, LInv d0 s' (tr ++ dt) /\ filter seen dt = event s e s'.
Proof.
  intros d0 s tr [t ac] s' HL HC Hu Hs. pose proof HL as (HI & HT & _ & _).
  destruct (wstep_inv s (t, ac) HI Hu) as (s1 & E1 & HI'). assert (s1 = s') by congruence. subst s1.
  unfold wstep in Hs.
  destruct (nth_error (s_ths s) t) as [th|] eqn:Ht.
  2:{ injection Hs as <-. exists []. rewrite app_nil_r. split; [exact HL|]. unfold event. rewrite Ht. reflexivity. }
  destruct ac as [c| |].
  - destruct (t_pc th) eqn:Ep.
    { injection Hs as <-. apply lin_start; assumption. }
    all: injection Hs as <-; exists []; rewrite app_nil_r; split; [exact HL|]; unfold event; rewrite Ht, Ep, nores; reflexivity.
  - eapply lin_go; eassumption.
  - injection Hs as <-. exists []. split.
    + eapply (lin_put d0 s tr t th); try eassumption; try reflexivity; try exact I; [mine|exact (proj1 (HT t th Ht))|].
      rewrite app_nil_r. exact (proj2 (HT t th Ht)).
    + ev. reflexivity.
Qed.

Lemma lin_run : forall l d0 s tr s', LInv d0 s tr -> (loose = false -> calm s l) -> Forall user_event l -> wrun s l = Ok s' ->
  exists dt, LInv d0 s' (tr ++ dt) /\ filter seen dt = history s l.
Proof.
  induction l as [|e l IH]; intros d0 s tr s' HL HC Hu Hr; cbn [wrun history] in *.
  - injection Hr as <-. exists []. rewrite app_nil_r. auto.
  - apply bind_ok in Hr. destruct Hr as (s1 & E1 & Hr). inversion Hu as [|? ? Hu1 Hu2]; subst.
    destruct (lin_step d0 s tr e s1 HL (fun Hs => HC Hs [] (e :: l) s eq_refl eq_refl) Hu1 E1) as (dt & HL1 & Hf).
    destruct (IH d0 s1 (tr ++ dt) s' HL1) as (dt2 & HL2 & Hf2); try assumption.
    { intros Hs l1 l2 s2 El Ew. apply (HC Hs (e :: l1) l2 s2); [rewrite El; reflexivity|]. cbn [wrun]. rewrite E1. exact Ew. }
    exists (dt ++ dt2). rewrite app_assoc. split; [exact HL2|]. rewrite filter_app, E1, Hf, Hf2. reflexivity.
Qed.

(** Tasks in user space. *)
Lemma lin_start_state : forall s, WInv s -> (forall t th, nth_error (s_ths s) t = Some th -> t_pc th = Idle) ->
  LInv (s_dev s) s [].
Proof.
  intros s HI Hi. split; [exact HI|]. split; [|split; reflexivity].
  intros t th Ht. rewrite (Hi t th Ht). split; [exact I|]. exists []. split; [constructor|]. left. auto.
Qed.

Lemma lin_end : forall d0 s tr t, LInv d0 s tr -> explained t (filter (of t) tr).
Proof.
  intros d0 s tr t (_ & HT & HN & _). destruct (nth_error (s_ths s) t) as [th|] eqn:Ht.
  - eapply loc_explained. apply (HT t th Ht).
  - rewrite (HN t Ht). left. constructor.
Qed.

End Loose.
