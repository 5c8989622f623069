(** Saving the output function, installing another one and restoring the first: C146. *)
From Coq Require Import ZArith String List Bool Lia ZifyBool ZifyNat Arith.
From Verif Require Import Bytes BytesProofs Writer WriterSpec WriterProofs WriterCalls WriterFd PropsWriter RestoreSpec.
Import ListNotations.
Open Scope Z_scope.

(** ** Cutting a run at an event *)
Lemma run_split : forall e sched s s' tra x trb, run e s sched = (s', tra ++ x :: trb) ->
  exists sched1 s1 a1 t o a s2 e1 e2 sched2 b2, run e s sched1 = (s1, a1) /\ step e s1 t o a = (s2, e1 ++ x :: e2) /\
    run e s2 sched2 = (s', b2) /\ tra = a1 ++ e1 /\ trb = e2 ++ b2.
Proof.
  intros e. induction sched as [|((t & o) & a) sched IH]; intros s s' tra x trb H; cbn [run] in H.
  - inversion H as [[H1 H2]]. destruct tra; discriminate.
  - destruct (step e s t o a) as [s1 e1] eqn:E1. destruct (run e s1 sched) as [s2 e2] eqn:E2. inversion H as [[H1 H2]]. subst s2.
    assert (Later : forall l, tra = e1 ++ l -> e2 = l ++ x :: trb -> exists sched1 s1 a1 t o a s2 e1 e2 sched2 b2, run e s sched1 = (s1, a1) /\ step e s1 t o a = (s2, e1 ++ x :: e2) /\
      run e s2 sched2 = (s', b2) /\ tra = a1 ++ e1 /\ trb = e2 ++ b2).
    { intros l Ha Hb. rewrite Hb in E2. destruct (IH s1 s' l x trb E2) as (sc1 & s3 & a3 & t' & o' & a' & s4 & e3 & e4 & sc2 & b2 & A & B & C & D & F).
      exists ((t, o, a) :: sc1), s3, (e1 ++ a3), t', o', a', s4, e3, e4, sc2, b2. cbn [run]. rewrite E1, A.
      split; [reflexivity|]. split; [exact B|]. split; [exact C|]. split; [|exact F]. rewrite Ha, D, app_assoc. reflexivity. }
    apply app_eq_app in H2. destruct H2 as (l & [(Ha & Hb)|(Ha & Hb)]).
    + destruct l as [|y l].
      * cbn in Hb. rewrite app_nil_r in Ha. apply (Later []); [rewrite app_nil_r; congruence|cbn; congruence].
      * cbn in Hb. inversion Hb. subst y. exists [], s, [], t, o, a, s1, tra, l, sched, e2. cbn [run app].
        split; [reflexivity|]. split; [congruence|]. split; [exact E2|]. split; reflexivity.
    + apply (Later l); [exact Ha|exact Hb].
Qed.

Lemma reaches_run : forall e s tr sched s' b, reaches e s tr -> run e s sched = (s', b) -> reaches e s' (tr ++ b).
Proof. intros e s tr sched s' b (l & R) H. exists (l ++ sched). rewrite run_app, R, H. reflexivity. Qed.

(** ** The descriptor stays *)
Definition steady (p : pc) : Prop := match p with DTest | DClose | DFd | DWr => False | _ => True end.
Definition kept (s : state) (fd : Z) : Prop := s_writer s <> Init /\ s_fd s = fd /\ steady (hp s).

Lemma kept_step : forall e s tr t o a s' ev fd, reaches e s tr -> legal (tr ++ ev) -> step e s t o a = (s', ev) -> same_device ev ->
  kept s fd -> kept s' fd.
Proof.
  intros e s tr t o a s' ev fd R Lg H Sd (W & F & St). pose proof (legal_app _ _ Lg) as Lg0.
  pose proof (inv_hst e s tr R t) as Hs. pose proof (b_pc _ _ _ (inv_b e s tr R Lg0) t) as Bt.
  destruct (hp_step e s tr t o a s' ev R H) as [(C & Hp & Hp')|[(C & C' & Hp & Hp')|(C & C' & Hp')]]; unfold kept.
  - rewrite Hp in St. rewrite Hp'. clear Hp Hp' Lg R Lg0.
    cases H; rewrite ?Q, ?upd_same in *; try discriminate C; cbn [hst okpc steady cs] in *; sim; cbn [cs steady];
      try contradiction; try tauto; try (destruct k; cbn [steady cs]; tauto);
      try (exfalso; apply W; tauto).
    + split; [|tauto]. intros ->. exact Bt.
    + exfalso. apply (Sd t n). left. reflexivity.
  - destruct (step_outside e s t o a s' ev C H) as (E1 & E2 & _). rewrite Hp', E1, E2. split; [exact W|]. split; [exact F|].
    clear Hp Hp' Lg R Lg0 E1 E2. cases H; rewrite ?Q, ?upd_same in *; try discriminate C; try discriminate C'; exact I.
  - destruct (step_outside e s t o a s' ev C H) as (E1 & E2 & _). rewrite Hp', E1, E2. auto.
Qed.

Lemma kept_run : forall e sched s tr s' b fd, reaches e s tr -> legal (tr ++ b) -> run e s sched = (s', b) -> same_device b -> kept s fd -> kept s' fd.
Proof.
  intros e. induction sched as [|((t & o) & a) sched IH]; intros s tr s' b fd R Lg H Sd K; cbn [run] in H.
  - inversion H. subst. exact K.
  - destruct (step e s t o a) as [s1 e1] eqn:E1. destruct (run e s1 sched) as [s2 e2] eqn:E2. inversion H as [[H1 H2]]. subst s2 b.
    rewrite app_assoc in Lg.
    apply (IH s1 (tr ++ e1) s' e2 fd); [apply (reaches_step e s tr t o a); assumption|exact Lg|exact E2| |].
    + intros t' n Hin. apply (Sd t' n). apply in_app_iff. right. exact Hin.
    + apply (kept_step e s tr t o a s1 e1 fd); [exact R|apply legal_app in Lg; exact Lg|exact E1| |exact K].
      intros t' n Hin. apply (Sd t' n). apply in_app_iff. left. exact Hin.
Qed.

(** ** The function stays *)
Definition placid (p : pc) : Prop := match p with S2 _ | S1 _ | SUnlock => False | _ => True end.
Definition holds (e : env) (s : state) (w : wr) (fd : Z) : Prop := kept s fd /\ eff e s w /\ placid (hp s).

Lemma quiet_same : forall b, undisturbed b -> same_device b.
Proof. intros b U t n H. apply (U _ H). exact I. Qed.

Lemma holds_step : forall e s tr t o a s' ev w fd, reaches e s tr -> legal (tr ++ ev) -> step e s t o a = (s', ev) -> undisturbed ev ->
  holds e s w fd -> holds e s' w fd /\ s_writer s' = s_writer s /\ s_writer2 s' = s_writer2 s.
Proof.
  intros e s tr t o a s' ev w fd R Lg H U (K & Ef & Pl). pose proof (kept_step e s tr t o a s' ev fd R Lg H (quiet_same _ U) K) as K'.
  assert (G : (s_writer s' = s_writer s /\ s_writer2 s' = s_writer2 s) /\ placid (hp s')).
  2:{ destruct G as ((G1 & G2) & G3). unfold holds, eff in *. rewrite G1, G2. auto. }
  destruct K as (W & _ & St). pose proof (inv_hst e s tr R t) as Hs.
  destruct (hp_step e s tr t o a s' ev R H) as [(C & Hp & Hp')|[(C & C' & Hp & Hp')|(C & C' & Hp')]].
  - rewrite Hp in Pl, St. rewrite Hp'. clear Hp Hp' Lg R K'.
    cases H; rewrite ?Q, ?upd_same in *; try discriminate C; cbn [hst placid steady cs] in *; sim; cbn [cs placid];
      try contradiction; try tauto; try (destruct k; cbn [placid cs]; tauto);
      try (exfalso; apply W; tauto).
  - destruct (step_outside e s t o a s' ev C H) as (E1 & _ & E2 & _). rewrite Hp', E1, E2. split; [auto|].
    clear Hp Hp' Lg R E1 E2 K'. cases H; rewrite ?Q, ?upd_same in *; try discriminate C; try discriminate C'; try exact I.
    exfalso. apply (U (EvSetBegin t w0)); [left; reflexivity|exact I].
  - destruct (step_outside e s t o a s' ev C H) as (E1 & _ & E2 & _). rewrite Hp', E1, E2. auto.
Qed.

(** ** A message being logged *)
Definition place (w : wr) (fd : Z) : dest := match w with User f => DUser f | Kernel => DKernel fd | _ => DNull end.
Definition loud (e : env) (w : wr) : bool := e_stderr e || match w with Stderr _ => true | _ => false end.
Definition servedp (e : env) (s : state) (w : wr) (fd : Z) (m : msg) (dl : list (dest * msg)) (pr : list (list Z)) (p : pc) : Prop :=
  match p with
  | Idle | Crashed => True
  | LRead cols m' => cols = [] /\ m' = m /\ dl = [] /\ pr = []
  | LRun w' cols m' => m' = m /\ dl = [] /\ pr = [] /\
      ((cols = [] /\ w' = s_writer s) \/ (cols = [e_color e] /\ loud e w = true /\ s_writer2 s = Some w'))
  | LPrint cols m' => m' = m /\ dl = [(place w fd, m)] /\
      ((cols = [] /\ zlen pr = (if loud e w && negb (is_binary (m_prio m)) then 1 else 0)) \/
       (cols = [e_color e] /\ loud e w = true /\ pr = []))
  | _ => False
  end.
Definition served (e : env) (s : state) (w : wr) (fd : Z) (t : nat) (m : msg) (tr2 : list event) : Prop :=
  servedp e s w fd m (delivs t tr2) (prints t tr2) (s_th s t).

Lemma served_step : forall e s tr t o a s' ev w fd t' m tr2, reaches e s tr -> legal (tr ++ ev) -> step e s t o a = (s', ev) -> undisturbed ev ->
  no_call t' ev -> holds e s w fd -> served e s w fd t' m tr2 -> served e s' w fd t' m (tr2 ++ ev).
Proof.
  intros e s tr t o a s' ev w fd t' m tr2 R Lg H U N Ho Sv.
  destruct (holds_step e s tr t o a s' ev w fd R Lg H U Ho) as (Ho' & E1 & E2).
  pose proof (legal_app _ _ Lg) as Lg0. pose proof (inv_b e s tr R Lg0) as B.
  unfold served in *. destruct (Nat.eq_dec t' t) as [->|Hn].
  - destruct Ho as ((W & F & _) & Ef & _). pose proof (b_w _ _ _ B) as Bw. pose proof (b_w2 _ _ _ B) as Bw2. clear B Lg Lg0 R Ho' U.
    rewrite delivs_app, prints_app.
    destruct (s_th s t) eqn:P; cbn [servedp] in Sv; try contradiction.
    + (* idle *) unfold step in H. rewrite P in H. destruct o; try (destruct (_ >=? _) in H); inversion H; subst; exfalso; eapply N; left; reflexivity.
    + unfold step in H. rewrite P in H. inversion H; subst. sim. rewrite upd_same. destruct Sv as (-> & -> & -> & ->). cbn. auto 8.
    + (* a function runs *)
      destruct Sv as (-> & -> & -> & Sv). cbn [app].
      assert (L : forall d, d = place w fd -> ev = [EvDeliver t d m] -> s_th s' t = LPrint cols m ->
        (cols = [] /\ loud e w = false) \/ (cols = [e_color e] /\ loud e w = true) ->
        servedp e s' w fd m (delivs t ev) (prints t ev) (s_th s' t)).
      { intros d -> -> A3 A4. rewrite A3. cbn [servedp delivs prints]. rewrite Nat.eqb_refl. split; [reflexivity|]. split; [reflexivity|].
        destruct A4 as [(-> & ->)|(-> & ->)]; [left|right]; auto. }
      destruct Sv as [(-> & ->)|(-> & Lo & W2)].
      * unfold eff in Ef. destruct (e_stderr e) eqn:Es.
        -- destruct Ef as (Ef1 & Ef2). unfold step in H. rewrite P, Ef1, Ef2 in H. inversion H; subst. sim. rewrite upd_same. cbn.
           split; [reflexivity|]. split; [reflexivity|]. split; [reflexivity|]. right. unfold loud. rewrite Es. auto.
        -- assert (X := H). unfold step in X. rewrite P, Ef in X. destruct w as [| | |c|f].
           ++ exfalso. apply W. exact Ef.
           ++ exfalso. rewrite Ef in Bw. destruct Bw as [Bw|Bw]; [discriminate|exact Bw].
           ++ destruct (a_intr a); inversion X; subst.
              ** rewrite P. cbn. rewrite Ef. auto 8.
              ** apply (L (DKernel (s_fd s))); try reflexivity; sim; [apply upd_same|]. left. unfold loud. rewrite Es. auto.
           ++ rewrite Ef in Bw. destruct Bw as [Bw|(-> & Bw)]; [discriminate|]. destruct (s_writer2 s) as [w2|] eqn:W2; [|congruence].
              inversion X; subst. sim. rewrite upd_same. cbn. rewrite W2. split; [reflexivity|]. split; [reflexivity|]. split; [reflexivity|]. right.
              unfold loud. rewrite Bool.orb_true_r. auto.
           ++ inversion X; subst. apply (L (DUser f)); try reflexivity; sim; [apply upd_same|]. left. unfold loud. rewrite Es. auto.
      * destruct (Bw2 _ W2) as (Bb & Bn). unfold eff in Ef.
        assert (Hw : place w0 (s_fd s) = place w fd).
        { destruct (e_stderr e) eqn:Es; [destruct Ef as (_ & Ef); rewrite F; congruence|]. rewrite (Bn eq_refl). unfold loud in Lo. rewrite Es in Lo. destruct w; try discriminate Lo. reflexivity. }
        assert (X := H). unfold step in X. rewrite P in X. destruct w0 as [| | |c|f]; try discriminate Bb.
        -- inversion X; subst. apply (L DNull); try reflexivity; sim; [exact Hw|apply upd_same|]. right. auto.
        -- destruct (a_intr a); inversion X; subst.
           ++ rewrite P. cbn. auto 8.
           ++ apply (L (DKernel (s_fd s))); try reflexivity; sim; [exact Hw|apply upd_same|]. right. auto.
        -- inversion X; subst. apply (L (DUser f)); try reflexivity; sim; [exact Hw|apply upd_same|]. right. auto.
    + destruct Sv as (-> & -> & Sv). unfold step in H. rewrite P in H. destruct Sv as [(-> & Sv)|(-> & Lo & ->)].
      * inversion H; subst. sim. rewrite upd_same. exact I.
      * destruct (is_binary (m_prio m)) eqn:Bi.
        -- inversion H; subst. sim. rewrite upd_same. cbn [servedp delivs prints app]. rewrite Bi, Bool.andb_false_r. auto 8.
        -- destruct (stderr_text (s_replay s) (e_color e) m) as [l|]; inversion H; subst; sim; rewrite upd_same; [|exact I].
           cbn [servedp delivs prints app]. rewrite Nat.eqb_refl, Bi, Lo. cbn. auto 8.
    + unfold step in H. rewrite P in H. inversion H; subst. rewrite P. exact I.
  - rewrite (step_frame _ _ _ _ _ _ _ t' H Hn). destruct (mine_other t t' ev Hn (step_mine _ _ _ _ _ _ _ H)) as (_ & D & Pr).
    rewrite delivs_app, prints_app, D, Pr, !app_nil_r. unfold servedp in *. destruct (s_th s t'); try exact Sv. rewrite E1, E2. exact Sv.
Qed.

Lemma undisturbed_l : forall a b, undisturbed (a ++ b) -> undisturbed a.
Proof. intros a b H. apply undisturbed_app in H. tauto. Qed.
Lemma undisturbed_r : forall a b, undisturbed (a ++ b) -> undisturbed b.
Proof. intros a b H. apply undisturbed_app in H. tauto. Qed.

Lemma holds_run : forall e sched s tr s' b w fd, reaches e s tr -> legal (tr ++ b) -> run e s sched = (s', b) -> undisturbed b ->
  holds e s w fd -> holds e s' w fd.
Proof.
  intros e. induction sched as [|((t & o) & a) sched IH]; intros s tr s' b w fd R Lg H U K; cbn [run] in H.
  - inversion H. subst. exact K.
  - destruct (step e s t o a) as [s1 e1] eqn:E1. destruct (run e s1 sched) as [s2 e2] eqn:E2. inversion H as [[H1 H2]]. subst s2 b.
    rewrite app_assoc in Lg.
    apply (IH s1 (tr ++ e1) s' e2 w fd); [apply (reaches_step e s tr t o a); assumption|exact Lg|exact E2|apply (undisturbed_r _ _ U)|].
    apply (holds_step e s tr t o a s1 e1 w fd); [exact R|apply legal_app in Lg; exact Lg|exact E1|apply (undisturbed_l _ _ U)|exact K].
Qed.

Lemma served_run : forall e sched s tr s' b w fd t m tr2, reaches e s tr -> legal (tr ++ b) -> run e s sched = (s', b) -> undisturbed b ->
  no_call t b -> holds e s w fd -> served e s w fd t m tr2 -> served e s' w fd t m (tr2 ++ b).
Proof.
  intros e. induction sched as [|((t & o) & a) sched IH]; intros s tr s' b w fd t' m tr2 R Lg H U N K Sv; cbn [run] in H.
  - inversion H. subst. rewrite app_nil_r. exact Sv.
  - destruct (step e s t o a) as [s1 e1] eqn:E1. destruct (run e s1 sched) as [s2 e2] eqn:E2. inversion H as [[H1 H2]]. subst s2 b.
    rewrite app_assoc in Lg. pose proof (legal_app _ _ Lg) as Lg1.
    assert (N1 : no_call t' e1) by (intros x Hx; apply (N x); apply in_app_iff; left; exact Hx).
    assert (N2 : no_call t' e2) by (intros x Hx; apply (N x); apply in_app_iff; right; exact Hx).
    rewrite app_assoc.
    apply (IH s1 (tr ++ e1) s' e2 w fd); [apply (reaches_step e s tr t o a); assumption|exact Lg|exact E2|apply (undisturbed_r _ _ U)|exact N2| |].
    + apply (holds_step e s tr t o a s1 e1 w fd); [exact R|exact Lg1|exact E1|apply (undisturbed_l _ _ U)|exact K].
    + apply (served_step e s tr t o a s1 e1 w fd); [exact R|exact Lg1|exact E1|apply (undisturbed_l _ _ U)|exact N1|exact K|exact Sv].
Qed.

(** A message logged while a function holds. *)
Lemma log_while : forall e sched s tr s' b w fd pre t m during post, reaches e s tr -> legal (tr ++ b) -> run e s sched = (s', b) ->
  b = pre ++ EvCall t (WLog m) :: during ++ EvRet t :: post -> undisturbed (pre ++ during) -> no_call t during -> holds e s w fd ->
  delivs t during = [(place w fd, m)] /\ zlen (prints t during) = (if loud e w && negb (is_binary (m_prio m)) then 1 else 0) /\
  exists s2 sched2, reaches e s2 (tr ++ pre ++ EvCall t (WLog m) :: during ++ [EvRet t]) /\ holds e s2 w fd /\ run e s2 sched2 = (s', post).
Proof.
  intros e sched s tr s' b w fd pre t m during post R Lg H -> U N Ho.
  destruct (run_split e sched s s' pre _ _ H) as (sc1 & s1 & a1 & t1 & o1 & an1 & s2 & e1 & e2 & sc2 & b2 & H1 & St & H2 & -> & Eb).
  apply undisturbed_app in U. destruct U as (Up & Ud).
  assert (R1 : reaches e s1 (tr ++ a1)) by (apply (reaches_run e s tr sc1); assumption).
  assert (Ls : legal (tr ++ a1)).
  { apply (legal_app _ (e1 ++ EvCall t (WLog m) :: during ++ EvRet t :: post)). rewrite <- app_assoc. rewrite <- app_assoc in Lg. exact Lg. }
  assert (Ho1 : holds e s1 w fd) by (apply (holds_run e sc1 s tr s1 a1); [exact R|exact Ls|exact H1|apply (undisturbed_l _ _ Up)|exact Ho]).
  pose proof St as St0. origin St. inversion H0. subst o1 t1 m0. rewrite app_nil_r in *. cbn [app] in *. subst b2 s2.
  clear H0 Q. set (s2 := goto s1 t (LRead [] m)) in *.
  assert (R2 : reaches e s2 (tr ++ a1 ++ [EvCall t (WLog m)])).
  { rewrite app_assoc. apply (reaches_step e s1 (tr ++ a1) t (WLog m) an1); assumption. }
  assert (L2 : legal (tr ++ a1 ++ [EvCall t (WLog m)])).
  { apply (legal_app _ (during ++ EvRet t :: post)). repeat (rewrite <- app_assoc; cbn [app]). exact Lg. }
  assert (Ho2 : holds e s2 w fd).
  { apply (holds_step e s1 (tr ++ a1) t (WLog m) an1 s2 [EvCall t (WLog m)]); [exact R1|rewrite <- app_assoc; exact L2|exact St0| |exact Ho1].
    intros x [<-|[]]. intros []. }
  destruct (run_split e sc2 s2 s' during _ _ H2) as (sc3 & s3 & a3 & t3 & o3 & an3 & s4 & e3 & e4 & sc4 & b4 & H3 & St3 & H4 & -> & Eb).
  assert (R3 : reaches e s3 (tr ++ a1 ++ EvCall t (WLog m) :: a3)).
  { change (EvCall t (WLog m) :: a3) with ([EvCall t (WLog m)] ++ a3). rewrite !app_assoc. rewrite <- (app_assoc tr). apply (reaches_run e s2 _ sc3); assumption. }
  assert (L3 : legal ((tr ++ a1 ++ [EvCall t (WLog m)]) ++ a3)).
  { apply (legal_app _ (e3 ++ EvRet t :: post)). repeat (rewrite <- app_assoc; cbn [app]). repeat (rewrite <- app_assoc in Lg; cbn [app] in Lg). exact Lg. }
  assert (N3 : no_call t a3) by (intros x Hx; apply (N x); apply in_app_iff; left; exact Hx).
  assert (Sv : served e s3 w fd t m ([] ++ a3)).
  { apply (served_run e sc3 s2 _ s3 a3 w fd t m [] R2 L3 H3); [apply (undisturbed_l _ _ Ud)|exact N3|exact Ho2|].
    unfold served, s2. sim. rewrite upd_same. cbn. auto. }
  assert (Ho3 : holds e s3 w fd) by (apply (holds_run e sc3 s2 _ s3 a3 w fd R2 L3 H3); [apply (undisturbed_l _ _ Ud)|exact Ho2]).
  pose proof St3 as St4. origin St3.
  - exfalso. injection H0 as X. subst t3. apply (N (WReplay sec nsec)). apply in_app_iff. right. left. reflexivity.
  - injection H0 as X. subst t3. rewrite app_nil_r in *. cbn [app] in *. subst b4 s4. unfold served in Sv. rewrite Q in Sv. cbn [servedp] in Sv.
    destruct Sv as (_ & D & [(_ & Pr)|(Y & _)]); [|discriminate Y]. split; [exact D|]. split; [exact Pr|].
    eexists. exists sc4. split; [|split; [|exact H4]].
    + apply (reaches_step e s3 _ t o3 an3 _ _ R3) in St4. repeat (rewrite <- app_assoc in St4; cbn [app] in St4). exact St4.
    + apply (holds_step e s3 _ t o3 an3 _ _ w fd R3) in St4; [exact (proj1 St4)| | |exact Ho3].
      * apply (legal_app _ post). repeat (rewrite <- app_assoc; cbn [app]). repeat (rewrite <- app_assoc in Lg; cbn [app] in Lg). exact Lg.
      * intros x [<-|[]]. intros [].
Qed.

(** ** C146 *)

(** What ulog_get_write_func is about to return is in place. *)
Lemma inv_got : forall e s tr, reaches e s tr -> forall t x, s_th s t = GUnlock x ->
  s_writer s <> Init /\ x = (if e_stderr e then s_writer2 s else Some (s_writer s)).
Proof.
  intros e. apply (reaches_ind2 e (fun s tr => forall t x, s_th s t = GUnlock x -> s_writer s <> Init /\ x = (if e_stderr e then s_writer2 s else Some (s_writer s)))).
  { intros t x H. discriminate H. }
  intros s tr t o a s' ev R IH H t' x P. destruct (Nat.eq_dec t' t) as [->|Hn].
  - pose proof (inv_hst e s tr R t) as Hs. clear IH R. cases H; rewrite ?upd_same in P; try congruence; try discriminate P; rewrite ?Q in *; cbn [hst] in Hs;
      try (destruct k; discriminate P); inversion P; subst; split; try exact Hs; try reflexivity; rewrite ?Q0; reflexivity.
  - rewrite (step_frame _ _ _ _ _ _ _ t' H Hn) in P. destruct (IH t' x P) as (A & B).
    assert (Ct : cs (s_th s t) = false).
    { destruct (cs (s_th s t)) eqn:Ct; [exfalso; apply Hn; apply (cs_unique e s tr); [exact R|rewrite P; reflexivity|exact Ct]|reflexivity]. }
    destruct (step_outside _ _ _ _ _ _ _ Ct H) as (E1 & _ & E2 & _). rewrite E1, E2. auto.
Qed.

Lemma got_holds : forall e s tr t0 t o a s' e1 e2 w, reaches e s tr -> legal (tr ++ e1 ++ EvGot t (Some w) :: e2) ->
  step e s t0 o a = (s', e1 ++ EvGot t (Some w) :: e2) -> e1 = [] /\ e2 = [] /\ holds e s' w (s_fd s').
Proof.
  intros e s tr t0 t o a s' e1 e2 w R Lg H. pose proof (inv_b e s tr R (legal_app _ _ Lg)) as B. pose proof (inv_got e s tr R) as G.
  origin H. inversion H0. subst t0 w0. split; [reflexivity|]. split; [reflexivity|]. destruct (G t (Some w) Q) as (W & X). subst s'.
  unfold holds, kept, eff, hp. sim. cbn [steady placid]. pose proof (b_w _ _ _ B) as Bw. destruct Bw as [Bw|Bw]; [contradiction|].
  split; [auto|]. split; [|exact I]. destruct (e_stderr e) eqn:Es; [|congruence]. split; [|congruence].
  destruct (s_writer s); cbn [okw] in Bw; try contradiction; try congruence. destruct Bw as (-> & _). reflexivity.
Qed.

Lemma same_app : forall a b, same_device (a ++ b) -> same_device a /\ same_device b.
Proof. intros a b H. split; intros t n Hin; apply (H t n); apply in_app_iff; [left|right]; exact Hin. Qed.

(** The descriptor up to an event of ulog_set_write_func. *)
Definition set_event (x : event) : Prop := match x with EvSetBegin _ _ | EvSetEnd _ => True | _ => False end.
Lemma kept_cut : forall e sched s tr s' a x b fd, reaches e s tr -> legal (tr ++ a ++ x :: b) -> run e s sched = (s', a ++ x :: b) -> same_device a ->
  set_event x -> kept s fd -> exists s2 sched2, reaches e s2 (tr ++ a ++ [x]) /\ kept s2 fd /\ run e s2 sched2 = (s', b).
Proof.
  intros e sched s tr s' a x b fd R Lg H Sd Sx K.
  destruct (run_split e sched s s' a x b H) as (sc1 & s1 & a1 & t0 & o1 & an1 & s2 & e1 & e2 & sc2 & b2 & H1 & St & H2 & -> & ->).
  assert (E : e1 = [] /\ e2 = []).
  { clear -St Sx. origin St; auto; match goal with X : x = _ |- _ => rewrite X in Sx; destruct Sx end. }
  destruct E as (-> & ->). rewrite app_nil_r in *. cbn [app] in *.
  assert (R1 : reaches e s1 (tr ++ a1)) by (apply (reaches_run e s tr sc1); assumption).
  assert (K1 : kept s1 fd).
  { apply (kept_run e sc1 s tr s1 a1); try assumption. apply (legal_app _ (x :: b2)). rewrite <- app_assoc. exact Lg. }
  exists s2, sc2. split; [|split; [|exact H2]].
  - rewrite app_assoc. apply (reaches_step e s1 (tr ++ a1) t0 o1 an1); assumption.
  - apply (kept_step e s1 (tr ++ a1) t0 o1 an1 s2 [x]); try assumption.
    + apply (legal_app _ b2). repeat (rewrite <- app_assoc; cbn [app]). exact Lg.
    + intros t n [->|[]]. destruct Sx.
Qed.

(** A program asks for the output function; later, whatever functions were installed in between
    but with no device chosen, it installs what it got.  A message logged after that is handled
    as a message logged before: it goes to the same place (the same descriptor, the same function,
    or nowhere), once, and is printed as often.
    Missing for the full C146: a device chosen in between, see the refutation. *)
Theorem C146_restored_partial : forall e s tr0 t w trp t1 m1 during1 one trr t2 tra trb t3 m2 during2 two trd,
  let tr := tr0 ++ EvGot t (Some w) :: trp ++ one ++ trr ++ EvSetBegin t2 w :: tra ++ EvSetEnd t2 :: trb ++ two ++ trd in
  reaches e s tr -> legal tr -> logged t1 m1 during1 one -> logged t3 m2 during2 two ->
  undisturbed (trp ++ during1) -> same_device trr -> undisturbed (tra ++ trb ++ during2) ->
  alike t1 m1 during1 t3 m2 during2.
Proof.
  intros e s tr0 t w trp t1 m1 during1 one trr t2 tra trb t3 m2 during2 two trd tr (sched & R) Lg (-> & N1) (-> & N2) U1 Sd U2. subst tr.
  cbn [app] in R, Lg. repeat (rewrite <- app_assoc in R; cbn [app] in R). repeat (rewrite <- app_assoc in Lg; cbn [app] in Lg).
  destruct (run_split e sched init s tr0 _ _ R) as (sc1 & s1 & a1 & t0 & o1 & an1 & s2 & e1 & e2 & sc2 & b2 & H1 & St & H2 & E1 & E2).
  assert (R1 : reaches e s1 a1) by (exists sc1; exact H1).
  assert (L1 : legal (a1 ++ e1 ++ EvGot t (Some w) :: e2)).
  { rewrite E1, E2 in Lg. apply (legal_app _ b2). repeat (rewrite <- app_assoc; cbn [app]). rewrite <- app_assoc in Lg. exact Lg. }
  destruct (got_holds e s1 a1 t0 t o1 an1 s2 e1 e2 w R1 L1 St) as (-> & -> & Ho). rewrite app_nil_r in E1. subst a1. cbn [app] in *. subst b2.
  assert (R2 : reaches e s2 (tr0 ++ [EvGot t (Some w)])) by (apply (reaches_step e s1 tr0 t0 o1 an1); assumption).
  edestruct log_while as (D1 & P1 & s3 & sc3 & R3 & Ho3 & H3); [exact R2| |exact H2|reflexivity|exact U1|exact N1|exact Ho|].
  { rewrite <- app_assoc. exact Lg. }
  set (pre := (tr0 ++ [EvGot t (Some w)]) ++ trp ++ EvCall t1 (WLog m1) :: during1 ++ [EvRet t1]) in *.
  assert (Lp : legal (pre ++ trr ++ EvSetBegin t2 w :: tra ++ EvSetEnd t2 :: trb ++ EvCall t3 (WLog m2) :: during2 ++ EvRet t3 :: trd)).
  { unfold pre. repeat (rewrite <- app_assoc; cbn [app]). exact Lg. }
  edestruct kept_cut as (s4 & sc4 & R4 & K4 & H4); [exact R3|exact Lp|exact H3|exact Sd|exact I|apply Ho3|].
  edestruct kept_cut as (s5 & sc5 & R5 & K5 & H5);
    [exact R4| |exact H4| |exact I|exact K4|].
  { repeat (rewrite <- app_assoc; cbn [app]). exact Lp. }
  { apply quiet_same. apply (undisturbed_l _ _ U2). }
  assert (Ho5 : holds e s5 w (s_fd s2)).
  { split; [exact K5|]. assert (X := inv_ws e s5 _ R5).
    assert (Y : (pre ++ trr ++ [EvSetBegin t2 w]) ++ tra ++ [EvSetEnd t2] = (pre ++ trr) ++ EvSetBegin t2 w :: tra ++ EvSetEnd t2 :: [])
      by (repeat (rewrite <- app_assoc; cbn [app]); reflexivity).
    rewrite Y in X. rewrite wst_set in X by (rewrite app_nil_r; apply (undisturbed_l _ _ U2)).
    destruct X as (_ & X1 & X2).
    - apply (legal_app _ (trb ++ EvCall t3 (WLog m2) :: during2 ++ EvRet t3 :: trd)). repeat (rewrite <- app_assoc; cbn [app]). exact Lp.
    - split; [exact X1|]. destruct (hp s5); cbn in *; tauto. }
  edestruct log_while as (D2 & P2 & _); [exact R5| |exact H5|reflexivity|apply (undisturbed_r _ _ U2)|exact N2|exact Ho5|].
  { repeat (rewrite <- app_assoc; cbn [app]). exact Lp. }
  split; [exists (place w (s_fd s2)); auto|]. intros Eb. rewrite P1, P2. unfold is_binary. rewrite Eb. reflexivity.
Qed.
Print Assumptions C146_restored_partial.

(** Once a function is installed again, ulog_get_write_func returns it, whatever it was. *)
Theorem C146_got_again : forall e s tr0 t w tra trb t' x trd,
  let tr := tr0 ++ EvSetBegin t w :: tra ++ EvSetEnd t :: trb ++ EvGot t' x :: trd in
  reaches e s tr -> legal tr -> undisturbed (tra ++ trb) -> x = Some w.
Proof.
  intros e s tr0 t w tra trb t' x trd tr R Lg U. subst tr.
  assert (X : tr0 ++ EvSetBegin t w :: tra ++ EvSetEnd t :: trb ++ EvGot t' x :: trd =
              (tr0 ++ EvSetBegin t w :: tra ++ EvSetEnd t :: trb) ++ EvGot t' x :: trd) by (repeat (rewrite <- app_assoc; cbn [app]); reflexivity).
  rewrite X in R, Lg. destruct (event_step e s _ _ _ R) as (s1 & tr & t0 & o & a & s2 & e1 & e2 & R1 & H & E).
  rewrite E, <- app_assoc in Lg. apply legal_app in Lg. pose proof (inv_ws e s1 tr R1 Lg) as Ws. pose proof (inv_got e s1 tr R1) as G.
  origin H. inversion H0. subst t0 w0. rewrite app_nil_r in E. rewrite <- E, (wst_set tr0 t w tra trb U) in Ws. destruct Ws as (_ & Ef & _).
  destruct (G t' x Q) as (_ & ->). unfold eff in Ef. destruct (e_stderr e); [destruct Ef as (_ & ->); reflexivity|rewrite Ef; reflexivity].
Qed.
Print Assumptions C146_got_again.

Lemma legal_got : forall a t w b, (forall t' w', ~ In (EvCall t' (WSet w')) a) ->
  (forall t' w', In (EvCall t' (WSet w')) b -> (exists f, w' = User f) \/ w' = w) -> legal (a ++ EvGot t (Some w) :: b).
Proof.
  intros a t w b Ha Hb tr1 t' w' tr2 E. apply app_eq_app in E. destruct E as (l & [(E1 & E2)|(E1 & E2)]).
  - destruct l as [|y l]; cbn in E2; [discriminate E2|]. exfalso. apply (Ha t' w'). rewrite E1. apply in_app_iff. right. inversion E2. left. reflexivity.
  - destruct l as [|y l]; cbn in E2; [discriminate E2|]. inversion E2. subst. destruct (Hb t' w') as [F|F]; [apply in_app_iff; right; left; reflexivity|left; exact F|].
    right. exists t. rewrite F. apply in_app_iff. right. left. reflexivity.
Qed.

Definition ex_m2 : msg := mkMsg 6 (bytes_of_string "net") (bytes_of_string "up" ++ [0]).
(** Thread 1 asks for the function and logs; installs its function 5; [mid]; installs what it got
    and logs. *)
Definition ex146 (mid : list (nat * call * answer)) : list (nat * call * answer) :=
  repeat (th 1 WGet (ans 3)) 10 ++ repeat (th 1 (WLog ex_m) (ans 3)) 4 ++ repeat (th 1 (WSet (User 5)) (ans 3)) 5 ++ mid ++
  repeat (th 1 (WSet Kernel) (ans 4)) 5 ++ repeat (th 1 (WLog ex_m2) (ans 4)) 4.

(** Choosing a device in between: the restored function writes to no descriptor at all, so that
    nothing reaches the device any more. *)
Theorem C146_device_refuted : exists e s tr0 t w trp t1 m1 during1 one trr t2 tra trb t3 m2 during2 two trd,
  let tr := tr0 ++ EvGot t (Some w) :: trp ++ one ++ trr ++ EvSetBegin t2 w :: tra ++ EvSetEnd t2 :: trb ++ two ++ trd in
  reaches e s tr /\ legal tr /\ logged t1 m1 during1 one /\ logged t3 m2 during2 two /\
  undisturbed (trp ++ during1) /\ undisturbed (tra ++ trb ++ during2) /\
  delivs t1 during1 = [(DKernel 3, m1)] /\ delivs t3 during2 = [(DKernel (-1), m2)] /\ open_fds tr = [].
Proof.
  set (sched := ex146 (repeat (th 1 (WDev (bytes_of_string "x")) (ans 3)) 8)).
  exists (ex_env false), (fst (run (ex_env false) init sched)),
    [EvCall 1 WGet; EvOpen 1 (bytes_of_string "/dev/ulog_main") 3], 1%nat, Kernel, [], 1%nat, ex_m, [EvDeliver 1 (DKernel 3) ex_m],
    [EvCall 1 (WLog ex_m); EvDeliver 1 (DKernel 3) ex_m; EvRet 1],
    [EvCall 1 (WSet (User 5)); EvSetBegin 1 (User 5); EvSetEnd 1; EvCall 1 (WDev (bytes_of_string "x")); EvDevSet 1 (bytes_of_string "x") true; EvClose 1 3; EvDevEnd 1 0;
     EvCall 1 (WSet Kernel)], 1%nat, [], [], 1%nat, ex_m2, [EvDeliver 1 (DKernel (-1)) ex_m2],
    [EvCall 1 (WLog ex_m2); EvDeliver 1 (DKernel (-1)) ex_m2; EvRet 1], [].
  intros tr.
  assert (Ud : forall d, undisturbed [EvDeliver 1 (DKernel d) ex_m] /\ undisturbed [EvDeliver 1 (DKernel d) ex_m2]).
  { intros d. split; intros x [<-|[]] []. }
  split; [exists sched; vm_compute; reflexivity|]. split.
  { apply legal_got.
    - intros t' w' H. cbn [In] in H. in_list H.
    - intros t' w' H. cbn [In app] in H. in_list H; inversion H; eauto. }
  split; [split; [reflexivity|intros o [H|[]]; discriminate H]|]. split; [split; [reflexivity|intros o [H|[]]; discriminate H]|].
  split; [apply Ud|]. split; [apply Ud|]. repeat split; reflexivity.
Qed.
Print Assumptions C146_device_refuted.

Example C146_ex : let tr := snd (run (ex_env false) init (ex146 [])) in
  tr = [EvCall 1 WGet; EvOpen 1 (bytes_of_string "/dev/ulog_main") 3; EvGot 1 (Some Kernel);
        EvCall 1 (WLog ex_m); EvDeliver 1 (DKernel 3) ex_m; EvRet 1;
        EvCall 1 (WSet (User 5)); EvSetBegin 1 (User 5); EvSetEnd 1; EvCall 1 (WSet Kernel); EvSetBegin 1 Kernel; EvSetEnd 1;
        EvCall 1 (WLog ex_m2); EvDeliver 1 (DKernel 3) ex_m2; EvRet 1] /\ legal tr.
Proof.
  intros tr. assert (E : tr = [EvCall 1 WGet; EvOpen 1 (bytes_of_string "/dev/ulog_main") 3; EvGot 1 (Some Kernel);
        EvCall 1 (WLog ex_m); EvDeliver 1 (DKernel 3) ex_m; EvRet 1;
        EvCall 1 (WSet (User 5)); EvSetBegin 1 (User 5); EvSetEnd 1; EvCall 1 (WSet Kernel); EvSetBegin 1 Kernel; EvSetEnd 1;
        EvCall 1 (WLog ex_m2); EvDeliver 1 (DKernel 3) ex_m2; EvRet 1]) by reflexivity.
  split; [exact E|]. rewrite E. apply (legal_got [EvCall 1 WGet; EvOpen 1 (bytes_of_string "/dev/ulog_main") 3]).
  - intros t' w' H. cbn [In] in H. in_list H.
  - intros t' w' H. cbn [In app] in H. in_list H; inversion H; eauto.
Qed.
