(** Device name, number of opens and descriptors. *)
From Coq Require Import ZArith String List Bool Lia ZifyBool ZifyNat Arith.
From Verif Require Import Bytes BytesProofs Writer WriterSpec WriterProofs WriterCalls.
Import ListNotations.
Open Scope Z_scope.

(** ** Device name *)
Lemma inv_dev : forall e s tr, reaches e s tr -> s_device s = dev_of tr.
Proof.
  intros e. apply (reaches_ind2 e (fun s tr => s_device s = dev_of tr)); [reflexivity|].
  intros s tr t o a s' ev _ IH H. unfold dev_of. rewrite fold_left_app. change (fold_left dev_event tr None) with (dev_of tr). rewrite <- IH.
  cases H; reflexivity.
Qed.

Lemma inv_dev_len : forall e s tr, reaches e s tr -> legal tr -> forall t n ok, In (EvDevSet t n ok) tr -> zlen n <= 20.
Proof.
  intros e. apply (reaches_ind2 e (fun s tr => legal tr -> forall t n ok, In (EvDevSet t n ok) tr -> zlen n <= 20)); [intros _ t n ok []|].
  intros s tr t o a s' ev R IH H Lg t0 n ok Hin. pose proof (legal_app _ _ Lg) as Lg0. apply in_app_iff in Hin. destruct Hin as [Hin|Hin]; [apply (IH Lg0 t0 n ok Hin)|].
  pose proof (inv_calls e s tr R Lg0 t) as P. clear Lg.
  cases H; cbn [In] in Hin; repeat (destruct Hin as [Hin|Hin]; try discriminate Hin); try contradiction; inversion Hin; subst;
    (destruct P as [P|[P|(tr1 & o' & tr2 & _ & _ & Cd & _)]]; try congruence); rewrite ?Q in Cd; cbn in Cd; destruct Cd as (_ & Cd); change DEV_NAME_MAX_LEN with 21 in Cd; lia.
Qed.

(** ** Number of opens *)
Definition post_open (p : pc) : bool :=
  match p with IStat _ | IClose _ | IFd _ | IWriter _ | IW2 _ _ | IW1 _ _ => true | _ => false end.
Definition dev_stage (p : pc) : bool := match p with DTest | DClose | DFd | DWr => true | _ => false end.
Definition slack (s : state) : Z :=
  if dev_stage (hp s) || is_init (s_writer s) && negb (post_open (hp s)) then 1 else 0.

Lemma opens_app : forall a b, opens (a ++ b) = opens a + opens b.
Proof. intros. unfold opens. rewrite filter_app, zlen_app. reflexivity. Qed.
Lemma devsets_app : forall a b, devsets (a ++ b) = devsets a + devsets b.
Proof. intros. unfold devsets. rewrite filter_app, zlen_app. reflexivity. Qed.

(** Where the lock owner is after a step. *)
Lemma hp_step : forall e s tr t o a s' ev, reaches e s tr -> step e s t o a = (s', ev) ->
  (cs (s_th s t) = true /\ hp s = s_th s t /\ hp s' = (if cs (s_th s' t) then s_th s' t else Idle)) \/
  (cs (s_th s t) = false /\ cs (s_th s' t) = true /\ hp s = Idle /\ hp s' = s_th s' t) \/
  (cs (s_th s t) = false /\ cs (s_th s' t) = false /\ hp s' = hp s).
Proof.
  intros e s tr t o a s' ev R H. pose proof (reaches_step e s tr t o a s' ev R H) as R'.
  pose proof (inv_lock e s tr R) as L. pose proof (inv_lock e s' _ R') as L'.
  destruct (cs (s_th s t)) eqn:C.
  - left. split; [reflexivity|]. split; [apply (hp_in e s tr); assumption|]. destruct (cs (s_th s' t)) eqn:C'.
    + apply (hp_in e s' _ t R' C').
    + unfold hp. destruct (s_lock s') as [t'|] eqn:E; [|reflexivity]. exfalso. assert (X := E). apply L' in X.
      destruct (Nat.eq_dec t' t) as [->|Hn]; [congruence|]. rewrite (step_frame _ _ _ _ _ _ _ t' H Hn) in X. apply Hn. apply (cs_unique e s tr); assumption.
  - right. destruct (cs (s_th s' t)) eqn:C'; [left|right].
    + split; [reflexivity|]. split; [reflexivity|]. split; [|apply (hp_in e s' _ t R' C')].
      unfold hp. destruct (s_lock s) as [t'|] eqn:E; [|reflexivity]. exfalso. assert (X := E). apply L in X.
      destruct (Nat.eq_dec t' t) as [->|Hn]; [congruence|]. apply Hn. apply (cs_unique e s' _ t' t R'); [|assumption].
      rewrite (step_frame _ _ _ _ _ _ _ t' H Hn). exact X.
    + split; [reflexivity|]. split; [reflexivity|]. unfold hp. destruct (s_lock s) as [t'|] eqn:E.
      * assert (X := E). apply L in X. assert (Hn : t' <> t) by congruence. rewrite <- (step_frame _ _ _ _ _ _ _ t' H Hn) in X.
        assert (Y := X). apply L' in Y. rewrite Y. apply (step_frame _ _ _ _ _ _ _ t' H Hn).
      * destruct (s_lock s') as [t'|] eqn:E'; [|reflexivity]. exfalso. assert (X := E'). apply L' in X. assert (Hn : t' <> t) by congruence.
        rewrite (step_frame _ _ _ _ _ _ _ t' H Hn) in X. apply L in X. congruence.
Qed.

Lemma inv_opens : forall e s tr, reaches e s tr -> legal tr -> opens tr + slack s <= 1 + devsets tr.
Proof.
  intros e. apply (reaches_ind2 e (fun s tr => legal tr -> opens tr + slack s <= 1 + devsets tr)); [intros _; vm_compute; discriminate|].
  intros s tr t o a s' ev R IH H Lg. pose proof (legal_app _ _ Lg) as Lg0. specialize (IH Lg0). rewrite opens_app, devsets_app.
  pose proof (inv_hst e s tr R t) as Hs. pose proof (b_pc _ _ _ (inv_b e s tr R Lg0) t) as Bt.
  destruct (hp_step e s tr t o a s' ev R H) as [(C & Hp & Hp')|[(C & C' & Hp & Hp')|(C & C' & Hp')]].
  - unfold slack in *. rewrite Hp in IH. rewrite Hp'. clear Hp Hp' Lg R. cases H; rewrite ?Q, ?upd_same in *; try discriminate C; cbn [hst okpc] in *;
      unfold opens at 2, devsets at 2; cbn [filter is_open is_devset cs]; rewrite ?zlen_cons, ?zlen_nil; cbn [dev_stage post_open] in *; sim;
      try (destruct Hs as (Hs & _)); try (match type of Hs with s_writer s = Init => rewrite Hs in * end); cbn [is_init andb orb negb] in *; try lia;
      try (destruct (is_init (s_writer s)); cbn [andb] in *; try discriminate; lia);
      try (destruct w; cbn [okw is_init andb] in *; try tauto; destruct (is_init (s_writer s)); cbn [andb] in *; lia).
  - unfold slack in *. rewrite Hp in IH. rewrite Hp'. clear Hp Hp' Lg R. cases H; rewrite ?Q, ?upd_same in *; try discriminate C; try discriminate C';
      unfold opens at 2, devsets at 2; cbn [filter is_open is_devset]; rewrite ?zlen_nil; cbn [dev_stage post_open] in *; sim; try lia.
  - destruct (step_outside e s t o a s' ev C H) as (E & _). unfold slack in *. rewrite Hp', E. clear Hp' Lg R E.
    assert (opens ev = 0 /\ devsets ev = 0) as (-> & ->); [|lia].
    cases H; rewrite ?Q, ?upd_same in *; try discriminate C; try discriminate C'; split; reflexivity.
Qed.

(** ** Descriptors *)
Lemma open_fds_app : forall a b, open_fds (a ++ b) = fold_left fd_event b (open_fds a).
Proof. intros. apply fold_left_app. Qed.

(** open never returns descriptor 0. *)
Definition nonzero_fds (tr : list event) : Prop := forall t p fd, In (EvOpen t p fd) tr -> fd <> 0.
Lemma nonzero_app : forall a b, nonzero_fds (a ++ b) -> nonzero_fds a.
Proof. intros a b H t p fd Hin. apply (H t p). apply in_app_iff. left. exact Hin. Qed.

Definition live (s : state) : list Z := if s_fd s >=? 0 then [s_fd s] else [].
Definition fd_ok (s : state) (tr : list event) : Prop :=
  open_fds tr = (match hp s with IFd _ | DFd => [] | _ => live s end) /\ s_fd s <> 0 /\
  (s_writer s = Init -> post_open (hp s) = true \/ s_fd s < 0).

Lemma inv_fd : forall e s tr, reaches e s tr -> legal tr -> nonzero_fds tr -> fd_ok s tr.
Proof.
  intros e. apply (reaches_ind2 e (fun s tr => legal tr -> nonzero_fds tr -> fd_ok s tr)).
  { intros _ _. unfold fd_ok, live. cbn. repeat split; [discriminate|]. intros _. right. reflexivity. }
  intros s tr t o a s' ev R IH H Lg Nz. pose proof (legal_app _ _ Lg) as Lg0. specialize (IH Lg0 (nonzero_app _ _ Nz)).
  pose proof (inv_hst e s tr R t) as Hs. pose proof (b_pc _ _ _ (inv_b e s tr R Lg0) t) as Bt. unfold fd_ok in *. rewrite open_fds_app.
  destruct (hp_step e s tr t o a s' ev R H) as [(C & Hp & Hp')|[(C & C' & Hp & Hp')|(C & C' & Hp')]].
  - rewrite Hp in IH. rewrite Hp'. clear Hp Hp' Lg R Lg0. destruct IH as (F & Z0 & W).
    cases H; rewrite ?Q, ?upd_same in *; try discriminate C; cbn [hst okpc] in *; cbn [fold_left fd_event cs post_open] in *; unfold live in *; sim; cbn [cs];
      try (split; [rewrite F; reflexivity|]); try (split; [exact Z0|]); try (intros X; try discriminate X; try tauto; intuition congruence).
    + destruct (W Hs) as [?|W']; [discriminate|]. assert (open_fds tr = []) as ->; [rewrite F; destruct (s_fd s >=? 0) eqn:X; [lia|reflexivity]|].
      split; [reflexivity|]. split; [|intros; left; reflexivity]. apply (Nz t (dev_path e s)). apply in_app_iff. right. left. reflexivity.
    + rewrite F. destruct (s_fd s >=? 0) eqn:X; [|lia]. cbn [filter]. rewrite Z.eqb_refl. cbn. split; [reflexivity|]. split; [exact Z0|]. intros; left; reflexivity.
    + split; [discriminate|]. intros; right; reflexivity.
    + intros ->. destruct Bt.
    + rewrite F. destruct (s_fd s >=? 0) eqn:X; [|lia]. cbn [filter]. rewrite Z.eqb_refl. cbn. split; [reflexivity|]. split; [exact Z0|]. intros; tauto.
    + split; [discriminate|]. intros; right; reflexivity.
    + intros _. right. lia.
  - rewrite Hp in IH. rewrite Hp'. clear Hp Hp' Lg R Lg0. destruct IH as (F & Z0 & W).
    cases H; rewrite ?Q, ?upd_same in *; try discriminate C; try discriminate C'; cbn [fold_left fd_event post_open] in *; unfold live in *; sim; tauto.
  - destruct (step_outside e s t o a s' ev C H) as (E & E2 & _). rewrite Hp', E, E2. unfold live in *. rewrite E2. clear Hp' Lg R E E2.
    assert (fold_left fd_event ev (open_fds tr) = open_fds tr) as ->; [|exact IH].
    cases H; rewrite ?Q, ?upd_same in *; try discriminate C; try discriminate C'; reflexivity.
Qed.

(** ** Without device change, a message written to the device goes to the open descriptor *)
Definition no_devset (tr : list event) : Prop := forall t n, ~ In (EvDevSet t n true) tr.
Lemma no_devset_app : forall a b, no_devset (a ++ b) -> no_devset a.
Proof. intros a b H t n Hin. apply (H t n). apply in_app_iff. left. exact Hin. Qed.
Lemma no_devset_wst : forall tr, no_devset tr -> forall b, wst tr <> WDevPend b.
Proof.
  assert (G : forall tr x, no_devset tr -> (forall b, x <> WDevPend b) -> forall b, fold_left ws_event tr x <> WDevPend b).
  { induction tr as [|ev tr IH]; intros x N Hx b; [apply Hx|]. cbn [fold_left]. apply IH; [intros t n Hi; apply (N t n); right; exact Hi|].
    intros b'. specialize (Hx b'). destruct ev; cbn; try exact Hx; try discriminate.
    - destruct x; try exact Hx; discriminate.
    - destruct x; try exact Hx; discriminate.
    - destruct ok; [|exact Hx]. exfalso. apply (N t n). left. reflexivity.
    - destruct x; try exact Hx. destruct (r =? 0); [discriminate|exact Hx]. }
  intros tr N. apply G; [exact N|discriminate].
Qed.

Definition kfree (p : pc) : Prop :=
  match p with
  | LRun w _ _ | IW2 w _ | IW1 w _ | SLock w | S2 w | S1 w | GUnlock (Some w) => w <> Kernel
  | _ => True
  end.
Definition kdev (s : state) (tr : list event) : Prop :=
  (s_fd s >= 0 /\ open_fds tr = [s_fd s] /\
     match hp s with
     | IOpen _ | IStat _ | IClose _ | IFd _ | IWriter _ => False
     | IW2 _ _ | IW1 _ _ => True
     | _ => s_writer s <> Init
     end) \/
  (open_fds tr = (match hp s with IStat _ | IClose _ | IWriter _ => live s | _ => [] end) /\
   s_writer s <> Kernel /\ s_writer2 s <> Some Kernel /\ (forall t, kfree (s_th s t)) /\ (forall t, ~ In (EvGot t (Some Kernel)) tr)).

Lemma inv_kdev : forall e s tr, reaches e s tr -> legal tr -> no_devset tr -> kdev s tr.
Proof.
  intros e. apply (reaches_ind2 e (fun s tr => legal tr -> no_devset tr -> kdev s tr)).
  { intros _ _. right. cbn. repeat split; try discriminate; auto. }
  intros s tr t o a s' ev R IH H Lg Nd. pose proof (legal_app _ _ Lg) as Lg0. specialize (IH Lg0 (no_devset_app _ _ Nd)).
  pose proof (inv_hst e s tr R t) as Hs. pose proof (b_pc _ _ _ (inv_b e s tr R Lg0) t) as Bt.
  pose proof (inv_ws e s tr R Lg0) as W. pose proof (no_devset_wst tr (no_devset_app _ _ Nd)) as Nw.
  assert (Cm : match hp s with DTest | DClose | DFd | DWr => False | _ => True end).
  { unfold ws_ok in W. destruct (wst tr) as [|w|w|b|]; [| | |exfalso; apply (Nw b); reflexivity|]; destruct (hp s); try exact I; cbn in W; tauto. }
  clear W Nw. assert (Fr : forall t', t' <> t -> s_th s' t' = s_th s t') by (intros t' Hn; apply (step_frame _ _ _ _ _ _ _ t' H Hn)).
  unfold kdev in *. rewrite open_fds_app.
  destruct (hp_step e s tr t o a s' ev R H) as [(C & Hp & Hp')|[(C & C' & Hp & Hp')|(C & C' & Hp')]].
  - rewrite Hp in IH, Cm. rewrite Hp'. clear Hp Hp' Nd R. destruct IH as [(F & O & K)|(O & K1 & K2 & K3 & K4)].
    + left. clear Lg Lg0. cases H; rewrite ?Q, ?upd_same in *; try discriminate C; cbn [hst okpc] in *; cbn [fold_left fd_event cs]; sim; try contradiction; try tauto; try intuition congruence.
      * apply is_init_true in Q0. contradiction.
      * repeat split; try assumption. intros ->. destruct Bt.
    + assert (Kf : kfree (s_th s' t) -> forall t', kfree (s_th s' t')).
      { intros X t'. destruct (Nat.eq_dec t' t) as [->|Hn]; [exact X|]. rewrite (Fr t' Hn). apply K3. }
      pose proof (K3 t) as Kt. clear K3 Fr Lg Lg0.
      assert (Gt : (forall t0, ~ In (EvGot t0 (Some Kernel)) ev) -> forall t0, ~ In (EvGot t0 (Some Kernel)) (tr ++ ev)).
      { intros X t0 Hi. apply in_app_iff in Hi. destruct Hi as [Hi|Hi]; [apply (K4 t0 Hi)|apply (X t0 Hi)]. }
      cases H; rewrite ?Q, ?upd_same in *; try discriminate C; try contradiction; cbn [hst okpc kfree] in *; cbn [fold_left fd_event cs live] in *; unfold live in *; sim.
      all: match goal with
           | |- context [IW2 Kernel _] => left; rewrite O, Q0; (split; [lia|]); (split; [reflexivity|exact I])
           | _ => right; (split; [|split; [|split; [|split; [apply Kf|apply Gt; intros t0 Hi; cbn in Hi; repeat (destruct Hi as [Hi|Hi]; try discriminate Hi); try contradiction]]]])
           end; try assumption; try exact I; try discriminate; try congruence.
      * rewrite O. reflexivity.
      * rewrite O. destruct (s_fd s >=? 0) eqn:X; [|lia]. cbn [filter]. rewrite Z.eqb_refl. reflexivity.
      * rewrite O, Q0. reflexivity.
      * destruct (s_writer2 s); congruence.
      * inversion Hi. subst. apply Kt. reflexivity.
  - rewrite Hp in IH. rewrite Hp'. clear Hp Hp' Nd R. destruct IH as [(F & O & K)|(O & K1 & K2 & K3 & K4)].
    + left. clear Lg Lg0. cases H; rewrite ?Q, ?upd_same in *; try discriminate C; try discriminate C'; cbn [fold_left fd_event]; sim; tauto.
    + right. assert (Kf : kfree (s_th s' t) -> forall t', kfree (s_th s' t')).
      { intros X t'. destruct (Nat.eq_dec t' t) as [->|Hn]; [exact X|]. rewrite (Fr t' Hn). apply K3. }
      pose proof (K3 t) as Kt. clear K3 Fr Lg Lg0.
      assert (Gt : (forall t0, ~ In (EvGot t0 (Some Kernel)) ev) -> forall t0, ~ In (EvGot t0 (Some Kernel)) (tr ++ ev)).
      { intros X t0 Hi. apply in_app_iff in Hi. destruct Hi as [Hi|Hi]; [apply (K4 t0 Hi)|apply (X t0 Hi)]. }
      cases H; rewrite ?Q, ?upd_same in *; try discriminate C; try discriminate C'; cbn [kfree] in *; cbn [fold_left fd_event]; sim;
        (split; [exact O|split; [exact K1|split; [exact K2|split; [apply Kf; try exact I; try exact Kt|apply Gt; intros t0 Hi; cbn in Hi; repeat (destruct Hi as [Hi|Hi]; try discriminate Hi); exact Hi]]]]).
  - destruct (step_outside e s t o a s' ev C H) as (E & E2 & E3 & _). rewrite Hp', E, E2, E3. unfold live in *. rewrite E2. clear Hp' E E2 E3.
    assert (fold_left fd_event ev (open_fds tr) = open_fds tr) as ->.
    { clear -H C C'. cases H; rewrite ?Q, ?upd_same in *; try discriminate C; try discriminate C'; reflexivity. }
    destruct IH as [IH|(O & K1 & K2 & K3 & K4)]; [left; exact IH|right]. split; [exact O|]. split; [exact K1|]. split; [exact K2|].
    split.
    + intros t'. destruct (Nat.eq_dec t' t) as [->|Hn]; [|rewrite (Fr t' Hn); apply K3]. pose proof (K3 t) as Kt. clear K3 Fr Nd R.
      cases H; rewrite ?Q, ?upd_same in *; try discriminate C; try discriminate C'; cbn [kfree okpc] in *; try exact I; try assumption; try congruence.
      destruct (Lg tr t w [] eq_refl) as [(f & ->)|(t' & Hg)]; [discriminate|]. intros ->. apply (K4 t' Hg).
    + intros t0 Hi. apply in_app_iff in Hi. destruct Hi as [Hi|Hi]; [apply (K4 t0 Hi)|]. clear -H C C' Hi.
      cases H; rewrite ?Q, ?upd_same in *; try discriminate C; try discriminate C'; cbn [In] in Hi; repeat (destruct Hi as [Hi|Hi]; try discriminate Hi); exact Hi.
Qed.
