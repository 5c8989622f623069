(** The output functions: properties C35 to C38, C41 and C61 to C63.

    [reaches e s tr]: some schedule of any number of threads making any calls, with any answers of
    the system, leads to the memory [s] with the trace of events [tr].  [legal tr]: the functions
    given to ulog_set_write_func are functions of the application or were returned by
    ulog_get_write_func. *)
From Coq Require Import ZArith String List Bool Lia ZifyBool ZifyNat Arith.
From Verif Require Import Bytes BytesProofs Writer WriterSpec WriterProofs WriterCalls WriterFd.
Import ListNotations.
Open Scope Z_scope.

(** ** Facts about single events *)
Lemma event_step : forall e s tra x trb, reaches e s (tra ++ x :: trb) ->
  exists s1 tr1 t o a s2 e1 e2, reaches e s1 tr1 /\ step e s1 t o a = (s2, e1 ++ x :: e2) /\ tra = tr1 ++ e1.
Proof.
  intros cf s tra x trb (sched & H).
  assert (G : forall sched s0 tr0 s tra, reaches cf s0 tr0 -> run cf s0 sched = (s, tra ++ x :: trb) ->
    exists s1 tr1 t o a s2 e1 e2, reaches cf s1 tr1 /\ step cf s1 t o a = (s2, e1 ++ x :: e2) /\ tr0 ++ tra = tr1 ++ e1).
  { clear. induction sched as [|((t & o) & a) sched IH]; intros s0 tr0 s tra R H; cbn [run] in H.
    - inversion H as [[H1 H2]]. destruct tra; discriminate.
    - destruct (step cf s0 t o a) as [s1 e1] eqn:E1. destruct (run cf s1 sched) as [s2 e2] eqn:E2. inversion H as [[H1 H2]].
      apply app_eq_app in H2. destruct H2 as (l & [(Ha & Hb)|(Ha & Hb)]).
      + destruct l as [|y l].
        * cbn in Hb. rewrite app_nil_r in Ha. subst e1. rewrite <- Hb in E2.
          destruct (IH s1 (tr0 ++ tra) s2 []) as (s3 & tr1 & t' & o' & a' & s4 & e3 & e4 & A & B & C).
          -- apply (reaches_step cf s0 tr0 t o a); assumption.
          -- exact E2.
          -- exists s3, tr1, t', o', a', s4, e3, e4. split; [exact A|]. split; [exact B|]. rewrite app_nil_r in C. exact C.
        * cbn in Hb. inversion Hb. subst y e1. exists s0, tr0, t, o, a, s1, tra, l. split; [exact R|]. split; [exact E1|reflexivity].
      + subst tra. destruct (IH s1 (tr0 ++ e1) s2 l) as (s3 & tr1 & t' & o' & a' & s4 & e3 & e4 & A & B & C).
        * apply (reaches_step cf s0 tr0 t o a); assumption.
        * rewrite <- Hb. exact E2.
        * exists s3, tr1, t', o', a', s4, e3, e4. split; [exact A|]. split; [exact B|]. rewrite <- app_assoc in C. exact C. }
  destruct (G sched init [] s tra) as (s1 & tr1 & R); [exists []; reflexivity|exact H|].
  exists s1, tr1. exact R.
Qed.

Lemma single : forall (e1 e2 : list event) x y, e1 ++ x :: e2 = [y] -> e1 = [] /\ x = y /\ e2 = [].
Proof. intros [|a e1] e2 x y H; [inversion H; auto|]. inversion H. destruct e1; discriminate. Qed.
Lemma pair_of : forall (e1 e2 : list event) x y z, e1 ++ x :: e2 = [y; z] -> (e1 = [] /\ x = y /\ e2 = [z]) \/ (e1 = [y] /\ x = z /\ e2 = []).
Proof.
  intros [|a e1] e2 x y z H; [inversion H; auto|]. inversion H. destruct (single _ _ _ _ H2) as (-> & -> & ->). right. auto.
Qed.
Lemma none_of : forall (e1 e2 : list event) x, e1 ++ x :: e2 = [] -> False.
Proof. intros [|a e1] e2 x H; discriminate. Qed.

(** The step an event comes from; [E]: which event it is. *)
Ltac origin H :=
  unfold step in H;
  repeat match type of H with
  | context [match ?x with _ => _ end] => let E := fresh "Q" in destruct x eqn:E
  end;
  match type of H with (?a, ?b) = (?c, ?d) => assert (d = b) by congruence; assert (c = a) by congruence; clear H end;
  match goal with
  | E : _ = [] |- _ => apply none_of in E; destruct E
  | E : _ ++ _ :: _ = [_] |- _ => apply single in E; destruct E as (-> & E & ->); try discriminate E
  | E : _ ++ _ :: _ = [_; _] |- _ => apply pair_of in E; destruct E as [(-> & E & ->)|(-> & E & ->)]; try discriminate E
  end.

(** Two positions of the last call of a thread are the same. *)
Lemma last_call_unique : forall t tr1 o tr2 tr1' o' tr2', tr1 ++ EvCall t o :: tr2 = tr1' ++ EvCall t o' :: tr2' ->
  no_call t tr2 -> no_call t tr2' -> tr1 = tr1' /\ o = o' /\ tr2 = tr2'.
Proof.
  intros t tr1. induction tr1 as [|x tr1 IH]; intros o tr2 [|y tr1'] o' tr2' H N N'; cbn in H.
  - inversion H. auto.
  - inversion H. subst. exfalso. apply (N o'). apply in_app_iff. right. left. reflexivity.
  - inversion H. subst. exfalso. apply (N' o). apply in_app_iff. right. left. reflexivity.
  - inversion H as [[A B]]. destruct (IH _ _ _ _ _ B N N') as (-> & -> & ->). auto.
Qed.

(** Everything known when a message has been written. *)
Lemma ret_info : forall e s tr1 t m tr2 tr3, reaches e s (tr1 ++ EvCall t (WLog m) :: tr2 ++ EvRet t :: tr3) -> no_call t tr2 ->
  legal (tr1 ++ EvCall t (WLog m) :: tr2 ++ EvRet t :: tr3) ->
  cond e t (WLog m) tr2 (LPrint [] m) /\
  (forall f, wst tr1 = WForce (User f) -> undisturbed tr2 -> delivs t tr2 = [(DUser f, m)]) /\
  (fresh (wst tr1) -> idle_writer tr2 -> False).
Proof.
  intros e s tr1 t m tr2 tr3 R N Lg.
  assert (X : tr1 ++ EvCall t (WLog m) :: tr2 ++ EvRet t :: tr3 = (tr1 ++ EvCall t (WLog m) :: tr2) ++ EvRet t :: tr3)
    by (rewrite <- app_assoc; reflexivity).
  rewrite X in R, Lg. destruct (event_step e s _ _ _ R) as (s1 & tr & t0 & o & a & s2 & e1 & e2 & R1 & H & E).
  rewrite E, <- app_assoc in Lg. apply legal_app in Lg. pose proof (inv_calls e s1 tr R1 Lg t0) as P.
  origin H; inversion H0; subst t0.
  - (* the replay time was set *) exfalso.
    change (tr ++ [EvCall t (WReplay sec nsec)]) with (tr ++ EvCall t (WReplay sec nsec) :: []) in E.
    destruct (last_call_unique _ _ _ _ _ _ _ E N) as (_ & A & _); [intros x []|discriminate].
  - rewrite app_nil_r in E. rewrite ?Q in P. destruct P as [P|[P|(tra & o' & trb & E' & N' & C & F & U)]]; try discriminate. rewrite <- E in E'.
    destruct (last_call_unique _ _ _ _ _ _ _ E' N N') as (<- & <- & <-).
    assert (m0 = m) by (destruct C as (C & _); congruence). subst m0. split; [exact C|]. split; [exact F|exact U].
Qed.

(** ** C35 *)
Theorem C35_formatted_message : forall stack text, zlen stack = 256 -> zlen text <= 2147483647 ->
  ulog_vlog_write stack (Some text) = Ok (Some (ztake 255 text ++ [0])).
Proof.
  intros stack text Hs Ht. unfold ulog_vlog_write, vsnprintf. destruct (Z.gtb_spec (zlen text) 2147483647); [lia|]. rewrite Hs.
  pose proof (zlen_nonneg text). assert (L : zlen (ztake (256 - 1) text ++ [0]) = Z.min 255 (zlen text) + 1).
  { rewrite zlen_app, zlen_ztake. change (zlen [0]) with 1. lia. }
  rewrite mem_write_ok by lia. cbn [bind]. rewrite ztake_0. cbn [app]. set (w := ztake (256 - 1) text ++ [0]) in *.
  assert (G : forall n, n = Z.min 255 (zlen text) -> mem_read (w ++ zdrop (0 + zlen w) stack) 0 (n + 1) = Ok w).
  { intros n ->. pose proof (zlen_nonneg (zdrop (0 + zlen w) stack)). rewrite mem_read_ok; [|lia|lia|rewrite zlen_app; lia]. unfold zsub. rewrite zdrop_0, ztake_app_exact by lia. reflexivity. }
  destruct (Z.geb_spec (zlen text) 256); (match goal with |- context [?n >=? 0] => destruct (Z.geb_spec n 0); [|lia] end);
    rewrite G by lia; reflexivity.
Qed.
(** A formatting error, or a text longer than vsnprintf can report. *)
Theorem C35_error : forall stack text, zlen stack = 256 -> (forall x, text = Some x -> zlen x > 2147483647) ->
  ulog_vlog_write stack text = Ok None.
Proof.
  intros stack text Hs H. unfold ulog_vlog_write, vsnprintf. rewrite Hs. destruct text as [x|]; [|reflexivity].
  specialize (H x eq_refl). destruct (Z.gtb_spec (zlen x) 2147483647); [reflexivity|lia].
Qed.
Example C35_ex : ulog_vlog_write (zrepeat 9 256) (Some (bytes_of_string "hello")) = Ok (Some [104; 101; 108; 108; 111; 0]).
Proof. reflexivity. Qed.
Example C35_ex_long : ulog_vlog_write (zrepeat 9 256) (Some (zrepeat 65 300)) = Ok (Some (zrepeat 65 255 ++ [0])).
Proof. reflexivity. Qed.

(** ** C36 *)

(** While a function is being installed, then installed. *)
Lemma wst_pend : forall b w, undisturbed b -> fold_left ws_event b (WPend w) = WPend w \/ fold_left ws_event b (WPend w) = WForce w.
Proof.
  intros b w U. assert (G : forall b x, undisturbed b -> x = WPend w \/ x = WForce w -> fold_left ws_event b x = WPend w \/ fold_left ws_event b x = WForce w).
  { clear. induction b as [|ev b IH]; intros x U Hx; [exact Hx|]. cbn [fold_left]. apply IH; [intros y Hy; apply U; right; exact Hy|].
    assert (N : ~ changes_writer ev) by (apply U; left; reflexivity).
    destruct ev; cbn in *; try exact Hx; try contradiction; destruct Hx as [-> | ->]; auto; destruct ok; auto; exfalso; apply N; exact I. }
  apply G; [exact U|left; reflexivity].
Qed.
Lemma wst_set : forall tr0 t w tra trb, undisturbed (tra ++ trb) -> wst (tr0 ++ EvSetBegin t w :: tra ++ EvSetEnd t :: trb) = WForce w.
Proof.
  intros tr0 t w tra trb U. apply undisturbed_app in U. destruct U as (Ua & Ub). rewrite wst_app. cbn [fold_left ws_event]. rewrite fold_left_app.
  cbn [fold_left ws_event]. apply wst_forced; [exact Ub|]. destruct (wst_pend tra w Ua) as [-> | ->]; reflexivity.
Qed.

(** From the moment a function of the application was installed and ulog_set_write_func returned,
    every message logged goes to it, once, as long as no function is installed and no device is
    chosen.  (Missing for the full C36: device changes, see the refutation.) *)
Theorem C36_custom_writer_partial : forall e s tr0 t f tra trb t' m trc trd,
  let tr := tr0 ++ EvSetBegin t (User f) :: tra ++ EvSetEnd t :: trb ++ EvCall t' (WLog m) :: trc ++ EvRet t' :: trd in
  reaches e s tr -> legal tr -> undisturbed (tra ++ trb ++ trc) -> no_call t' trc -> delivs t' trc = [(DUser f, m)].
Proof.
  intros e s tr0 t f tra trb t' m trc trd tr R Lg U N. subst tr. rewrite app_assoc in U. apply undisturbed_app in U. destruct U as (U & Uc).
  assert (X : tr0 ++ EvSetBegin t (User f) :: tra ++ EvSetEnd t :: trb ++ EvCall t' (WLog m) :: trc ++ EvRet t' :: trd =
              (tr0 ++ EvSetBegin t (User f) :: tra ++ EvSetEnd t :: trb) ++ EvCall t' (WLog m) :: trc ++ EvRet t' :: trd).
  { rewrite <- app_assoc. cbn [app]. rewrite <- app_assoc. reflexivity. }
  rewrite X in R, Lg. destruct (ret_info e s _ _ _ _ _ R N Lg) as (_ & F & _). apply F; [apply wst_set; exact U|exact Uc].
Qed.

(** ulog_get_write_func returns it. *)
Theorem C36_get_partial : forall e s tr0 t f tra trb t' trc w trd,
  let tr := tr0 ++ EvSetBegin t (User f) :: tra ++ EvSetEnd t :: trb ++ EvCall t' WGet :: trc ++ EvGot t' w :: trd in
  reaches e s tr -> legal tr -> undisturbed (tra ++ trb ++ trc) -> no_call t' trc -> w = Some (User f).
Proof.
  intros e s tr0 t f tra trb t' trc w trd tr R Lg U N. subst tr. rewrite app_assoc in U. apply undisturbed_app in U. destruct U as (U & Uc).
  assert (X : tr0 ++ EvSetBegin t (User f) :: tra ++ EvSetEnd t :: trb ++ EvCall t' WGet :: trc ++ EvGot t' w :: trd =
              ((tr0 ++ EvSetBegin t (User f) :: tra ++ EvSetEnd t :: trb) ++ EvCall t' WGet :: trc) ++ EvGot t' w :: trd).
  { repeat (rewrite <- app_assoc; cbn [app]). reflexivity. }
  rewrite X in R, Lg. destruct (event_step e s _ _ _ R) as (s1 & tr & t0 & o & a & s2 & e1 & e2 & R1 & H & E).
  rewrite E, <- app_assoc in Lg. apply legal_app in Lg. pose proof (inv_calls e s1 tr R1 Lg t0) as P.
  origin H. inversion H0. subst t0 w0. rewrite app_nil_r in E. rewrite ?Q in P.
  destruct P as [P|[P|(tr1 & o' & tr2 & E' & N' & C & F & _)]]; try discriminate. rewrite <- E in E'.
  destruct (last_call_unique _ _ _ _ _ _ _ E' N N') as (<- & _ & <-). apply F; [apply wst_set; exact U|exact Uc].
Qed.

Definition th (t : nat) (o : call) (a : answer) : nat * call * answer := (t, o, a).
Definition ans (fd : Z) : answer := mkAns fd true true false.
Definition ex_env (stderr : bool) : env := mkEnv stderr false None.
Definition ex_m : msg := mkMsg 4 (bytes_of_string "net") (bytes_of_string "down" ++ [0]).
Lemma legal_user : forall tr, (forall t w, In (EvCall t (WSet w)) tr -> exists f, w = User f) -> legal tr.
Proof. intros tr H tr1 t w tr2 E. left. apply (H t). rewrite E. apply in_app_iff. right. left. reflexivity. Qed.
Ltac in_list H := repeat match type of H with _ \/ _ => destruct H as [H|H]; [try discriminate H|] end; try contradiction.

(** Thread 1 installs function 5, thread 2 logs, thread 1 asks for the function. *)
Definition ex36 : list (nat * call * answer) :=
  repeat (th 1 (WSet (User 5)) (ans 3)) 5 ++ repeat (th 2 (WLog ex_m) (ans 3)) 6 ++ repeat (th 1 WGet (ans 3)) 5.
Example C36_ex : snd (run (ex_env true) init ex36) =
  [EvCall 1 (WSet (User 5)); EvSetBegin 1 (User 5); EvSetEnd 1; EvCall 2 (WLog ex_m); EvDeliver 2 (DUser 5) ex_m;
   EvStderr 2 (bytes_of_string "W net: down" ++ [10]); EvRet 2; EvCall 1 WGet; EvGot 1 (Some (User 5))] /\
  legal (snd (run (ex_env true) init ex36)).
Proof.
  match goal with |- ?x = ?y /\ _ => assert (E : x = y) by reflexivity end. rewrite E. split; [reflexivity|].
  apply legal_user. intros t w H. cbn [In] in H. in_list H. inversion H. eauto.
Qed.

(** Choosing a device discards the function: the full claim is false. *)
Theorem C36_refuted : exists e s tr0 t f tra trb t' m trc trd,
  let tr := tr0 ++ EvSetBegin t (User f) :: tra ++ EvSetEnd t :: trb ++ EvCall t' (WLog m) :: trc ++ EvRet t' :: trd in
  reaches e s tr /\ legal tr /\ (forall t w, ~ In (EvSetBegin t w) (tra ++ trb ++ trc)) /\ no_call t' trc /\
  delivs t' trc = [(DKernel 3, m)].
Proof.
  set (sched := repeat (th 1 (WSet (User 5)) (ans 3)) 5 ++ repeat (th 1 (WDev (bytes_of_string "x")) (ans 3)) 6 ++
    repeat (th 2 (WLog ex_m) (ans 3)) 14).
  exists (ex_env false), (fst (run (ex_env false) init sched)), [EvCall 1 (WSet (User 5))], 1%nat, 5%nat, [],
    [EvCall 1 (WDev (bytes_of_string "x")); EvDevSet 1 (bytes_of_string "x") true; EvDevEnd 1 0], 2%nat, ex_m,
    [EvOpen 2 (bytes_of_string "/dev/ulog_x") 3; EvDeliver 2 (DKernel 3) ex_m], [].
  intros tr. split; [exists sched; vm_compute; reflexivity|]. split; [|split; [|split]].
  - apply legal_user. intros t w H. vm_compute in H. in_list H. inversion H. eauto.
  - intros t w H. vm_compute in H. in_list H.
  - intros o H. vm_compute in H. in_list H.
  - reflexivity.
Qed.

(** ** C37 *)

(** The device is opened at most once per initialisation: once, plus once for each successful
    ulog_set_log_device, whatever the interleaving. *)
Theorem C37_opens : forall e s tr, reaches e s tr -> legal tr -> opens tr <= 1 + devsets tr.
Proof.
  intros e s tr R Lg. pose proof (inv_opens e s tr R Lg) as H. unfold slack in H. destruct (dev_stage (hp s) || _); lia.
Qed.

(** When a message has been logged and no function was installed and no device chosen, the device
    was opened exactly once. *)
Lemma opens_nonneg : forall tr, 0 <= opens tr.
Proof. intros tr. apply zlen_nonneg. Qed.
Lemma opens_pos : forall tr, ~ (forall t p fd, ~ In (EvOpen t p fd) tr) -> 1 <= opens tr.
Proof.
  intros tr H. destruct (Z.leb_spec 1 (opens tr)); [assumption|]. exfalso. apply H. intros t p fd Hin. unfold opens in *.
  destruct (filter is_open tr) as [|x l] eqn:E; [|rewrite zlen_cons in *; pose proof (zlen_nonneg l); lia].
  assert (In (EvOpen t p fd) []) as []. { rewrite <- E. apply filter_In. split; [exact Hin|reflexivity]. }
Qed.
Theorem C37_opened_once : forall e s tr1 t m tr2 tr3,
  let tr := tr1 ++ EvCall t (WLog m) :: tr2 ++ EvRet t :: tr3 in
  reaches e s tr -> legal tr -> no_call t tr2 -> (forall t' w, ~ In (EvSetBegin t' w) tr) -> (forall t' n ok, ~ In (EvDevSet t' n ok) tr) ->
  opens tr = 1.
Proof.
  intros e s tr1 t m tr2 tr3 tr R Lg N Ns Nd. pose proof (C37_opens e s tr R Lg) as H.
  assert (devsets tr = 0) as D.
  { unfold devsets. destruct (filter is_devset tr) as [|x l] eqn:E; [reflexivity|]. exfalso.
    assert (Hx : In x (filter is_devset tr)) by (rewrite E; left; reflexivity). apply filter_In in Hx. destruct Hx as (A & B).
    destruct x; try discriminate B. apply (Nd _ _ _ A). }
  enough (1 <= opens tr) by lia. apply opens_pos. intros No. subst tr. destruct (ret_info e s _ _ _ _ _ R N Lg) as (_ & _ & U).
  assert (G : forall x, In x (tr1 ++ EvCall t (WLog m) :: tr2 ++ EvRet t :: tr3) -> match x with EvOpen _ _ _ | EvSetBegin _ _ => False | _ => True end).
  { intros [] Hx; try exact I; [apply (No _ _ _ Hx)|apply (Ns _ _ Hx)]. }
  apply U.
  - apply (wst_stale tr1); [|left; reflexivity]. intros x Hx. apply G. apply in_app_iff. left. exact Hx.
  - intros x Hx. apply G. apply in_app_iff. right. right. apply in_app_iff. left. exact Hx.
Qed.

(** Every message logged is handed to exactly one output function, exactly once, unchanged. *)
Theorem C37_delivered_once : forall e s tr1 t m tr2 tr3,
  let tr := tr1 ++ EvCall t (WLog m) :: tr2 ++ EvRet t :: tr3 in
  reaches e s tr -> legal tr -> no_call t tr2 -> exists d, delivs t tr2 = [(d, m)].
Proof.
  intros e s tr1 t m tr2 tr3 tr R Lg N. destruct (ret_info e s _ _ _ _ _ R N Lg) as (C & _). apply C.
Qed.

(** No output function is ever NULL: nothing crashes, except text messages without NUL. *)
Theorem C37_no_crash : forall e s tr t, reaches e s tr -> legal tr -> In (EvCrash t) tr ->
  exists m, In (EvCall t (WLog m)) tr /\ Z.testbit (m_prio m) 7 = false /\ ~ In 0 (m_buf m).
Proof.
  intros e s tr t R Lg H. pose proof (inv_b e s tr R Lg) as B. pose proof (b_pc _ _ _ B t) as P. rewrite (b_crash _ _ _ B t H) in P.
  destruct P as (m & A & B1 & B2). exists m. split; [exact A|]. split; [exact B1|]. intros Hin. unfold has_nul in B2.
  assert (existsb (fun b => b =? 0) (m_buf m) = true) by (apply existsb_exists; exists 0; split; [exact Hin|reflexivity]). congruence.
Qed.
Theorem C37_get_not_null : forall e s tr t w, reaches e s tr -> legal tr -> In (EvGot t w) tr -> w <> None.
Proof.
  intros e s tr t w R Lg H. destruct (b_got _ _ _ (inv_b e s tr R Lg) t w H) as (w' & -> & _). discriminate.
Qed.

(** Three threads log their first message; two of them enter the initialisation function. *)
Definition ex37 : list (nat * call * answer) :=
  repeat (th 1 (WLog ex_m) (ans 3)) 4 ++ repeat (th 2 (WLog ex_m) (ans 3)) 5 ++ repeat (th 1 (WLog ex_m) (ans 3)) 10 ++
  repeat (th 2 (WLog ex_m) (ans 4)) 6 ++ repeat (th 3 (WLog ex_m) (ans 4)) 4.
Example C37_ex : snd (run (ex_env false) init ex37) =
  [EvCall 1 (WLog ex_m); EvCall 2 (WLog ex_m); EvOpen 1 (bytes_of_string "/dev/ulog_main") 3; EvDeliver 1 (DKernel 3) ex_m; EvRet 1;
   EvDeliver 2 (DKernel 3) ex_m; EvRet 2; EvCall 3 (WLog ex_m); EvDeliver 3 (DKernel 3) ex_m; EvRet 3].
Proof. vm_compute. reflexivity. Qed.

(** ** C38 *)
Lemma dev_of_in : forall tr n, dev_of tr = Some n -> exists t, In (EvDevSet t n true) tr.
Proof.
  intros tr n. unfold dev_of. induction tr as [|x tr IH] using rev_ind; [discriminate|]. rewrite fold_left_app. cbn [fold_left].
  assert (G : fold_left dev_event tr None = Some n -> exists t, In (EvDevSet t n true) (tr ++ [x])).
  { intros H. destruct (IH H) as (t & Ht). exists t. apply in_app_iff. left. exact Ht. }
  destruct x; cbn [dev_event]; try exact G. destruct ok; [|discriminate]. intros H. inversion H. subst. exists t. apply in_app_iff. right. left. reflexivity.
Qed.

(** Whatever is opened once a device is chosen is exactly /dev/ulog_ followed by the name. *)
Theorem C38_path_exact : forall e s tr1 t path fd tr2 n, reaches e s (tr1 ++ EvOpen t path fd :: tr2) -> legal tr1 ->
  dev_of tr1 = Some n -> path = bytes_of_string "/dev/ulog_" ++ n.
Proof.
  intros e s tr1 t path fd tr2 n R Lg D. destruct (event_step e s _ _ _ R) as (s1 & tr & t0 & o & a & s2 & e1 & e2 & R1 & H & E).
  origin H. inversion H0. subst. rewrite app_nil_r in *. unfold dev_path. rewrite (inv_dev e s1 tr R1), D.
  destruct (dev_of_in tr n D) as (t' & Ht). pose proof (inv_dev_len e s1 tr R1 Lg t' n true Ht). unfold devbuf.
  change (bytes_of_string "/dev/ulog_") with DEV_PREFIX. apply ztake_all. rewrite zlen_app. assert (zlen DEV_PREFIX = 10) by reflexivity. unfold DEV_MAX_LEN. lia.
Qed.

(** After ulog_set_log_device returned 0, the device is opened before the next message has been
    written (unless a function is installed). *)
Lemma wst_dev : forall b, (forall t w, ~ In (EvSetBegin t w) b) -> forall x, (x = WDevDone \/ exists st, x = WDevPend st) -> (forall t p fd, ~ In (EvOpen t p fd) b) ->
  fold_left ws_event b x = WDevDone \/ exists st, fold_left ws_event b x = WDevPend st.
Proof.
  induction b as [|ev b IH]; intros Ns x Hx No; [exact Hx|]. cbn [fold_left].
  apply IH; [intros t w Hi; apply (Ns t w); right; exact Hi| |intros t p fd Hi; apply (No t p fd); right; exact Hi].
  assert (N1 : forall t w, ev <> EvSetBegin t w) by (intros t w ->; apply (Ns t w); left; reflexivity).
  assert (N2 : forall t p fd, ev <> EvOpen t p fd) by (intros t p fd ->; apply (No t p fd); left; reflexivity).
  destruct ev; cbn; try exact Hx; try (exfalso; eapply N1; reflexivity); try (exfalso; eapply N2; reflexivity); destruct Hx as [-> |(st & ->)]; eauto.
  - destruct ok; eauto.
  - destruct ok; eauto. destruct st; eauto.
  - destruct (r =? 0); eauto.
Qed.
Lemma wst_dev_idle : forall b, idle_writer b -> forall x, fresh x -> fresh (fold_left ws_event b x).
Proof. intros b H x Hx. apply wst_stale; assumption. Qed.

Theorem C38_opened_next : forall e s tr0 t n tra trb t' m trc trd,
  let tr := tr0 ++ EvDevSet t n true :: tra ++ EvDevEnd t 0 :: trb ++ EvCall t' (WLog m) :: trc ++ EvRet t' :: trd in
  reaches e s tr -> legal tr -> no_call t' trc ->
  (forall t0 w, ~ In (EvSetBegin t0 w) (tra ++ trb ++ trc)) -> (forall t0 n0 ok, ~ In (EvDevSet t0 n0 ok) (tra ++ trb ++ trc)) ->
  exists t0 fd, In (EvOpen t0 (bytes_of_string "/dev/ulog_" ++ n) fd) (tra ++ trb ++ trc).
Proof.
  intros e s tr0 t n tra trb t' m trc trd tr R Lg N Ns Nd.
  assert (X : tr = (tr0 ++ EvDevSet t n true :: tra ++ EvDevEnd t 0 :: trb) ++ EvCall t' (WLog m) :: trc ++ EvRet t' :: trd).
  { subst tr. repeat (rewrite <- app_assoc; cbn [app]). reflexivity. }
  assert (Ex : ~ (forall t0 p fd, ~ In (EvOpen t0 p fd) (tra ++ trb ++ trc))).
  { intros No'. rewrite X in R, Lg. destruct (ret_info e s _ _ _ _ _ R N Lg) as (_ & _ & U).
    assert (Iw : idle_writer (trb ++ trc)).
    { intros x Hx. destruct x; try exact I; [apply (No' t0 path fd); apply in_app_iff; right; exact Hx|]. apply (Ns t0 w). apply in_app_iff. right. exact Hx. }
    apply idle_writer_app in Iw. apply U; [|apply Iw]. rewrite wst_app. cbn [fold_left ws_event]. rewrite fold_left_app. cbn [fold_left].
    apply wst_dev_idle; [apply Iw|]. cbn [ws_event].
    set (x := match wst tr0 with WDevDone | WDevPend true => WDevPend true | _ => WDevPend false end).
    assert (Hx : x = WDevDone \/ exists st, x = WDevPend st) by (right; unfold x; destruct (wst tr0) as [| | |[]|]; eauto).
    destruct (wst_dev tra) with (x := x) as [-> |(st & ->)]; [| | | left; reflexivity|left; reflexivity].
    - intros t0 w Hi. apply (Ns t0 w). apply in_app_iff. left. exact Hi.
    - exact Hx.
    - intros t0 p fd Hi. apply (No' t0 p fd). apply in_app_iff. left. exact Hi. }
  assert (F : exists x, In x (tra ++ trb ++ trc) /\ is_open x = true).
  { destruct (existsb is_open (tra ++ trb ++ trc)) eqn:B; [apply existsb_exists; exact B|]. exfalso. apply Ex. intros t0 p fd Hi.
    assert (existsb is_open (tra ++ trb ++ trc) = true) by (apply existsb_exists; exists (EvOpen t0 p fd); split; [exact Hi|reflexivity]). congruence. }
  destruct F as (x & Hx & Ho). destruct x; try discriminate Ho. rename t0 into tx.
  assert (W : exists l1 l2, tr = l1 ++ EvOpen tx path fd :: l2 /\ dev_of l1 = Some n).
  { assert (G : forall b, (forall t0 n0 ok, ~ In (EvDevSet t0 n0 ok) b) -> fold_left dev_event b (Some n) = Some n).
    { clear. induction b as [|y b IH]; intros H; [reflexivity|]. cbn [fold_left].
      assert (dev_event (Some n) y = Some n) as ->.
      { destruct y; try reflexivity. exfalso. eapply H. left. reflexivity. }
      apply IH. intros t0 n0 ok Hi. apply (H t0 n0 ok). right. exact Hi. }
    assert (Na : forall t0 n0 ok, ~ In (EvDevSet t0 n0 ok) tra) by (intros t0 n0 ok Hi; apply (Nd t0 n0 ok); apply in_app_iff; left; exact Hi).
    apply in_app_iff in Hx. destruct Hx as [Hx|Hx].
    { apply in_split in Hx. destruct Hx as (l1 & l2 & ->).
      exists (tr0 ++ EvDevSet t n true :: l1), (l2 ++ EvDevEnd t 0 :: trb ++ EvCall t' (WLog m) :: trc ++ EvRet t' :: trd).
      split; [subst tr; repeat (rewrite <- app_assoc; cbn [app]); reflexivity|]. unfold dev_of. rewrite fold_left_app. cbn [fold_left dev_event]. apply G.
      intros t0 n0 ok Hi. apply (Na t0 n0 ok). apply in_app_iff. left. exact Hi. }
    apply in_app_iff in Hx. destruct Hx as [Hx|Hx]; apply in_split in Hx; destruct Hx as (l1 & l2 & ->).
    - exists (tr0 ++ EvDevSet t n true :: tra ++ EvDevEnd t 0 :: l1), (l2 ++ EvCall t' (WLog m) :: trc ++ EvRet t' :: trd).
      split; [subst tr; repeat (rewrite <- app_assoc; cbn [app]); reflexivity|]. unfold dev_of.
      rewrite fold_left_app. cbn [fold_left dev_event]. rewrite fold_left_app. cbn [fold_left dev_event]. rewrite (G tra Na). apply G.
      intros t0 n0 ok Hi. apply (Nd t0 n0 ok). rewrite !in_app_iff. tauto.
    - exists (tr0 ++ EvDevSet t n true :: tra ++ EvDevEnd t 0 :: trb ++ EvCall t' (WLog m) :: l1), (l2 ++ EvRet t' :: trd).
      split; [subst tr; repeat (rewrite <- app_assoc; cbn [app]); reflexivity|]. unfold dev_of.
      rewrite fold_left_app. cbn [fold_left dev_event]. rewrite fold_left_app. cbn [fold_left dev_event]. rewrite (G tra Na).
      rewrite fold_left_app. cbn [fold_left dev_event]. rewrite G.
      + apply G. intros t0 n0 ok Hi. apply (Nd t0 n0 ok). rewrite !in_app_iff. tauto.
      + intros t0 n0 ok Hi. apply (Nd t0 n0 ok). rewrite !in_app_iff. tauto. }
  destruct W as (l1 & l2 & El & D). exists tx, fd.
  rewrite El in R, Lg. rewrite <- (C38_path_exact e s l1 tx path fd l2 n R (legal_app _ _ Lg) D). exact Hx.
Qed.

(** A name too long is refused at once and nothing changes. *)
Theorem C38_too_long : forall e s tr t n a, reaches e s tr -> s_th s t = Idle -> zlen n > 20 ->
  step e s t (WDev n) a = (s, [EvCall t (WDev n); EvDevEnd t (- E2BIG)]).
Proof.
  intros e s tr t n a R H L. unfold step. rewrite H. change DEV_NAME_MAX_LEN with 21. destruct (Z.geb_spec (zlen n) 21); [reflexivity|lia].
Qed.
Theorem C38_never_stored : forall e s tr t n ok, reaches e s tr -> legal tr -> In (EvDevSet t n ok) tr -> zlen n <= 20.
Proof. intros e s tr t n ok R Lg H. apply (inv_dev_len e s tr R Lg t n ok H). Qed.

(** Names of 20 and 21 bytes. *)
Definition ex38 : list (nat * call * answer) :=
  repeat (th 1 (WDev (zrepeat 97 21)) (ans 3)) 1 ++ repeat (th 1 (WDev (zrepeat 97 20)) (ans 3)) 5 ++ repeat (th 2 (WLog ex_m) (ans 3)) 14.
Example C38_ex : snd (run (ex_env false) init ex38) =
  [EvCall 1 (WDev (zrepeat 97 21)); EvDevEnd 1 (-7); EvCall 1 (WDev (zrepeat 97 20)); EvDevSet 1 (zrepeat 97 20) true; EvDevEnd 1 0;
   EvCall 2 (WLog ex_m); EvOpen 2 (bytes_of_string "/dev/ulog_" ++ zrepeat 97 20) 3; EvDeliver 2 (DKernel 3) ex_m; EvRet 2].
Proof. vm_compute. reflexivity. Qed.

(** ** C41 *)
Lemma inv_replay : forall e s tr, reaches e s tr -> s_replay s = replay_of tr.
Proof.
  intros e. apply (reaches_ind2 e (fun s tr => s_replay s = replay_of tr)); [reflexivity|].
  intros s tr t o a s' ev _ IH H. unfold replay_of. rewrite fold_left_app. change (fold_left replay_event tr None) with (replay_of tr). rewrite <- IH.
  cases H; reflexivity.
Qed.

Lemma has_nul_last : forall text, has_nul (text ++ [0]) = true.
Proof. intros text. unfold has_nul. rewrite existsb_app. cbn. rewrite orb_true_r. reflexivity. Qed.

Lemma level_prefix : forall color m, exists p, stderr_prefix color m p /\ prio_text color (m_prio m) ++ [32] ++ m_tag m ++ [58; 32] = p.
Proof.
  intros color m. eexists. split; [|reflexivity]. unfold stderr_prefix, prio_text, level_letter.
  change 7 with (Z.ones 3). rewrite Z.land_ones by lia. change (2 ^ 3) with 8.
  pose proof (Z.mod_pos_bound (m_prio m) 8 eq_refl) as B. remember (m_prio m mod 8) as v.
  assert (C : v = 0 \/ v = 1 \/ v = 2 \/ v = 3 \/ v = 4 \/ v = 5 \/ v = 6 \/ v = 7) by lia.
  assert (G : forall d a, 48 <= d <= 59 -> 48 <= a <= 59 -> colour_start [27; 91; d; 59; 51; a; 109]).
  { intros d a Hd Ha. exists [d; 59; 51; a]. split; [reflexivity|]. repeat constructor; lia. }
  destruct color; repeat (destruct C as [C|C]); rewrite C; cbn [negb orb andb Z.ltb Z.leb Z.compare Pos.compare Pos.compare_cont];
    try (exists [], []; split; [reflexivity|split; reflexivity]);
    match goal with |- exists pre post, (27 :: bytes_of_string ?a ++ _) ++ _ = _ /\ _ => exists (27 :: bytes_of_string a), colour_end end;
    (split; [reflexivity|]); (split; [|reflexivity]); apply G; vm_compute; split; discriminate.
Qed.

(** Every line printed: the replay time if one was given, the prefix, and the text of the message
    with exactly one line feed at the end. *)
Theorem C41_line : forall r color m text, m_buf m = text ++ [0] -> ~ In 0 text ->
  exists ts p, stderr_text r color m = Ok (ts ++ p ++ one_line text) /\ replay_text r ts /\ stderr_prefix color m p.
Proof.
  intros r color m text Hb Hn. destruct (level_prefix color m) as (p & Hp & Ep).
  unfold stderr_text. rewrite Hb, has_nul_last, cstr_app_nul by exact Hn.
  set (ts := match r with Some (sec, nsec) => _ | None => [] end). exists ts, p. split; [|split; [|exact Hp]].
  - rewrite <- Ep. unfold one_line. f_equal. f_equal. rewrite <- !app_assoc. do 4 f_equal.
    rewrite zlen_app. change (zlen [0]) with 1. pose proof (zlen_nonneg text).
    replace (zlen text + 1 - 2) with (zlen text - 1) by lia.
    destruct text as [|b text] using rev_ind; [reflexivity|]. rewrite last_last, zlen_app in *. change (zlen [b]) with 1 in *. pose proof (zlen_nonneg text).
    assert (znth (zlen text + 1 - 1) ((text ++ [b]) ++ [0]) = b) as ->.
    { rewrite <- app_assoc. replace (zlen text + 1 - 1) with (zlen text) by lia. rewrite znth_app by lia.
      destruct (Z.ltb_spec (zlen text) (zlen text)); [lia|]. rewrite Z.sub_diag. reflexivity. }
    destruct (Z.leb_spec 2 (zlen text + 1 + 1)); [|lia]. destruct (b =? 10); cbn [andb]; [apply app_nil_r|reflexivity].
  - unfold ts, replay_text. destruct r as [(sec & nsec)|]; [|reflexivity]. exists (dec3 (nsec / 1000000)). split; [reflexivity|]. split; [reflexivity|].
    intros Hns. unfold dec3. cbn [fold_left]. assert (0 <= nsec / 1000000 < 1000) by (split; [apply Z.div_pos; lia|apply Z.div_lt_upper_bound; lia]).
    set (v := nsec / 1000000) in *. clearbody v. Z.div_mod_to_equations. lia.
Qed.

(** With ULOG_STDERR, a logged text message is printed exactly once, a binary message never. *)
Theorem C41_printed_once : forall e s tr1 t m tr2 tr3 text,
  let tr := tr1 ++ EvCall t (WLog m) :: tr2 ++ EvRet t :: tr3 in
  reaches e s tr -> legal tr -> no_call t tr2 -> e_stderr e = true -> Z.testbit (m_prio m) 7 = false ->
  m_buf m = text ++ [0] -> ~ In 0 text ->
  (exists r ts p, prints t tr2 = [ts ++ p ++ one_line text] /\ replay_text r ts /\ stderr_prefix (e_color e) m p) /\
  (exists d, delivs t tr2 = [(d, m)]).
Proof.
  intros e s tr1 t m tr2 tr3 text tr R Lg N Es Bn Hb Hn. destruct (ret_info e s _ _ _ _ _ R N Lg) as ((_ & D & P) & _). split; [|exact D].
  destruct P as [(_ & P)|P]; [congruence|]. unfold printed, is_binary in P. rewrite Bn in P. destruct P as (r & x & Ex & Ep).
  destruct (C41_line r (e_color e) m text Hb Hn) as (ts & p & E & A & B). exists r, ts, p. split; [congruence|]. split; assumption.
Qed.
Theorem C41_binary : forall e s tr1 t m tr2 tr3,
  let tr := tr1 ++ EvCall t (WLog m) :: tr2 ++ EvRet t :: tr3 in
  reaches e s tr -> legal tr -> no_call t tr2 -> Z.testbit (m_prio m) 7 = true ->
  prints t tr2 = [] /\ (exists d, delivs t tr2 = [(d, m)]).
Proof.
  intros e s tr1 t m tr2 tr3 tr R Lg N Bn. destruct (ret_info e s _ _ _ _ _ R N Lg) as ((_ & D & P) & _). split; [|exact D].
  destruct P as [(P & _)|P]; [exact P|]. unfold printed, is_binary in P. rewrite Bn in P. exact P.
Qed.
(** The time printed is the last one given (none if none was given). *)
Theorem C41_time : forall e s tr1 t l tr2, reaches e s (tr1 ++ EvStderr t l :: tr2) ->
  exists m color, stderr_text (replay_of tr1) color m = Ok l.
Proof.
  intros e s tr1 t l tr2 R. destruct (event_step e s _ _ _ R) as (s1 & tr & t0 & o & a & s2 & e1 & e2 & R1 & H & E).
  origin H. inversion H0. subst. rewrite app_nil_r, <- (inv_replay e s1 tr R1). eauto.
Qed.

(** A message with a line feed and a colour, with a replay time; then a binary message. *)
Definition ex41_m : msg := mkMsg 3 (bytes_of_string "net") (bytes_of_string "down" ++ [10; 0]).
Definition ex41_b : msg := mkMsg 131 (bytes_of_string "net") [1; 0; 2].
Definition ex41 : list (nat * call * answer) :=
  repeat (th 1 (WReplay 12 34000000) (ans 3)) 1 ++ repeat (th 2 (WLog ex41_m) (ans (-2))) 16 ++ repeat (th 2 (WLog ex41_b) (ans 3)) 6.
Example C41_ex : filter (fun x => match x with EvStderr _ _ | EvDeliver _ _ _ | EvRet _ => true | _ => false end)
    (snd (run (mkEnv true true None) init ex41)) =
  [EvRet 1; EvDeliver 2 DNull ex41_m;
   EvStderr 2 (bytes_of_string "12.034 " ++ [27] ++ bytes_of_string "[1;31mE" ++ [27] ++ bytes_of_string "[0m net: down" ++ [10]);
   EvRet 2; EvDeliver 2 DNull ex41_b; EvRet 2].
Proof. vm_compute. reflexivity. Qed.

(** ** C61 *)

(** At most one descriptor is open, if open never returns descriptor 0 (missing: see the refutation). *)
Theorem C61_no_leak_partial : forall e s tr, reaches e s tr -> legal tr -> (forall t p fd, In (EvOpen t p fd) tr -> fd <> 0) ->
  zlen (open_fds tr) <= 1.
Proof.
  intros e s tr R Lg Nz. destruct (inv_fd e s tr R Lg Nz) as (E & _). rewrite E. unfold live.
  destruct (hp s); cbn; try lia; destruct (s_fd s >=? 0); cbn; lia.
Qed.
(** Descriptor 0 is never closed: with standard input closed, each device change can leak it. *)
Theorem C61_refuted : exists e s tr, reaches e s tr /\ legal tr /\ s_lock s = None /\ (forall t, s_th s t = Idle) /\ open_fds tr = [3; 0].
Proof.
  set (sched := repeat (th 1 (WLog ex_m) (ans 0)) 14 ++ repeat (th 1 (WDev (bytes_of_string "x")) (ans 3)) 6 ++ repeat (th 1 (WLog ex_m) (ans 3)) 14).
  exists (ex_env false), (fst (run (ex_env false) init sched)), (snd (run (ex_env false) init sched)).
  split; [exists sched; destruct (run (ex_env false) init sched); reflexivity|].
  assert (E : snd (run (ex_env false) init sched) =
    [EvCall 1 (WLog ex_m); EvOpen 1 (bytes_of_string "/dev/ulog_main") 0; EvDeliver 1 (DKernel 0) ex_m; EvRet 1;
     EvCall 1 (WDev (bytes_of_string "x")); EvDevSet 1 (bytes_of_string "x") true; EvDevEnd 1 0;
     EvCall 1 (WLog ex_m); EvOpen 1 (bytes_of_string "/dev/ulog_x") 3; EvDeliver 1 (DKernel 3) ex_m; EvRet 1]) by reflexivity.
  rewrite E. split; [|split; [reflexivity|split; [|reflexivity]]].
  - apply legal_user. intros t w H. cbn [In] in H. in_list H.
  - intros t. destruct t as [|[|]]; reflexivity.
Qed.
(** A device change with a descriptor other than 0. *)
Definition ex61 : list (nat * call * answer) :=
  repeat (th 1 (WLog ex_m) (ans 4)) 14 ++ repeat (th 1 (WDev (bytes_of_string "x")) (ans 3)) 8 ++ repeat (th 1 (WLog ex_m) (ans 5)) 13.
Example C61_ex : open_fds (snd (run (ex_env false) init ex61)) = [5] /\ opens (snd (run (ex_env false) init ex61)) = 2.
Proof. vm_compute. split; reflexivity. Qed.

(** ** C62 *)

(** As long as no device is chosen, a message written to the kernel goes to the one descriptor
    that is open (missing: device changes, see the refutation). *)
Theorem C62_open_descriptor_partial : forall e s tr1 t fd m tr2, reaches e s (tr1 ++ EvDeliver t (DKernel fd) m :: tr2) -> legal tr1 ->
  (forall t' n, ~ In (EvDevSet t' n true) tr1) -> open_fds tr1 = [fd].
Proof.
  intros e s tr1 t fd m tr2 R Lg Nd. destruct (event_step e s _ _ _ R) as (s1 & tr & t0 & o & a & s2 & e1 & e2 & R1 & H & E).
  origin H. inversion H0. subst. rewrite app_nil_r in *. destruct (inv_kdev e s1 tr R1 Lg Nd) as [(_ & K & _)|(_ & _ & _ & K & _)]; [exact K|].
  specialize (K t0). rewrite ?Q in K. cbn in K. congruence.
Qed.
(** A message logged while another thread changes the device can be written to a closed
    descriptor. *)
Theorem C62_refuted : exists e s tr1 t fd m tr2, reaches e s (tr1 ++ EvDeliver t (DKernel fd) m :: tr2) /\
  legal (tr1 ++ EvDeliver t (DKernel fd) m :: tr2) /\ ~ In fd (open_fds tr1).
Proof.
  set (sched := repeat (th 1 (WLog ex_m) (ans 4)) 16 ++ repeat (th 2 (WDev (bytes_of_string "x")) (ans 3)) 5 ++ repeat (th 1 (WLog ex_m) (ans 3)) 1).
  exists (ex_env false), (fst (run (ex_env false) init sched)),
    [EvCall 1 (WLog ex_m); EvOpen 1 (bytes_of_string "/dev/ulog_main") 4; EvDeliver 1 (DKernel 4) ex_m; EvRet 1; EvCall 1 (WLog ex_m);
     EvCall 2 (WDev (bytes_of_string "x")); EvDevSet 2 (bytes_of_string "x") true; EvClose 2 4], 1%nat, 4, ex_m, [].
  split; [exists sched; vm_compute; reflexivity|]. split.
  - apply legal_user. intros t w H. vm_compute in H. in_list H.
  - vm_compute. tauto.
Qed.
Example C62_ex : exists tr1 tr2, snd (run (ex_env false) init ex37) = tr1 ++ EvDeliver 3 (DKernel 3) ex_m :: tr2 /\ open_fds tr1 = [3].
Proof.
  exists (firstn 8 (snd (run (ex_env false) init ex37))), [EvRet 3]. split; vm_compute; reflexivity.
Qed.

(** ** C63 *)

(** The device named by ULOG_DEVICE is opened under its name if the name has at most 21 bytes
    (missing: longer names, see the refutation). *)
Theorem C63_env_device_partial : forall e s tr1 t path fd tr2 n, reaches e s (tr1 ++ EvOpen t path fd :: tr2) ->
  dev_of tr1 = None -> e_device e = Some n -> zlen n <= 21 -> path = bytes_of_string "/dev/ulog_" ++ n.
Proof.
  intros e s tr1 t path fd tr2 n R D En L. destruct (event_step e s _ _ _ R) as (s1 & tr & t0 & o & a & s2 & e1 & e2 & R1 & H & E).
  origin H. inversion H0. subst. rewrite app_nil_r in *. unfold dev_path. rewrite (inv_dev e s1 tr R1), D, En. unfold devbuf.
  change (bytes_of_string "/dev/ulog_") with DEV_PREFIX. apply ztake_all. rewrite zlen_app. assert (zlen DEV_PREFIX = 10) by reflexivity. unfold DEV_MAX_LEN. lia.
Qed.
(** Without any name, the main device is opened. *)
Theorem C63_default_device : forall e s tr1 t path fd tr2, reaches e s (tr1 ++ EvOpen t path fd :: tr2) ->
  dev_of tr1 = None -> e_device e = None -> path = bytes_of_string "/dev/ulog_main".
Proof.
  intros e s tr1 t path fd tr2 R D En. destruct (event_step e s _ _ _ R) as (s1 & tr & t0 & o & a & s2 & e1 & e2 & R1 & H & E).
  origin H. inversion H0. subst. rewrite app_nil_r in *. unfold dev_path. rewrite (inv_dev e s1 tr R1), D, En. reflexivity.
Qed.
(** A longer name is cut: another device is opened. *)
Theorem C63_refuted : exists n s t fd, zlen n = 22 /\
  reaches (mkEnv false false (Some n)) s [EvCall t (WLog ex_m); EvOpen t (bytes_of_string "/dev/ulog_" ++ ztake 21 n) fd].
Proof.
  set (n := zrepeat 97 22). set (sched := repeat (th 1 (WLog ex_m) (ans 4)) 6).
  exists n, (fst (run (mkEnv false false (Some n)) init sched)), 1%nat, 4. split; [reflexivity|]. exists sched. vm_compute. reflexivity.
Qed.
Example C63_ex : snd (run (mkEnv false false (Some (bytes_of_string "flight"))) init (repeat (th 1 (WLog ex_m) (ans 4)) 6)) =
  [EvCall 1 (WLog ex_m); EvOpen 1 (bytes_of_string "/dev/ulog_flight") 4].
Proof. vm_compute. reflexivity. Qed.

Print Assumptions C35_formatted_message.
Print Assumptions C35_error.
Print Assumptions C36_custom_writer_partial.
Print Assumptions C36_get_partial.
Print Assumptions C36_refuted.
Print Assumptions C37_opens.
Print Assumptions C37_opened_once.
Print Assumptions C37_delivered_once.
Print Assumptions C37_no_crash.
Print Assumptions C37_get_not_null.
Print Assumptions C38_path_exact.
Print Assumptions C38_opened_next.
Print Assumptions C38_too_long.
Print Assumptions C38_never_stored.
Print Assumptions C41_line.
Print Assumptions C41_printed_once.
Print Assumptions C41_binary.
Print Assumptions C41_time.
Print Assumptions C61_no_leak_partial.
Print Assumptions C61_refuted.
Print Assumptions C62_open_descriptor_partial.
Print Assumptions C62_refuted.
Print Assumptions C63_env_device_partial.
Print Assumptions C63_default_device.
Print Assumptions C63_refuted.
