(** Property C132: a run of the tool ulogctl. *)
From Coq Require Import ZArith String List Bool Lia ZifyBool ZifyNat Permutation Sorted.
From Verif Require Import Bytes BytesProofs Ctl CtlSys PropsCtl CtlSysSpec PropsCtlSys CtlTool ToolRun ToolRunSpec.
Import ListNotations.
Open Scope Z_scope.

Lemma quiet0 : quiet cb0.
Proof. intros k. split; [reflexivity|constructor]. Qed.
Lemma srun_app a : forall b y y1 t1 y2 t2, sys_run cb0 y a = Ok (y1, t1) -> sys_run cb0 y1 b = Ok (y2, t2) -> sys_run cb0 y (a ++ b) = Ok (y2, t1 ++ t2).
Proof.
  induction a as [|m a IH]; intros b y y1 t1 y2 t2 E1 E2; cbn [sys_run app] in *.
  - assert (y1 = y) by congruence. assert (t1 = []) by congruence. subst. exact E2.
  - destruct (sys_step cb0 y m) as [[y0 t0]|]; cbn [bind] in *; [|discriminate]. destruct (sys_run cb0 y0 a) as [[y3 t3]|] eqn:E; cbn [bind] in *; [|discriminate].
    assert (y3 = y1) by congruence. assert (t1 = t0 ++ t3) by congruence. subst. rewrite (IH b y0 y1 t3 y2 t2 E E2). cbn [bind]. now rewrite app_assoc.
Qed.
Lemma shows_app color a b : shows color (a ++ b) = shows color a ++ shows color b.
Proof. apply flat_map_app. Qed.
Lemma stops_app a b : stops (a ++ b) = stops a || stops b.
Proof. apply existsb_app. Qed.

(** The loop as a run. *)
Lemma loop_run color rounds : forall y y' text e, loop color y rounds = Ok (y', text, e) ->
  exists ms tr, sys_run cb0 y ms = Ok (y', tr) /\ text = shows color tr /\ stops tr = e /\ (forall m, In m ms -> In m (concat rounds)) /\ (e = false -> ms = concat rounds).
Proof.
  induction rounds as [|r rounds IH]; intros y y' text e E; cbn [loop concat] in *.
  - injection E as <- <- <-. exists [], []. repeat split; auto.
  - destruct (sys_run cb0 y r) as [[y1 t1]|] eqn:E1; cbn [bind] in E; [|discriminate]. destruct (stops t1) eqn:S.
    + injection E as <- <- <-. exists r, t1. repeat split; auto; [intros m H; apply in_or_app; auto|discriminate].
    + destruct (loop color y1 rounds) as [[[y2 tx] e2]|] eqn:E2; cbn [bind] in E; [|discriminate]. injection E as <- <- <-.
      destruct (IH _ _ _ _ E2) as (ms & tr & H1 & -> & H3 & H4 & H5). exists (r ++ ms), (t1 ++ tr). split; [eapply srun_app; eauto|]. rewrite shows_app, stops_app, S, H3.
      split; [reflexivity|]. split; [reflexivity|]. split; [|intros X; now rewrite (H5 X)]. intros m H. apply in_app_or in H. apply in_or_app. destruct H; auto.
Qed.
Lemma outside_sound m : outside m -> sound m.
Proof. destruct m; cbn; auto; intros []. Qed.
Lemma loop_ok color reg0 rounds : forall y tr, Inv reg0 y tr -> Forall outside (concat rounds) -> exists y' text e, loop color y rounds = Ok (y', text, e).
Proof.
  induction rounds as [|r rounds IH]; intros y tr I F; cbn [loop concat] in *; [eauto|]. apply Forall_app in F as [F1 F2].
  destruct (run_inv cb0 reg0 quiet0 r y tr (Forall_impl _ outside_sound F1) I) as (y1 & t1 & E1 & I1). rewrite E1. cbn [bind]. destruct (stops t1); [eauto|].
  destruct (IH y1 _ I1 F2) as (y' & text & e & E). rewrite E. cbn [bind]. eauto.
Qed.

(** What the moves outside of the tool leave in the records. *)
Lemma step_seen y m y' t : outside m -> sys_step cb0 y m = Ok (y', t) -> accepted t = [] /\ forall reg, In (Own reg) t -> m = MOwn reg.
Proof.
  destruct m; cbn [outside]; try contradiction; intros _; cbn [sys_step].
  - destruct (k_state (y_cli y)); try (intros [= <- <-]; split; [reflexivity|intros ? []]).
    destruct (client cb0 y (EConnected 0)) as [[z l]|]; cbn [bind]; [|discriminate]. intros [= <- <-]. split; [reflexivity|intros ? []].
  - destruct (y_sends y); [intros [= <- <-]; split; [reflexivity|intros ? []]|]. destruct (client _ _ _) as [[z l]|]; cbn [bind]; [|discriminate].
    intros [= <- <-]. split; [reflexivity|intros ? [X|[]]; discriminate].
  - destruct (y_up y) as [|r up]; [intros [= <- <-]; split; [reflexivity|intros ? []]|]. destruct (srv_msg _ _) as [reg a].
    intros [= <- <-]. split; [reflexivity|intros ? [X|[]]; discriminate].
  - destruct (y_down y) as [|a down]; [intros [= <- <-]; split; [reflexivity|intros ? []]|]. destruct (client _ _ _) as [[z l]|]; cbn [bind]; [|discriminate].
    intros [= <- <-]. split; [reflexivity|intros ? [X|[]]; discriminate].
  - intros [= <- <-]. split; [reflexivity|]. intros reg' [X|[]]. congruence.
Qed.
Lemma run_seen ms : forall y y' t, Forall outside ms -> sys_run cb0 y ms = Ok (y', t) -> accepted t = [] /\ forall reg, In (Own reg) t -> In (MOwn reg) ms.
Proof.
  induction ms as [|m ms IH]; intros y y' t F E; cbn [sys_run] in E; [injection E as <- <-; split; [reflexivity|intros ? []]|].
  inversion F as [|? ? F1 F2]; subst. destruct (sys_step cb0 y m) as [[y1 t1]|] eqn:E1; cbn [bind] in E; [|discriminate].
  destruct (sys_run cb0 y1 ms) as [[y2 t2]|] eqn:E2; cbn [bind] in E; [|discriminate]. injection E as <- <-.
  destruct (step_seen _ _ _ _ F1 E1) as [A1 O1]. destruct (IH _ _ _ F2 E2) as [A2 O2]. split; [rewrite accepted_app, A1, A2; reflexivity|].
  intros reg H. apply in_app_or in H as [H|H]; [left; auto|right; auto].
Qed.
Lemma leads_own reg0 tr reg : leads reg0 tr reg -> handled tr = [] -> reg = reg0 \/ In (Own reg) tr.
Proof.
  induction 1 as [|tr r reg reg' L IH E|tr reg reg' L IH|tr r b reg L IH|tr l reg L IH]; intros H; auto; rewrite ?handled_app in H.
  - exfalso. cbn in H. destruct (handled tr); discriminate.
  - right. apply in_or_app. right. now left.
  - rewrite app_nil_r in H. destruct (IH H); auto. right. apply in_or_app. auto.
  - rewrite app_nil_r in H. destruct (IH H); auto. right. apply in_or_app. auto.
Qed.

(** Without news nothing is shown; with one answer only that one is. *)
Lemma no_news color l : news l = [] -> flat_map (shown color) l = [] /\ existsb (fun o => match o with Status _ => true | _ => false end) l = false.
Proof. induction l as [|o l IH]; intros H; [auto|]. destruct o; cbn in H; try discriminate. cbn. auto. Qed.
Lemma shown_news color l : flat_map (shown color) l = flat_map (shown color) (news l).
Proof. induction l as [|o l IH]; [reflexivity|]. destruct o; cbn [news filter flat_map]; fold (news l); rewrite IH; reflexivity. Qed.
Lemma none_shown color tr : answers tr = 0%nat -> shows color tr = [] /\ stops tr = false.
Proof.
  unfold answers. induction tr as [|x tr IH]; intros H; [auto|]. cbn [filter] in H. destruct (has_news x) eqn:N; [discriminate|]. destruct (IH H) as [A B].
  destruct x; cbn [shows flat_map stops existsb]; auto. cbn [has_news] in N. destruct (no_news color l) as [-> ->]; [destruct (news l); [reflexivity|discriminate]|]. auto.
Qed.
Lemma one_told tr : answers tr = 1%nat -> exists a l b, tr = a ++ Told l :: b /\ news l <> [] /\ answers a = 0%nat /\ answers b = 0%nat.
Proof.
  unfold answers. induction tr as [|x tr IH]; intros H; [discriminate|]. cbn [filter] in H. destruct (has_news x) eqn:N.
  - destruct x; try discriminate. exists [], l, tr. cbn [length] in H. split; [reflexivity|]. split; [cbn [has_news] in N; destruct (news l); discriminate|]. split; [reflexivity|lia].
  - destruct (IH H) as (a & l & b & -> & Nl & A & B). exists (x :: a), l, b. cbn [filter]. rewrite N. auto.
Qed.
Lemma line_shown color n l : 0 <= l <= 7 -> shown color (TagInfo (Some n) l) = line color (n, l).
Proof.
  intros H. assert (C : l = 0 \/ l = 1 \/ l = 2 \/ l = 3 \/ l = 4 \/ l = 5 \/ l = 6 \/ l = 7) by lia. unfold line. cbn [fst snd shown]. cbv zeta.
  destruct C as [->|[->|[->|[->|[->|[->|[->| ->]]]]]]]; destruct color; rewrite <- ?app_assoc; try reflexivity;
    cbn [app]; rewrite <- ?app_assoc; reflexivity.
Qed.

(** ** C132 *)

(** Whatever happens outside: the tool goes on as long as something is under way; once it ends, it has
    written nothing after a change of level, and after a list the table of the tags that the server had
    at some time; the server has handled the request or has it before it. *)
Theorem C132_tool : forall color reg0 r rounds, sound_reg reg0 -> sound_req r -> Forall outside (concat rounds) ->
  exists y text ended, tool color reg0 r rounds = Ok (y, text, ended) /\
    (ended = false -> text = [] /\ ~ rest y) /\
    (ended = true ->
       (exists tr, leads reg0 tr (y_reg y) /\ (forall reg, In (Own reg) tr -> In (MOwn reg) (concat rounds)) /\
          (handled tr = [r] /\ y_up y = [] \/ handled tr = [] /\ y_up y = [r])) /\
       match r with
       | RList => y_up y = [] /\ exists reg tags, (reg = reg0 \/ In (MOwn reg) (concat rounds)) /\ table reg tags /\ text = concat (map (line color) tags)
       | _ => text = []
       end).
Proof.
  intros color reg0 r rounds S0 SR FO.
  destruct (run_inv cb0 reg0 quiet0 [MStart; MAsk r] _ [] ltac:(repeat constructor; exact SR) (inv_new reg0 S0)) as (y0 & t0 & E0 & I0).
  assert (A0 : accepted t0 = [r]). { cbn in E0. destruct r; injection E0 as <- <-; reflexivity. }
  assert (N0 : answers t0 = 0%nat). { cbn in E0. destruct r; injection E0 as <- <-; reflexivity. }
  assert (O0 : forall reg, ~ In (Own reg) t0). { cbn in E0. destruct r; injection E0 as <- <-; intros reg [X|[]]; discriminate. }
  destruct (loop_ok color reg0 rounds y0 _ I0 FO) as (y & text & e & EL).
  exists y, text, e. unfold tool. rewrite E0. cbn [bind]. split; [exact EL|].
  destruct (loop_run _ _ _ _ _ _ EL) as (ms & tr & ER & -> & ES & MI & ME).
  assert (FM : Forall outside ms) by (apply Forall_forall; intros m H; rewrite Forall_forall in FO; auto).
  destruct (run_seen ms y0 y tr FM ER) as [AT OT].
  assert (EA : sys_run cb0 (sys_new reg0) ([MStart; MAsk r] ++ ms) = Ok (y, t0 ++ tr)) by (eapply srun_app; eauto).
  assert (SA : Forall sound ([MStart; MAsk r] ++ ms)).
  { apply Forall_app. split; [repeat constructor; exact SR|]. eapply Forall_impl; [exact outside_sound|exact FM]. }
  destruct (run_inv cb0 reg0 quiet0 _ _ [] SA (inv_new reg0 S0)) as (y' & t' & E' & (L & SY & _ & RP & AN & PH)).
  rewrite EA in E'. assert (y' = y) by congruence. assert (t' = t0 ++ tr) by congruence. subst y' t'. clear E'. cbn [app] in *.
  assert (ACC : accepted (t0 ++ tr) = [r]) by (now rewrite accepted_app, A0, AT). unfold phase in PH. rewrite ACC in *. rewrite answers_app, N0 in AN. cbn [length Nat.add] in AN.
  assert (TOLD : answers tr = 1%nat -> exists a l b, tr = a ++ Told l :: b /\ news l <> [] /\ answers a = 0%nat /\ answers b = 0%nat /\ told_right reg0 (t0 ++ a) l).
  { intros H. destruct (one_told tr H) as (a & l & b & -> & Nl & Na & Nb). exists a, l, b. repeat (split; [auto|]). apply (RP (t0 ++ a) l b). now rewrite <- app_assoc. }
  assert (STOP : answers tr = 1%nat -> stops tr = true).
  { intros H. destruct (TOLD H) as (a & l & b & -> & Nl & Na & Nb & T). rewrite stops_app. change (stops (Told l :: b)) with (existsb (fun o => match o with Status _ => true | _ => false end) l || stops b).
    assert (X : existsb (fun o => match o with Status _ => true | _ => false end) l = true); [|rewrite X, !orb_true_r; reflexivity].
    assert (exists q, news l = Status true :: q) as (q & Q).
    { destruct (T Nl) as [(? & ? & _ & _ & ->)|(? & _ & ? & ? & ? & ? & _ & _ & _ & _ & ? & -> & _)]; eauto. }
    clear - Q. induction l as [|o l IH]; [discriminate|]. destruct o; cbn in *; auto; discriminate. }
  split.
  - intros ->. assert (Z : answers tr = 0%nat).
    { destruct (answers tr) as [|[|n]] eqn:Q; auto; [rewrite (STOP eq_refl) in ES; discriminate|]. destruct (k_msg (y_cli y)); lia. }
    split; [apply (none_shown color tr Z)|]. intros (R1 & R2 & R3 & R4). rewrite R1, R2, R3, R4 in PH. destruct (k_msg (y_cli y)) as [[| |]|]; [..|lia].
    + destruct PH as (_ & _ & _ & X & _). lia.
    + destruct PH as (_ & _ & _ & X & _). lia.
    + destruct PH as (_ & [(_ & _ & _ & u & X & _)|(_ & a0 & a0' & a2 & reg & got & left & _ & _ & _ & _ & _ & _ & _ & X & _)]).
      * destruct u; discriminate.
      * destruct left; discriminate.
  - intros ->. assert (O : answers tr = 1%nat).
    { destruct (answers tr) as [|[|n]] eqn:Q; auto; [destruct (none_shown color tr Q); congruence|destruct (k_msg (y_cli y)); lia]. }
    assert (KM : k_msg (y_cli y) = None) by (destruct (k_msg (y_cli y)); [lia|reflexivity]). rewrite KM in PH.
    split.
    + exists (t0 ++ tr). split; [exact L|]. split; [intros reg H; apply in_app_or in H as [H|H]; [destruct (O0 _ H)|auto]|]. destruct (k_state (y_cli y)); [destruct PH as (_ & _ & _ & _ & X & _); discriminate|destruct PH as (_ & _ & _ & _ & X & _); discriminate|].
      destruct PH as [X _]. destruct (handled (t0 ++ tr)) as [|h hs]; [right; auto|left]. injection X as -> X. destruct hs; [auto|discriminate].
    + assert (UP : In RList (handled (t0 ++ tr)) -> y_up y = []).
      { intros H. destruct (k_state (y_cli y)); [destruct PH as (_ & _ & _ & _ & X & _); discriminate|destruct PH as (_ & _ & _ & _ & X & _); discriminate|].
        destruct PH as [X _]. destruct (handled (t0 ++ tr)) as [|h hs]; [destruct H|]. injection X as -> X. destruct hs; [auto|discriminate]. }
      destruct (TOLD O) as (a & l & b & -> & Nl & Na & Nb & T). rewrite shows_app, (proj1 (none_shown color a Na)).
      change (shows color (Told l :: b)) with (flat_map (shown color) l ++ shows color b). rewrite (proj1 (none_shown color b Nb)), app_nil_r. cbn [app]. rewrite shown_news.
      assert (ACa : accepted (t0 ++ a) = [r]). { rewrite accepted_app, A0. rewrite accepted_app in AT. apply app_eq_nil in AT as [-> _]. reflexivity. }
      destruct (T Nl) as [(r' & x & X & NR & ->)|(x & X & LI)]; rewrite ACa in X.
      * assert (r' = r). { destruct x as [|? [|]]; cbn in X; try discriminate. congruence. } subst r'. destruct r; [reflexivity|reflexivity|congruence].
      * assert (r = RList) as ->. { destruct x as [|? [|]]; cbn in X; try discriminate. congruence. } clear x X.
        destruct LI as (a0 & a0' & a2 & reg & EQ & Q1 & Q2 & (LB & HB) & tags & NW & PE & SO). rewrite NW. split.
        { apply UP. rewrite app_assoc, EQ, handled_app. apply in_or_app. left. rewrite handled_app. apply in_or_app. right. cbn [handled flat_map app]. fold (handled (a0' ++ Handled RList :: a2)). rewrite handled_app. apply in_or_app. right. now left. }
        exists reg, tags.
        assert (HN : handled (a0 ++ Asked RList true :: a0') = []).
        { assert (Y : accepted (a0 ++ Asked RList true :: a0') = [RList]).
          { rewrite EQ in ACa. rewrite accepted_app in *. change (accepted (Asked RList true :: a0')) with (RList :: accepted a0'). change (accepted (Asked RList true :: a0' ++ Handled RList :: a2)) with (RList :: accepted (a0' ++ Handled RList :: a2)) in ACa.
            rewrite accepted_app, Q1 in ACa. change (accepted (Handled RList :: a2)) with (accepted a2) in ACa. rewrite Q2 in ACa. now rewrite Q1. }
          rewrite Y in HB. destruct (handled (a0 ++ Asked RList true :: a0')) as [|h [|]]; [reflexivity|discriminate|discriminate]. }
        split; [|split; [split; assumption|]].
        -- destruct (leads_own _ _ _ LB HN) as [->|H]; [now left|right]. apply MI, OT. apply in_or_app. left.
           assert (H' : In (Own reg) (t0 ++ a)). { rewrite EQ. apply in_app_or in H as [H|[H|H]]; [apply in_or_app; auto|discriminate|]. apply in_or_app. right. right. apply in_or_app. auto. }
           apply in_app_or in H' as [H'|H']; [destruct (O0 _ H')|exact H'].
        -- assert (LV : Forall (fun t => 0 <= snd t <= 7) tags).
           { eapply Permutation_Forall; [apply Permutation_sym; exact PE|]. unfold tags_of. apply Forall_map, Forall_forall. intros c Hc. apply filter_In in Hc as [Hc _]. cbn [snd].
             assert (SG : sound_reg reg).
             { destruct (leads_own _ _ _ LB HN) as [->|H]; [exact S0|]. assert (H' : In (Own reg) (t0 ++ a)). { rewrite EQ. apply in_app_or in H as [H|[H|H]]; [apply in_or_app; auto|discriminate|]. apply in_or_app. right. right. apply in_or_app. auto. }
               apply in_app_or in H' as [H'|H']; [destruct (O0 _ H')|]. assert (IM : In (MOwn reg) ms) by (apply OT, in_or_app; auto). rewrite Forall_forall in FM. apply (FM _ IM). }
             unfold sound_reg in SG. rewrite Forall_forall in SG. apply (SG c Hc). }
           cbn [flat_map shown app]. clear - LV. induction LV as [|[n l] tags H _ IH]; [reflexivity|]. cbn [map flat_map concat fst snd]. rewrite IH. f_equal. apply (line_shown color n l H).
Qed.

Lemma leads_set reg0 tr reg : leads reg0 tr reg -> (forall x, ~ In (Own x) tr) -> 
  (handled tr = [] -> reg = reg0) /\ (forall r, handled tr = [r] -> effect r reg0 reg).
Proof.
  induction 1 as [|tr r reg reg' L IH E|tr reg reg' L IH|tr r b reg L IH|tr l reg L IH]; intros NO.
  - split; [reflexivity|discriminate].
  - assert (NO' : forall x, ~ In (Own x) tr) by (intros x X; apply (NO x), in_or_app; auto). destruct (IH NO') as [A B]. rewrite handled_app. cbn [handled flat_map app]. split.
    + destruct (handled tr); discriminate.
    + intros r' H. destruct (handled tr) as [|h hs] eqn:Q; [|destruct hs; discriminate]. injection H as <-. rewrite <- (A eq_refl). exact E.
  - exfalso. apply (NO reg'). apply in_or_app. right. now left.
  - rewrite handled_app, app_nil_r. apply IH. intros x X. apply (NO x), in_or_app; auto.
  - rewrite handled_app, app_nil_r. apply IH. intros x X. apply (NO x), in_or_app; auto.
Qed.
(** If the process of the server leaves its levels alone, they are what the request makes them, once it
    is handled. *)
Theorem C132_takes_effect : forall color reg0 r rounds y text, sound_reg reg0 -> sound_req r -> Forall outside (concat rounds) ->
  tool color reg0 r rounds = Ok (y, text, true) -> (forall reg, ~ In (MOwn reg) (concat rounds)) ->
  (y_up y = [] /\ effect r reg0 (y_reg y)) \/ (y_up y = [r] /\ y_reg y = reg0).
Proof.
  intros color reg0 r rounds y text S0 SR FO E NO. destruct (C132_tool color reg0 r rounds S0 SR FO) as (y' & text' & e & E' & _ & H).
  rewrite E in E'. assert (y' = y) by congruence. assert (e = true) by congruence. subst. destruct (H eq_refl) as ((tr & L & O & D) & _).
  destruct (leads_set _ _ _ L) as [A B]; [intros x X; apply (NO x); auto|]. destruct D as [[D1 D2]|[D1 D2]]; [left; split; auto|right; split; auto].
Qed.

(** But the tool says nothing when no such tag exists: the same as when its level was set. *)
Definition ex_reg : list cookie := [mkCookie false (bytes_of_string "net") 6; mkCookie false (bytes_of_string "gps") 7].
Definition ex_rounds : list (list move) := [[MConnect]; [MServe]; [MSent; MReceive]; [MReceive; MReceive]].
Theorem C132_unknown_refuted : exists reg tag other level rounds y y', sound_reg reg /\ Forall outside (concat rounds) /\
  Forall (fun c => c_name c <> tag) reg /\ In other (map c_name reg) /\
  tool false reg (RSetTag tag level) rounds = Ok (y, [], true) /\ y_reg y = reg /\
  tool false reg (RSetTag other level) rounds = Ok (y', [], true) /\ y_reg y' <> reg.
Proof.
  exists ex_reg, (bytes_of_string "nte"), (bytes_of_string "net"), 3, ex_rounds. do 2 eexists.
  split; [repeat constructor; cbn; try lia; vm_compute; intuition discriminate|]. split; [repeat constructor|]. split; [repeat constructor; vm_compute; discriminate|]. split; [left; reflexivity|].
  split; [vm_compute; reflexivity|]. split; [vm_compute; reflexivity|]. split; [vm_compute; reflexivity|]. vm_compute. discriminate.
Qed.
Example C132_ex : sound_reg ex_reg /\ sound_req RList /\ Forall outside (concat ex_rounds) /\
  (exists y, tool false ex_reg RList ex_rounds = Ok (y, bytes_of_string "[D] gps" ++ [10] ++ bytes_of_string "[I] net" ++ [10], true)) /\
  (exists y, tool true ex_reg (RSetAll 4) [[MConnect]; [MSent]; [MServe]] = Ok (y, [], true)).
Proof.
  split; [repeat constructor; cbn; try lia; vm_compute; intuition discriminate|]. split; [exact Logic.I|]. split; [repeat constructor|].
  split; eexists; vm_compute; reflexivity.
Qed.
Print Assumptions C132_tool.
Print Assumptions C132_takes_effect.
Print Assumptions C132_unknown_refuted.
