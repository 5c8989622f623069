(** Property C141: a run of the tool ulogctl when the connection can break.

    Vocabulary: CtlSysSpec.v ([leads], [handled], [effect]), ToolRunSpec.v ([table], [line], [outside]). *)
From Coq Require Import ZArith String List Bool Lia ZifyBool ZifyNat Permutation Sorted.
From Verif Require Import Bytes BytesProofs Ctl CtlSys PropsCtl CtlSysSpec PropsCtlSys CtlTool ToolRun ToolRunSpec PropsToolRun ToolLink.
Import ListNotations.
Open Scope Z_scope.

(** The text that says that the request failed. *)
Definition failure : list Z := bytes_of_string "Error occurred." ++ [10].
Definition outer (e : event) : Prop := match e with Happens m => outside m | Lost _ => True end.
Definition own_only (es : list event) (x : seen) : Prop := exists reg, x = Own reg /\ In (Happens (MOwn reg)) es.

(** ** Breaking the connection *)
Lemma sends_none : forall n k, k_msg k = None -> Ctl.run cb0 k (repeat (ESendDone false) n) = Ok (k, repeat (ESendDone false, []) n).
Proof. induction n as [|n IH]; intros k H; [reflexivity|]. cbn [repeat Ctl.run Ctl.step]. unfold send_cb. rewrite H. cbn [bind]. now rewrite (IH k H). Qed.
Lemma crun_app : forall a b k, Ctl.run cb0 k (a ++ b) = let* (k1, x) := Ctl.run cb0 k a in let* (k2, y) := Ctl.run cb0 k1 b in Ok (k2, x ++ y).
Proof.
  induction a as [|o a IH]; intros b k; cbn [app Ctl.run bind]; [destruct (Ctl.run cb0 k b) as [[? ?]|]; reflexivity|].
  destruct (Ctl.step cb0 k o) as [[k1 l]|]; cbn [bind]; [|reflexivity]. rewrite IH. destruct (Ctl.run cb0 k1 a) as [[k2 x]|]; cbn [bind]; [|reflexivity]. destruct (Ctl.run cb0 k2 b) as [[k3 z]|]; reflexivity.
Qed.
Lemma told_nothing color n : shows color (map (fun x : op * list out => Told (snd x)) (repeat (ESendDone false, []) n)) = [] /\ stops (map (fun x : op * list out => Told (snd x)) (repeat (ESendDone false, []) n)) = false.
Proof. induction n as [|n IH]; [auto|]. exact IH. Qed.
Lemma told_plain (t : list (op * list out)) : accepted (map (fun x : op * list out => Told (snd x)) t) = [] /\ handled (map (fun x : op * list out => Told (snd x)) t) = [] /\ (forall reg, ~ In (Own reg) (map (fun x : op * list out => Told (snd x)) t)) /\
  forall reg0 tr reg, leads reg0 tr reg -> leads reg0 (tr ++ map (fun x : op * list out => Told (snd x)) t) reg.
Proof.
  induction t as [|x t (A & B & C & D)]; cbn [map]; [repeat split; auto; intros reg0 tr reg L; now rewrite app_nil_r|]. repeat split; auto.
  - intros reg [X|X]; [discriminate|exact (C reg X)].
  - intros reg0 tr reg L. change (tr ++ Told (snd x) :: ?q) with (tr ++ [Told (snd x)] ++ q). rewrite app_assoc. apply D. now apply ld_told.
Qed.
Lemma lost_what f y : k_state (y_cli y) = Connected -> exists k t, lost f y = Ok (mkSys k (y_reg y) [] [] 0, map (fun x : op * list out => Told (snd x)) t) /\ k_state k = Idle /\
  forall color, match k_msg (y_cli y) with
  | None => shows color (map (fun x : op * list out => Told (snd x)) t) = [] /\ stops (map (fun x : op * list out => Told (snd x)) t) = false
  | Some r => stops (map (fun x : op * list out => Told (snd x)) t) = true /\
      (shows color (map (fun x : op * list out => Told (snd x)) t) = failure \/ (r <> RList /\ shows color (map (fun x : op * list out => Told (snd x)) t) = []))
  end.
Proof.
  intros C. unfold lost. rewrite C. destruct (y_cli y) as [st msg tags]. cbn [k_state k_msg] in *. subst st. destruct f.
  - rewrite crun_app. destruct msg as [r|].
    + destruct (y_sends y) as [|n].
      * do 2 eexists. split; [reflexivity|]. split; [reflexivity|]. intros color. split; [reflexivity|now left].
      * destruct r as [tag l|l|].
        1,2: cbn [repeat Ctl.run Ctl.step send_cb k_msg finish cb0 bind k_state k_tags]; rewrite sends_none by reflexivity; cbn [bind];
          do 2 eexists; (split; [reflexivity|]); (split; [reflexivity|]); intros color; rewrite map_app, shows_app, stops_app; cbn [map snd]; split; [reflexivity|right; split; [discriminate|]];
          change (shows color (Told [Status true] :: ?q)) with (shows color q); rewrite (proj1 (told_nothing color n)); reflexivity.
        assert (SL : forall m, Ctl.run cb0 (mkCli Connected (Some RList) tags) (repeat (ESendDone false) m) = Ok (mkCli Connected (Some RList) tags, repeat (ESendDone false, []) m)).
        { induction m as [|m IH]; [reflexivity|]. cbn [repeat Ctl.run Ctl.step send_cb k_msg bind]. now rewrite IH. }
        rewrite SL. cbn [bind]. do 2 eexists. split; [reflexivity|]. split; [reflexivity|]. intros color. rewrite map_app, shows_app, stops_app, (proj1 (told_nothing color _)). cbn [app].
        split; [apply orb_true_r|now left].
    + rewrite sends_none by reflexivity. cbn [bind]. do 2 eexists. split; [reflexivity|]. split; [reflexivity|]. intros color. rewrite map_app, shows_app, stops_app, (proj1 (told_nothing color _)), (proj2 (told_nothing color _)). auto.
  - cbn [Ctl.run Ctl.step cli_stop k_state k_msg]. destruct msg as [r|]; cbn [finish cb0 bind k_msg k_state k_tags].
    + rewrite sends_none by reflexivity. cbn [bind]. do 2 eexists. split; [reflexivity|]. split; [reflexivity|]. intros color. cbn [map snd].
      change (shows color (Told [Status false] :: ?q)) with (failure ++ shows color q). rewrite (proj1 (told_nothing color _)). split; [reflexivity|]. left. apply app_nil_r.
    + rewrite sends_none by reflexivity. cbn [bind]. do 2 eexists. split; [reflexivity|]. split; [reflexivity|]. intros color. cbn [map snd]. exact (told_nothing color (S (y_sends y))).
Qed.
(** Afterwards only the process of the server does something. *)
Definition cut (y : sys) : Prop := k_state (y_cli y) = Idle /\ y_up y = [] /\ y_down y = [] /\ y_sends y = 0%nat.
Lemma after_cut : forall es y, cut y -> Forall outer es -> exists y' t, lrun y es = Ok (y', t) /\ cut y' /\ Forall (own_only es) t /\
  (forall reg0 tr, leads reg0 tr (y_reg y) -> leads reg0 (tr ++ t) (y_reg y')) /\ forall color, shows color t = [] /\ stops t = false.
Proof.
  induction es as [|e es IH]; intros y CT F; cbn [lrun]; [exists y, []; repeat split; auto; try apply CT; intros; now rewrite app_nil_r|].
  inversion F as [|? ? F1 F2]; subst. assert (LIFT : forall t, Forall (own_only es) t -> Forall (own_only (e :: es)) t) by (intros t; apply Forall_impl; intros x (reg & -> & X); exists reg; cbn; auto).
  destruct CT as (C1 & C2 & C3 & C4).
  assert (SAME : lstep y e = Ok (y, []) -> exists y' t, (let* (y, t) := lstep y e in let* (y, t2) := lrun y es in Ok (y, t ++ t2)) = Ok (y', t) /\ cut y' /\ Forall (own_only (e :: es)) t /\
    (forall reg0 tr, leads reg0 tr (y_reg y) -> leads reg0 (tr ++ t) (y_reg y')) /\ forall color, shows color t = [] /\ stops t = false).
  { intros ->. cbn [bind]. destruct (IH y (conj C1 (conj C2 (conj C3 C4))) F2) as (y' & t & E & K & O & L & S). rewrite E. cbn [bind app]. exists y', t. auto 10. }
  destruct e as [m|f]; [destruct m as [| |r| | | |reg]; cbn [outer outside] in F1; try contradiction|].
  - apply SAME. cbn. now rewrite C1.
  - apply SAME. cbn. now rewrite C4.
  - apply SAME. cbn. now rewrite C2.
  - apply SAME. cbn. now rewrite C3.
  - clear SAME. cbn [lstep sys_step bind]. destruct (IH (mkSys (y_cli y) reg (y_up y) (y_down y) (y_sends y)) (conj C1 (conj C2 (conj C3 C4))) F2) as (y' & t & E & K & O & L & S). rewrite E. cbn [bind app].
    exists y', (Own reg :: t). split; [reflexivity|]. split; [exact K|]. split; [constructor; [exists reg; cbn; auto|now apply LIFT]|]. split; [|exact S].
    intros reg0 tr LD. change (tr ++ Own reg :: t) with (tr ++ [Own reg] ++ t). rewrite app_assoc. apply L. cbn [y_reg]. eapply ld_own. exact LD.
  - apply SAME. cbn. unfold lost. now rewrite C1.
Qed.

(** What a break leaves in the records. *)
Definition breaks (es : list event) (y1 y' : sys) (t : list seen) : Prop :=
  (exists f, In (Lost f) es) /\ k_state (y_cli y1) = Connected /\ cut y' /\ handled t = [] /\ (forall reg, In (Own reg) t -> In (Happens (MOwn reg)) es) /\
  (forall reg0 tr, leads reg0 tr (y_reg y1) -> leads reg0 (tr ++ t) (y_reg y')) /\
  forall color, match k_msg (y_cli y1) with
  | None => shows color t = [] /\ stops t = false
  | Some r => stops t = true /\ (shows color t = failure \/ (r <> RList /\ shows color t = []))
  end.
Lemma breaks_more es es' y1 y' t : (forall e, In e es -> In e es') -> breaks es y1 y' t -> breaks es' y1 y' t.
Proof. intros H ((f & B1) & B2 & B3 & B4 & B5 & B6). unfold breaks. split; [eauto|]. split; [exact B2|]. split; [exact B3|]. split; [exact B4|]. split; [auto|exact B6]. Qed.
Lemma sys_run_app2 y ms1 y1 t1 ms2 y2 t2 : sys_run cb0 y ms1 = Ok (y1, t1) -> sys_run cb0 y1 ms2 = Ok (y2, t2) -> sys_run cb0 y (ms1 ++ ms2) = Ok (y2, t1 ++ t2).
Proof. apply srun_app. Qed.

Lemma lrun_shape reg0 : forall es y tr, Inv reg0 y tr -> Forall outer es -> exists y' t ms, lrun y es = Ok (y', t) /\ (forall m, In m ms -> In (Happens m) es) /\
  (sys_run cb0 y ms = Ok (y', t) \/ exists y1 t1 t2, sys_run cb0 y ms = Ok (y1, t1) /\ t = t1 ++ t2 /\ breaks es y1 y' t2).
Proof.
  induction es as [|e es IH]; intros y tr I F; [exists y, [], []; repeat split; auto; intros m []|]. inversion F as [|? ? F1 F2]; subst.
  assert (NX : forall y1 t1 ms1, sys_run cb0 y ms1 = Ok (y1, t1) -> Inv reg0 y1 (tr ++ t1) -> (forall m, In m ms1 -> In (Happens m) (e :: es)) -> lstep y e = Ok (y1, t1) ->
    exists y' t ms, lrun y (e :: es) = Ok (y', t) /\ (forall m, In m ms -> In (Happens m) (e :: es)) /\
    (sys_run cb0 y ms = Ok (y', t) \/ exists y1 t1 t2, sys_run cb0 y ms = Ok (y1, t1) /\ t = t1 ++ t2 /\ breaks (e :: es) y1 y' t2)).
  { intros y1 t1 ms1 E1 I1 M1 L1. destruct (IH y1 _ I1 F2) as (y' & t & ms & E & MI & D). exists y', (t1 ++ t), (ms1 ++ ms). cbn [lrun]. rewrite L1. cbn [bind]. rewrite E. cbn [bind]. split; [reflexivity|].
    split; [intros m H; apply in_app_or in H as [H|H]; [auto|right; auto]|]. destruct D as [D|(y2 & t2 & t3 & D1 & -> & D2)].
    - left. eapply srun_app; eauto.
    - right. exists y2, (t1 ++ t2), t3. split; [eapply srun_app; eauto|]. split; [now rewrite app_assoc|]. eapply breaks_more; [|exact D2]. intros x X. now right. }
  destruct e as [m|f].
  - destruct (run_inv cb0 reg0 quiet0 [m] y tr ltac:(constructor; [now apply outside_sound|constructor]) I) as (y1 & t1 & E1 & I1). apply (NX y1 t1 [m]); auto.
    + intros x [<-|[]]. now left.
    + cbn [lstep]. cbn [sys_run] in E1. destruct (sys_step cb0 y m) as [[y2 t2]|]; cbn [bind] in E1; [|discriminate]. rewrite app_nil_r in E1. exact E1.
  - destruct (k_state (y_cli y)) eqn:KS.
    1,2: apply (NX y [] []); [reflexivity|now rewrite app_nil_r|intros m []|cbn [lstep]; unfold lost; now rewrite KS].
    clear NX. destruct (lost_what f y KS) as (k & t & EL & KI & W). destruct (after_cut es (mkSys k (y_reg y) [] [] 0)) as (y' & t3 & E3 & CT & OO & LD & SH); [repeat split; auto|exact F2|].
    exists y', (map (fun x : op * list out => Told (snd x)) t ++ t3), []. cbn [lrun lstep]. rewrite EL. cbn [bind]. rewrite E3. cbn [bind]. split; [reflexivity|]. split; [intros m []|]. right.
    exists y, [], (map (fun x : op * list out => Told (snd x)) t ++ t3). split; [reflexivity|]. split; [reflexivity|]. destruct (told_plain t) as (P1 & P2 & P3 & P4).
    unfold breaks. split; [exists f; now left|]. split; [exact KS|]. split; [exact CT|]. split; [rewrite handled_app, P2; clear - OO; induction OO as [|x l (reg & -> & _) _ IH]; [reflexivity|exact IH]|].
    split; [|split].
    + intros reg H. apply in_app_or in H as [H|H]; [destruct (P3 _ H)|]. rewrite Forall_forall in OO. destruct (OO _ H) as (reg' & X & Y). injection X as ->. now right.
    + intros r0 tr0 L. rewrite app_assoc. apply LD. cbn [y_reg]. now apply P4.
    + intros color. specialize (W color). specialize (SH color). destruct SH as (S1 & S2). rewrite shows_app, stops_app, S1, S2, app_nil_r, orb_false_r. exact W.
Qed.
Lemma msg_or_stop reg0 y t0 tr r : Inv reg0 y (t0 ++ tr) -> accepted (t0 ++ tr) = [r] -> answers t0 = 0%nat -> (stops tr = true /\ k_msg (y_cli y) = None) \/ (stops tr = false /\ exists r', k_msg (y_cli y) = Some r').
Proof.
  intros (L & SY & _ & RP & AN & PH) ACC N0. rewrite ACC, answers_app, N0 in AN. cbn [length Nat.add] in AN. destruct (k_msg (y_cli y)) as [r'|].
  - right. split; [|eauto]. apply (none_shown false tr). lia.
  - left. split; [|reflexivity]. destruct (one_told tr ltac:(lia)) as (a & l & b & -> & Nl & Na & Nb). pose proof (RP (t0 ++ a) l b ltac:(now rewrite <- app_assoc)) as T.
    rewrite stops_app. change (stops (Told l :: b)) with (existsb (fun o => match o with Status _ => true | _ => false end) l || stops b).
    assert (X : existsb (fun o => match o with Status _ => true | _ => false end) l = true); [|rewrite X, !orb_true_r; reflexivity].
    assert (exists q, news l = Status true :: q) as (q & Q).
    { destruct (T Nl) as [(? & ? & _ & _ & ->)|(? & _ & ? & ? & ? & ? & _ & _ & _ & _ & ? & -> & _)]; eauto. }
    clear - Q. induction l as [|o l IH]; [discriminate|]. destruct o; cbn in *; auto; discriminate.
Qed.
Lemma outer_moves es ms : Forall outer es -> (forall m, In m ms -> In (Happens m) es) -> Forall outside ms.
Proof. intros F H. apply Forall_forall. intros m Hm. rewrite Forall_forall in F. exact (F _ (H m Hm)). Qed.
Lemma lloop_shape color reg0 t0 r : answers t0 = 0%nat -> forall rounds y acc, Inv reg0 y (t0 ++ acc) -> accepted (t0 ++ acc) = [r] -> stops acc = false -> Forall outer (concat rounds) ->
  exists y' text e ms, lloop color y rounds = Ok (y', text, e) /\ (forall m, In m ms -> In (Happens m) (concat rounds)) /\
  ((exists tr, sys_run cb0 y ms = Ok (y', tr) /\ text = shows color tr /\ e = stops tr) \/
   exists y1 t1 t2, sys_run cb0 y ms = Ok (y1, t1) /\ breaks (concat rounds) y1 y' t2 /\ text = shows color (t1 ++ t2) /\ e = true).
Proof.
  intros N0. induction rounds as [|es rounds IH]; intros y acc I ACC ST F; [exists y, [], false, []; split; [reflexivity|]; split; [intros m []|]; left; exists []; auto|].
  cbn [concat] in F. apply Forall_app in F as [F1 F2]. cbn [lloop concat].
  destruct (lrun_shape reg0 es y _ I F1) as (y1 & t & ms & E & MI & D). rewrite E. cbn [bind]. pose proof (outer_moves es ms F1 MI) as FM.
  assert (MI' : forall m, In m ms -> In (Happens m) (es ++ concat rounds)) by (intros; apply in_or_app; auto).
  destruct D as [D|(y2 & t1 & t2 & D & -> & B)].
  - assert (I1 : Inv reg0 y1 (t0 ++ acc ++ t)).
    { destruct (run_inv cb0 reg0 quiet0 ms y _ (Forall_impl _ outside_sound FM) I) as (y2 & t2 & E2 & I2). rewrite D in E2. injection E2 as <- <-. now rewrite <- app_assoc in I2. }
    assert (A1 : accepted (t0 ++ acc ++ t) = [r]). { rewrite app_assoc, accepted_app, ACC. now rewrite (proj1 (run_seen ms y y1 t FM D)). }
    destruct (stops t) eqn:S1.
    + exists y1, (shows color t), true, ms. split; [reflexivity|]. split; [exact MI'|]. left. exists t. auto.
    + destruct (IH y1 (acc ++ t) I1 A1 ltac:(now rewrite stops_app, ST, S1) F2) as (y' & text & e & ms2 & E2 & MI2 & D2). rewrite E2. cbn [bind]. exists y', (shows color t ++ text), e, (ms ++ ms2). split; [reflexivity|].
      split; [intros m H; apply in_app_or in H as [H|H]; auto; apply in_or_app; auto|]. destruct D2 as [(tr & R & -> & ->)|(y3 & t3 & t4 & R & B & -> & ->)].
      * left. exists (t ++ tr). split; [eapply srun_app; eauto|]. now rewrite shows_app, stops_app, S1.
      * right. exists y3, (t ++ t3), t4. split; [eapply srun_app; eauto|]. split; [eapply breaks_more; [|exact B]; intros x X; apply in_or_app; auto|]. split; [|reflexivity]. now rewrite <- app_assoc, (shows_app color t).
  - assert (I1 : Inv reg0 y2 (t0 ++ acc ++ t1)).
    { destruct (run_inv cb0 reg0 quiet0 ms y _ (Forall_impl _ outside_sound FM) I) as (y3 & t3 & E2 & I2). rewrite D in E2. injection E2 as <- <-. now rewrite <- app_assoc in I2. }
    assert (A1 : accepted (t0 ++ acc ++ t1) = [r]). { rewrite app_assoc, accepted_app, ACC. now rewrite (proj1 (run_seen ms y y2 t1 FM D)). }
    assert (S1 : stops (t1 ++ t2) = true).
    { rewrite stops_app. destruct (msg_or_stop _ _ _ _ _ I1 A1 N0) as [(X & _)|(_ & r' & X)]; [rewrite stops_app, ST in X; cbn [orb] in X; now rewrite X|].
      destruct B as (_ & _ & _ & _ & _ & _ & B). specialize (B color). rewrite X in B. rewrite (proj1 B). apply orb_true_r. }
    rewrite S1. exists y1, (shows color (t1 ++ t2)), true, ms. split; [reflexivity|]. split; [exact MI'|]. right. exists y2, t1, t2. split; [exact D|]. split; [|auto]. eapply breaks_more; [|exact B]. intros x X. apply in_or_app. auto.
Qed.

(** ** C141 *)

(** Whatever happens outside, also when the connection breaks: the run never fails; while it waits nothing has been
    written; once it ends, the server has handled the request once or not at all, and the text is the error message,
    which is only written after a break, or what C132 says: nothing, or the table, which is only written
    when the server handled the request. *)
Theorem C141_tool_partial : forall color reg0 r rounds, sound_reg reg0 -> sound_req r -> Forall outer (concat rounds) ->
  exists y text ended, ltool color reg0 r rounds = Ok (y, text, ended) /\
    (ended = false -> text = [] /\ k_state (y_cli y) <> Idle /\ ~ rest y) /\
    (ended = true -> exists tr, leads reg0 tr (y_reg y) /\ (forall reg, In (Own reg) tr -> In (Happens (MOwn reg)) (concat rounds)) /\
       (handled tr = [] \/ handled tr = [r]) /\
       (text = failure /\ (exists f, In (Lost f) (concat rounds)) \/
        match r with
        | RList => handled tr = [RList] /\ exists reg tags, (reg = reg0 \/ In (Happens (MOwn reg)) (concat rounds)) /\ table reg tags /\ text = concat (map (line color) tags)
        | _ => text = []
        end)).
Proof.
  intros color reg0 r rounds S0 SR FO.
  destruct (run_inv cb0 reg0 quiet0 [MStart; MAsk r] _ [] ltac:(repeat constructor; exact SR) (inv_new reg0 S0)) as (y0 & t0 & E0 & I0). cbn [app] in I0.
  assert (A0 : accepted t0 = [r]). { cbn in E0. destruct r; injection E0 as <- <-; reflexivity. }
  assert (N0 : answers t0 = 0%nat). { cbn in E0. destruct r; injection E0 as <- <-; reflexivity. }
  assert (O0 : forall reg, ~ In (Own reg) t0). { cbn in E0. destruct r; injection E0 as <- <-; intros reg [X|[]]; discriminate. }
  destruct (lloop_shape color reg0 t0 r N0 rounds y0 [] ltac:(rewrite app_nil_r; exact I0) ltac:(rewrite app_nil_r; exact A0) eq_refl FO) as (y & text & e & ms & EL & MI & D).
  exists y, text, e. unfold ltool. rewrite E0. cbn [bind]. split; [exact EL|]. pose proof (outer_moves _ _ FO MI) as FM.
  (* the run up to the break, as one round *)
  assert (PRE : forall y1 t1, sys_run cb0 y0 ms = Ok (y1, t1) -> Inv reg0 y1 (t0 ++ t1) /\ accepted (t0 ++ t1) = [r] /\ (forall reg, In (Own reg) (t0 ++ t1) -> In (Happens (MOwn reg)) (concat rounds)) /\
    (stops t1 = false -> shows color t1 = [] /\ ~ rest y1) /\
    (stops t1 = true -> (exists tr, leads reg0 tr (y_reg y1) /\ (forall reg, In (Own reg) tr -> In (Happens (MOwn reg)) (concat rounds)) /\ (handled tr = [r] /\ y_up y1 = [] \/ handled tr = [] /\ y_up y1 = [r])) /\
       match r with
       | RList => y_up y1 = [] /\ exists reg tags, (reg = reg0 \/ In (Happens (MOwn reg)) (concat rounds)) /\ table reg tags /\ shows color t1 = concat (map (line color) tags)
       | _ => shows color t1 = []
       end)).
  { intros y1 t1 R. destruct (run_seen ms y0 y1 t1 FM R) as (AT & OT).
    destruct (run_inv cb0 reg0 quiet0 ms y0 _ (Forall_impl _ outside_sound FM) I0) as (y2 & t2 & E2 & I2). rewrite R in E2. injection E2 as <- <-.
    split; [exact I2|]. split; [now rewrite accepted_app, A0, AT|]. split; [intros reg H; apply in_app_or in H as [H|H]; [destruct (O0 _ H)|auto]|].
    destruct (C132_tool color reg0 r [ms] S0 SR ltac:(cbn [concat]; now rewrite app_nil_r)) as (y3 & tx & e3 & E3 & C1 & C2). unfold tool in E3. rewrite E0 in E3. cbn [bind loop] in E3. rewrite R in E3. cbn [bind concat] in *.
    rewrite app_nil_r in *. split.
    - intros S. rewrite S in E3. cbn [bind] in E3. rewrite ?app_nil_r in E3. injection E3 as <- <- <-. auto.
    - intros S. rewrite S in E3. injection E3 as <- <- <-. destruct (C2 eq_refl) as ((tr & H1 & H2 & H3) & H4). split; [exists tr; auto|]. destruct r; auto. destruct H4 as (U & reg & tags & H4 & H5). split; [exact U|]. exists reg, tags. split; [|exact H5]. destruct H4; auto. }
  destruct D as [(tr & R & -> & ->)|(y1 & t1 & t2 & R & (LO & KC & CT & HD & OW & LD & SH) & -> & ->)].
  - destruct (PRE y tr R) as (I1 & ACC & OI & P1 & P2). split.
    + intros S. destruct (P1 S) as (X & Y). split; [exact X|]. split; [|exact Y]. intros KI. destruct I1 as (_ & _ & _ & _ & _ & PH). unfold phase in PH. rewrite KI in PH. destruct PH as (_ & _ & _ & _ & Z & _). congruence.
    + intros S. destruct (P2 S) as ((tr' & H1 & H2 & H3) & H4). exists tr'. split; [exact H1|]. split; [exact H2|]. split; [destruct H3 as [(H3 & _)|(H3 & _)]; auto|]. right. destruct r; auto.
      destruct H4 as (U & H4). split; [|exact H4]. destruct H3 as [(H3 & _)|(_ & H3)]; [exact H3|congruence].
  - split; [discriminate|]. intros _. destruct (PRE y1 t1 R) as (I1 & ACC & OI & P1 & P2). specialize (SH color). rewrite shows_app.
    destruct (msg_or_stop _ _ _ _ _ I1 ACC N0) as [(S & KM)|(S & r' & KM)]; rewrite KM in SH.
    + destruct SH as (SH & _). rewrite SH, app_nil_r. destruct (P2 S) as ((tr' & H1 & H2 & H3) & H4). exists (tr' ++ t2). split; [now apply LD|].
      split; [intros reg H; apply in_app_or in H as [H|H]; auto|]. rewrite handled_app, HD, app_nil_r. split; [destruct H3 as [(H3 & _)|(H3 & _)]; auto|]. right. destruct r; auto.
      destruct H4 as (U & H4). split; [|exact H4]. destruct H3 as [(H3 & _)|(_ & H3)]; [exact H3|congruence].
    + destruct SH as (_ & SH). destruct (P1 S) as (X & _). rewrite X. cbn [app]. exists ((t0 ++ t1) ++ t2). destruct I1 as (LE & _ & _ & _ & _ & PH). split; [now apply LD|].
      split; [intros reg H; apply in_app_or in H as [H|H]; auto|]. rewrite handled_app, HD, app_nil_r. unfold phase in PH. rewrite KC, KM, ACC in PH. destruct PH as (PH & PM). split.
      * destruct (handled (t0 ++ t1)) as [|h hs]; [now left|right]. injection PH as -> PH. destruct hs; [reflexivity|discriminate].
      * destruct SH as [SH|(NR & SH)]; [left; auto|right]. assert (r' = r). { destruct r' as [tag l|l|]; [..|congruence]; destruct PM as (_ & _ & _ & x & PM); destruct x as [|? [|]]; cbn in PM; congruence. } subst r'.
        destruct r; [exact SH|exact SH|congruence].
Qed.

(** False: that a run without an error message reached the server. The tag exists and nobody else changes anything; the
    connection breaks before the message has left; ulogctl says nothing and nothing is changed. *)
Theorem C141_done_refuted : exists reg tag level rounds y, sound_reg reg /\ In tag (map c_name reg) /\ Forall outer (concat rounds) /\ (forall x, ~ In (Happens (MOwn x)) (concat rounds)) /\
  ltool false reg (RSetTag tag level) rounds = Ok (y, [], true) /\ y_reg y = reg /\ ~ effect (RSetTag tag level) reg reg /\ y_up y = [].
Proof.
  exists ex_reg, (bytes_of_string "net"), 3, [[Happens MConnect]; [Lost true]]. eexists. split; [repeat constructor; cbn; try lia; vm_compute; intuition discriminate|]. split; [now left|].
  split; [repeat constructor|]. split; [intros x [X|[X|[]]]; discriminate|]. split; [vm_compute; reflexivity|]. split; [reflexivity|]. split; [|reflexivity].
  assert (G : forall r a b, effect r a b -> r = RSetTag (bytes_of_string "net") 3 -> a = ex_reg -> b = ex_reg -> False); [|intros E; exact (G _ _ _ E eq_refl eq_refl eq_refl)].
  intros r0 a0 b0 E. destruct E as [tag level a c b FA EN|tag level reg FA| |]; intros ER E1 E2; try discriminate; injection ER as -> ->.
  - destruct a as [|a1 a]; cbn [app ex_reg] in E1, E2.
    + injection E1 as -> _. discriminate.
    + injection E1 as -> _. inversion FA as [|? ? X _]; subst. now apply X.
  - subst reg. inversion FA as [|? ? X _]; subst. now apply X.
Qed.
(** False too: that a request did nothing when the error message is written. *)
Theorem C141_error_refuted : exists reg tag level rounds y, sound_reg reg /\ Forall outer (concat rounds) /\ (forall x, ~ In (Happens (MOwn x)) (concat rounds)) /\
  ltool false reg (RSetTag tag level) rounds = Ok (y, failure, true) /\ y_reg y <> reg /\ effect (RSetTag tag level) reg (y_reg y).
Proof.
  exists ex_reg, (bytes_of_string "net"), 3, [[Happens MConnect]; [Happens MServe]; [Lost false]]. eexists. split; [repeat constructor; cbn; try lia; vm_compute; intuition discriminate|].
  split; [repeat constructor|]. split; [intros x [X|[X|[X|[]]]]; discriminate|]. split; [vm_compute; reflexivity|]. split; [discriminate|].
  exact (ef_set (bytes_of_string "net") 3 [] (mkCookie false (bytes_of_string "net") 6) [mkCookie false (bytes_of_string "gps") 7] (Forall_nil _) eq_refl).
Qed.
(** A list that breaks off in the middle, and one that is complete when the connection breaks. *)
Example C141_ex : sound_reg ex_reg /\ sound_req RList /\
  (exists y, ltool true ex_reg RList [[Happens MConnect; Lost false]; [Happens (MOwn ex_reg)]] = Ok (y, failure, true)) /\
  (exists y, ltool false ex_reg RList [[Lost true; Happens MConnect]; [Happens MServe; Happens MSent; Happens MReceive]; [Lost true; Happens MReceive]] = Ok (y, failure, true)) /\
  (exists y, ltool false ex_reg RList [[Happens MConnect]; [Happens MServe; Happens MSent]; [Happens MReceive; Happens MReceive; Happens MReceive; Lost true]] =
     Ok (y, bytes_of_string "[D] gps" ++ [10] ++ bytes_of_string "[I] net" ++ [10], true)).
Proof.
  split; [repeat constructor; cbn; try lia; vm_compute; intuition discriminate|]. split; [exact Logic.I|]. repeat split; eexists; vm_compute; reflexivity.
Qed.
Print Assumptions C141_tool_partial.
Print Assumptions C141_done_refuted.
Print Assumptions C141_error_refuted.
