(** C129: a control client and a control server that are connected. *)
From Coq Require Import ZArith String List Bool Lia ZifyBool ZifyNat Permutation Sorted.
From Verif Require Import Bytes BytesProofs Ctl CtlSys PropsCtl CtlSysSpec.
Import ListNotations.
Open Scope Z_scope.

(** ** The server *)

Lemma s32_id l : -2147483648 <= l <= 2147483647 -> s32 (u32 l) = l.
Proof.
  intros HL. unfold u32, s32. rewrite Z.mod_mod by lia. destruct (Z_le_gt_dec 0 l).
  - rewrite Z.mod_small by lia. destruct (Z.ltb_spec l 2147483648); lia.
  - replace (l mod 4294967296) with (l + 4294967296) by (apply (Z.mod_unique_pos _ _ (-1)); lia).
    destruct (Z.ltb_spec (l + 4294967296) 2147483648); lia.
Qed.
Lemma set_level_eq c l : set_level c l = mkCookie (c_default c) (c_name c) (Z.max 0 (Z.min 7 l)).
Proof. unfold set_level. f_equal. destruct (Z.ltb_spec l 0); [lia|]. destruct (Z.gtb_spec l 7); lia. Qed.
Lemma set_tag_split reg tag l :
  (Forall (fun x => c_name x <> tag) reg /\ set_tag_level reg tag l = reg) \/
  exists a c b, reg = a ++ c :: b /\ Forall (fun x => c_name x <> tag) a /\ c_name c = tag /\ set_tag_level reg tag l = a ++ set_level c l :: b.
Proof.
  induction reg as [|c reg IH]; [left; auto|]. cbn [set_tag_level]. destruct (bytes_eqb (c_name c) tag) eqn:E.
  - apply bytes_eqb_eq in E. right. exists [], c, reg. auto.
  - assert (N : c_name c <> tag) by (intro X; apply bytes_eqb_eq in X; congruence).
    destruct IH as [(F & ->)|(a & d & b & -> & F & D & ->)]; [left; auto|right]. exists (c :: a), d, b. auto.
Qed.
Lemma serve_effect r reg : sound_req r -> effect r reg (fst (srv_msg reg (Some r))).
Proof.
  destruct r as [tag l|l|]; intros H; cbn [srv_msg fst]; [| |constructor].
  - rewrite s32_id by exact H. destruct (set_tag_split reg tag l) as [(F & ->)|(a & c & b & -> & F & E & ->)]; [now constructor|].
    rewrite set_level_eq, E. now constructor.
  - rewrite s32_id by exact H. erewrite map_ext; [apply ef_all|]. intros c. cbv beta. destruct (c_default c) eqn:D; [reflexivity|]. rewrite set_level_eq, D. reflexivity.
Qed.
Lemma effect_sound r reg reg' : effect r reg reg' -> sound_reg reg -> sound_reg reg'.
Proof.
  unfold sound_reg. intros E S. destruct E as [tag l a c b F N|tag l reg F|l reg|reg]; auto.
  - apply Forall_app in S. destruct S as [S1 S2]. apply Forall_app. split; [exact S1|]. inversion S2 as [|? ? S3 S4]; subst.
    constructor; [|exact S4]. cbn [c_name c_level]. split; [exact (proj1 S3)|lia].
  - rewrite Forall_map. eapply Forall_impl; [|exact S]. intros c (A & B). destruct (c_default c); [auto|]. cbn [c_name c_level]. split; [exact A|lia].
Qed.
Lemma serve_answers r reg : r <> RList -> snd (srv_msg reg (Some r)) = [].
Proof. destruct r; intros H; try reflexivity. congruence. Qed.
Definition info (t : list Z * Z) : answer := WTagInfo (Some (fst t)) (snd t).
Lemma serve_list reg : sound_reg reg -> map snd (snd (srv_msg reg (Some RList))) = map info (tags_of reg) ++ [WListEnd].
Proof.
  intros S. cbn [srv_msg snd]. rewrite map_app. cbn [map snd]. f_equal. unfold tags_of. rewrite !map_map. apply map_ext_in. intros c Hc.
  apply filter_In in Hc. unfold sound_reg in S. rewrite Forall_forall in S. destruct (S c (proj1 Hc)) as (_ & L). unfold info. cbn [fst snd].
  rewrite s32_id by lia. reflexivity.
Qed.

(** ** Records *)

Lemma accepted_app a b : accepted (a ++ b) = accepted a ++ accepted b.
Proof. apply flat_map_app. Qed.
Lemma handled_app a b : handled (a ++ b) = handled a ++ handled b.
Proof. apply flat_map_app. Qed.
Lemma answers_app a b : answers (a ++ b) = (answers a + answers b)%nat.
Proof. unfold answers. now rewrite filter_app, app_length. Qed.

Definition reports (reg0 : list cookie) (tr : list seen) : Prop :=
  forall a l b, tr = a ++ Told l :: b -> told_right reg0 a l.

Lemma reports_snoc reg0 tr x : reports reg0 tr -> (forall l, x = Told l -> told_right reg0 tr l) -> reports reg0 (tr ++ [x]).
Proof.
  intros R H a l b E. destruct b as [|y b _] using rev_ind.
  - apply app_inj_tail in E. destruct E as [-> E]. exact (H l E).
  - rewrite app_comm_cons, app_assoc in E. apply app_inj_tail in E. destruct E as [E _]. exact (R a l b E).
Qed.

(** ** Invariant *)

Definition asked_last (tr : list seen) : Prop := exists a0 a0', tr = a0 ++ Asked RList true :: a0' /\ accepted a0' = [].
Definition phase (reg0 : list cookie) (y : sys) (tr : list seen) : Prop :=
  let k := y_cli y in
  match k_state k with
  | Idle => k_msg k = None /\ y_up y = [] /\ y_down y = [] /\ y_sends y = 0%nat /\ accepted tr = [] /\ handled tr = []
  | Connecting => y_up y = [] /\ y_down y = [] /\ y_sends y = 0%nat /\ handled tr = [] /\
                  accepted tr = match k_msg k with Some r => [r] | None => [] end /\
                  (k_msg k = Some RList -> k_tags k = [] /\ asked_last tr)
  | Connected =>
    accepted tr = handled tr ++ y_up y /\
    match k_msg k with
    | None => y_down y = [] /\ ~ In RList (y_up y)
    | Some RList =>
      (y_down y = [] /\ k_tags k = [] /\ asked_last tr /\ exists u, y_up y = u ++ [RList] /\ ~ In RList u) \/
      (y_up y = [] /\ exists a0 a0' a2 reg got left, tr = a0 ++ Asked RList true :: a0' ++ Handled RList :: a2 /\
         accepted a0' = [] /\ accepted a2 = [] /\ handled a2 = [] /\
         (let before := a0 ++ Asked RList true :: a0' in leads reg0 before reg /\ accepted before = handled before ++ [RList]) /\
         sound_reg reg /\ k_tags k = map some_name got /\ y_down y = map info left ++ [WListEnd] /\ got ++ left = tags_of reg)
    | Some r => y_down y = [] /\ ~ In RList (y_up y) /\ (1 <= y_sends y)%nat /\ exists x, accepted tr = x ++ [r]
    end
  end.
Definition Inv (reg0 : list cookie) (y : sys) (tr : list seen) : Prop :=
  leads reg0 tr (y_reg y) /\ sound_reg (y_reg y) /\ Forall sound_req (accepted tr) /\ reports reg0 tr /\
  (answers tr + match k_msg (y_cli y) with Some _ => 1 | None => 0 end = length (accepted tr))%nat /\ phase reg0 y tr.

Lemma phase_quiet reg0 y y' tr x : accepted [x] = [] -> handled [x] = [] ->
  y_cli y' = y_cli y -> y_up y' = y_up y -> y_down y' = y_down y -> y_sends y' = y_sends y -> phase reg0 y tr -> phase reg0 y' (tr ++ [x]).
Proof.
  intros A H E1 E2 E3 E4 P. unfold phase in *. rewrite E1, E2, E3, E4. rewrite accepted_app, handled_app, A, H, !app_nil_r.
  assert (AL : asked_last tr -> asked_last (tr ++ [x])).
  { intros (a0 & a0' & -> & Q). exists a0, (a0' ++ [x]). split; [now rewrite <- app_assoc|]. now rewrite accepted_app, Q, A. }
  destruct (k_state (y_cli y)); auto.
  - destruct P as (P1 & P2 & P3 & P4 & P5 & P6). repeat (split; [assumption|]). intros M. destruct (P6 M). auto.
  - destruct P as [P1 P]. split; [exact P1|]. destruct (k_msg (y_cli y)) as [[]|]; auto.
    destruct P as [(P2 & P3 & P4 & P5)|(P2 & a0 & a0' & a2 & reg & got & left & -> & Q1 & Q2 & Q3 & Q4)].
    + left. auto.
    + right. split; [exact P2|]. exists a0, a0', (a2 ++ [x]), reg, got, left. split; [rewrite <- app_assoc; cbn [app]; now rewrite <- app_assoc|].
      split; [exact Q1|]. split; [now rewrite accepted_app, Q2, A|]. split; [now rewrite handled_app, Q3, H|]. exact Q4.
Qed.

Lemma news_rets l : Forall (fun o => exists r, o = Ret r) l -> news l = [].
Proof. induction 1 as [|o l (r & ->) _ IH]; [reflexivity|exact IH]. Qed.
Lemma news_app a b : news (a ++ b) = news a ++ news b.
Proof. apply filter_app. Qed.
Lemma fin cb k d : quiet cb -> exists x, finish cb k d = (mkCli (k_state k) None (k_tags k), Status d :: x) /\ news x = [] /\ sends x = [].
Proof.
  intros Q. destruct (Q k) as (Q1 & Q2). unfold finish. destruct (cb k) as [k' x]. cbn [fst snd] in *. subst k'. exists x.
  split; [reflexivity|]. split; [now apply news_rets|]. clear - Q2. induction Q2 as [|o l (r & ->) _ IH]; [reflexivity|exact IH].
Qed.

Lemma step_inv cb reg0 y tr m : quiet cb -> Inv reg0 y tr -> sound m ->
  exists y' t, sys_step cb y m = Ok (y', t) /\ Inv reg0 y' (tr ++ t).
Proof.
  intros Q (L & SR & SA & RP & AN & P) SM. destruct y as [[st msg tags] reg up down sn]. cbn [y_cli y_reg y_up y_down y_sends k_state k_msg k_tags] in *.
  destruct m as [| |r| | | |reg']; cbn [sys_step y_cli y_reg y_up y_down y_sends].
  - (* start *)
    unfold client. cbn [y_cli y_reg y_up y_down y_sends Ctl.step k_state k_msg k_tags]. unfold phase in P. cbn [y_cli y_up y_down y_sends k_state k_msg k_tags] in P.
    destruct st; cbn [bind sends flat_map app length]; rewrite app_nil_r, Nat.add_0_r; do 2 eexists; (split; [reflexivity|]); rewrite app_nil_r;
      repeat (split; [assumption|]); unfold phase; cbn [y_cli y_up y_down y_sends k_state k_msg k_tags]; auto.
    destruct P as (-> & P1 & P2 & P3 & P4 & P5). repeat (split; [assumption|]). discriminate.
  - (* connected *)
    cbn [k_state]. destruct st; try (do 2 eexists; (split; [reflexivity|]); rewrite app_nil_r; repeat (split; [assumption|]); exact P).
    unfold phase in P. cbn [y_cli y_up y_down y_sends k_state k_msg k_tags] in P. destruct P as (-> & -> & -> & P4 & P5 & P6).
    unfold client. cbn [y_cli y_reg y_up y_down y_sends Ctl.step cli_connected k_state k_msg k_tags]. change (0 <? 0) with false. cbv iota.
    destruct msg as [r|]; cbn [bind sends flat_map app length]; do 2 eexists; (split; [reflexivity|]); rewrite app_nil_r; repeat (split; [assumption|]);
      unfold phase; cbn [y_cli y_up y_down y_sends k_state k_msg k_tags]; (split; [rewrite P4, P5; reflexivity|]).
    + destruct r as [tag l|l|]; [| |left; destruct (P6 eq_refl) as [T1 T2]; repeat (split; [assumption || reflexivity|]); exists []; auto];
        (split; [reflexivity|]; split; [intros [X|[]]; discriminate|]; split; [cbn; lia|]; exists []; exact P5).
    + auto.
  - (* request *)
    unfold client. cbn [y_cli y_reg y_up y_down y_sends Ctl.step]. unfold cli_request. cbn [k_state k_msg k_tags negb]. change (0 <? 0) with false. cbv iota.
    assert (LD : forall b, leads reg0 (tr ++ [Asked r b]) reg) by (intros b; now constructor).
    assert (RS : forall b, reports reg0 (tr ++ [Asked r b])) by (intros b; apply reports_snoc; [exact RP|discriminate]).
    destruct st.
    + cbn [bind sends flat_map app length accepts existsb]. change (- EPERM =? 0) with false. cbn [orb]. rewrite app_nil_r, Nat.add_0_r. do 2 eexists. split; [reflexivity|].
      split; [apply LD|]. split; [exact SR|]. split; [rewrite accepted_app; cbn; now rewrite app_nil_r|]. split; [apply RS|].
      split; [rewrite answers_app, accepted_app; cbn; rewrite app_nil_r; cbn in AN; lia|]. eapply phase_quiet; [reflexivity..|exact P].
    + destruct msg as [p|].
      * cbn [bind sends flat_map app length accepts existsb]. change (- EBUSY =? 0) with false. cbn [orb]. rewrite app_nil_r, Nat.add_0_r. do 2 eexists. split; [reflexivity|].
        split; [apply LD|]. split; [exact SR|]. split; [rewrite accepted_app; cbn; now rewrite app_nil_r|]. split; [apply RS|].
        split; [rewrite answers_app, accepted_app; cbn; rewrite app_nil_r; cbn in AN; lia|]. eapply phase_quiet; [reflexivity..|exact P].
      * cbn [bind sends flat_map app length accepts existsb]. change (0 =? 0) with true. cbn [orb]. rewrite app_nil_r, Nat.add_0_r. do 2 eexists. split; [reflexivity|].
        unfold phase in P. cbn [y_cli y_up y_down y_sends k_state k_msg k_tags] in P. destruct P as (-> & -> & -> & P4 & P5 & P6).
        split; [apply LD|]. split; [exact SR|]. split; [rewrite accepted_app, P5; cbn; constructor; [exact SM|constructor]|]. split; [apply RS|].
        split; [rewrite answers_app, accepted_app, P5; cbn; rewrite P5 in AN; cbn in AN; lia|].
        unfold phase. cbn [y_cli y_up y_down y_sends k_state k_msg k_tags]. rewrite handled_app, accepted_app, P4, P5. repeat (split; [reflexivity|]).
        intros X. injection X as ->. split; [reflexivity|]. exists tr, []. auto.
    + destruct msg as [p|].
      * cbn [bind sends flat_map app length accepts existsb]. change (- EBUSY =? 0) with false. cbn [orb]. rewrite app_nil_r, Nat.add_0_r. do 2 eexists. split; [reflexivity|].
        split; [apply LD|]. split; [exact SR|]. split; [rewrite accepted_app; cbn; now rewrite app_nil_r|]. split; [apply RS|].
        split; [rewrite answers_app, accepted_app; cbn; rewrite app_nil_r; cbn in AN; lia|]. eapply phase_quiet; [reflexivity..|exact P].
      * cbn [bind sends flat_map app length accepts existsb]. change (0 =? 0) with true. cbn [orb]. do 2 eexists. split; [reflexivity|].
        unfold phase in P. cbn [y_cli y_up y_down y_sends k_state k_msg k_tags] in P. destruct P as (P1 & -> & P3).
        split; [apply LD|]. split; [exact SR|]. split; [rewrite accepted_app; apply Forall_app; split; [exact SA|constructor; [exact SM|constructor]]|]. split; [apply RS|].
        split; [rewrite answers_app, accepted_app, app_length; cbn in *; lia|].
        unfold phase. cbn [y_cli y_up y_down y_sends k_state k_msg k_tags]. rewrite handled_app, accepted_app, P1. cbn [handled accepted flat_map app]. rewrite app_nil_r.
        split; [now rewrite <- app_assoc|].
        assert (G : forall r, r <> RList -> ~ In RList (up ++ [r])) by (intros r' N; rewrite in_app_iff; intros [H|[H|[]]]; [exact (P3 H)|congruence]).
        destruct r as [tag l|l|].
        -- split; [reflexivity|]. split; [apply G; discriminate|]. split; [lia|]. exists (handled tr ++ up). reflexivity.
        -- split; [reflexivity|]. split; [apply G; discriminate|]. split; [lia|]. exists (handled tr ++ up). reflexivity.
        -- left. repeat (split; [reflexivity|]). split; [exists tr, []; auto|]. exists up. auto.
  - (* send_cb *)
    destruct sn as [|n]; [do 2 eexists; (split; [reflexivity|]); rewrite app_nil_r; repeat (split; [assumption|]); exact P|].
    unfold client. cbn [y_cli y_reg y_up y_down y_sends Ctl.step]. unfold send_cb. cbn [k_msg].
    assert (LD : forall l, leads reg0 (tr ++ [Told l]) reg) by (intros; now constructor).
    assert (AC : forall l, accepted (tr ++ [Told l]) = accepted tr) by (intros; rewrite accepted_app; cbn; apply app_nil_r).
    assert (HA : forall l, handled (tr ++ [Told l]) = handled tr) by (intros; rewrite handled_app; cbn; apply app_nil_r).
    assert (AL : forall l, asked_last tr -> asked_last (tr ++ [Told l])).
    { intros l (a0 & a0' & -> & Q1). exists a0, (a0' ++ [Told l]). split; [now rewrite <- app_assoc|]. rewrite accepted_app, Q1. reflexivity. }
    unfold phase in P. cbn [y_cli y_up y_down y_sends k_state k_msg k_tags] in P.
    destruct st; [destruct P as (_ & _ & _ & X & _); discriminate|destruct P as (_ & _ & X & _); discriminate|].
    destruct P as [P1 P]. destruct msg as [r|].
    + destruct (fin cb (mkCli Connected (Some r) tags) true Q) as (x & F & N & S0). cbn [k_state k_tags] in F.
      destruct r as [tag l|l|].
      * rewrite F. cbn [bind sends flat_map]. fold (sends x). rewrite S0. cbn [app length]. rewrite app_nil_r, Nat.add_0_r. do 2 eexists. split; [reflexivity|].
        destruct P as (-> & P3 & P4 & z & P5).
        split; [apply LD|]. split; [exact SR|]. split; [rewrite AC; exact SA|].
        split; [apply reports_snoc; [exact RP|]; intros l0 E _; injection E as <-; left; exists (RSetTag tag l), z; split; [exact P5|]; split; [discriminate|]; change (news (Status true :: x)) with (Status true :: news x); now rewrite N|].
        split; [rewrite answers_app, AC; unfold answers at 2; cbn in *; lia|].
        unfold phase. cbn [y_cli y_up y_down y_sends k_state k_msg k_tags]. rewrite AC, HA. auto.
      * rewrite F. cbn [bind sends flat_map]. fold (sends x). rewrite S0. cbn [app length]. rewrite app_nil_r, Nat.add_0_r. do 2 eexists. split; [reflexivity|].
        destruct P as (-> & P3 & P4 & z & P5).
        split; [apply LD|]. split; [exact SR|]. split; [rewrite AC; exact SA|].
        split; [apply reports_snoc; [exact RP|]; intros l0 E _; injection E as <-; left; exists (RSetAll l), z; split; [exact P5|]; split; [discriminate|]; change (news (Status true :: x)) with (Status true :: news x); now rewrite N|].
        split; [rewrite answers_app, AC; unfold answers at 2; cbn in *; lia|].
        unfold phase. cbn [y_cli y_up y_down y_sends k_state k_msg k_tags]. rewrite AC, HA. auto.
      * cbn [bind sends flat_map app length]. rewrite app_nil_r, Nat.add_0_r. do 2 eexists. split; [reflexivity|].
        split; [apply LD|]. split; [exact SR|]. split; [rewrite AC; exact SA|].
        split; [apply reports_snoc; [exact RP|]; intros l0 E X; injection E as <-; exfalso; apply X; reflexivity|].
        split; [rewrite answers_app, AC; cbn in *; lia|].
        eapply (phase_quiet reg0 (mkSys (mkCli Connected (Some RList) tags) reg up down n)); [reflexivity..|].
        unfold phase. cbn [y_cli y_up y_down y_sends k_state k_msg k_tags]. auto.
    + cbn [bind sends flat_map app length]. rewrite app_nil_r, Nat.add_0_r. do 2 eexists. split; [reflexivity|].
      split; [apply LD|]. split; [exact SR|]. split; [rewrite AC; exact SA|].
      split; [apply reports_snoc; [exact RP|]; intros l0 E X; injection E as <-; exfalso; apply X; reflexivity|].
      split; [rewrite answers_app, AC; cbn in *; lia|].
      unfold phase. cbn [y_cli y_up y_down y_sends k_state k_msg k_tags]. rewrite AC, HA. auto.
  - (* the server *)
    destruct up as [|r up]; [do 2 eexists; (split; [reflexivity|]); rewrite app_nil_r; repeat (split; [assumption|]); exact P|].
    unfold phase in P. cbn [y_cli y_up y_down y_sends k_state k_msg k_tags] in P.
    destruct st; [destruct P as (_ & X & _); discriminate|destruct P as (X & _); discriminate|]. destruct P as [P1 P].
    assert (SQ : sound_req r) by (rewrite P1 in SA; apply Forall_app in SA; exact (Forall_inv (proj2 SA))).
    pose proof (serve_effect r reg SQ) as EF.
    assert (AC : accepted (tr ++ [Handled r]) = accepted tr) by (rewrite accepted_app; cbn; apply app_nil_r).
    assert (HA : handled (tr ++ [Handled r]) = handled tr ++ [r]) by (rewrite handled_app; reflexivity).
    assert (C1 : accepted (tr ++ [Handled r]) = handled (tr ++ [Handled r]) ++ up) by (rewrite AC, HA, P1, <- app_assoc; reflexivity).
    assert (CM : forall d, Inv reg0 (mkSys (mkCli Connected msg tags) (fst (srv_msg reg (Some r))) up d sn) (tr ++ [Handled r]) <->
              phase reg0 (mkSys (mkCli Connected msg tags) (fst (srv_msg reg (Some r))) up d sn) (tr ++ [Handled r])).
    { intros d. split; [intros X; apply X|]. intros X. split; [cbn [y_reg]; econstructor; [exact L|exact EF]|].
      split; [exact (effect_sound _ _ _ EF SR)|]. split; [rewrite AC; exact SA|]. split; [apply reports_snoc; [exact RP|discriminate]|].
      split; [rewrite answers_app, AC; cbn in *; lia|exact X]. }
    destruct (srv_msg reg (Some r)) as [reg' a] eqn:ES. cbn [fst] in *. do 2 eexists. split; [reflexivity|].
    apply CM. clear CM. unfold phase. cbn [y_cli y_up y_down y_sends k_state k_msg k_tags]. split; [exact C1|].
    assert (NA : r <> RList -> a = []) by (intros N; pose proof (serve_answers r reg N) as X; rewrite ES in X; exact X).
    destruct msg as [[tag l|l|]|].
    + destruct P as (-> & P3 & P4 & P5). rewrite NA by (intros ->; apply P3; now left). split; [reflexivity|]. split; [intro; apply P3; now right|]. rewrite AC. auto.
    + destruct P as (-> & P3 & P4 & P5). rewrite NA by (intros ->; apply P3; now left). split; [reflexivity|]. split; [intro; apply P3; now right|]. rewrite AC. auto.
    + destruct P as [(-> & -> & (a0 & a0' & -> & Q1) & u & E & NI)|(X & _)]; [|discriminate]. destruct u as [|v u]; cbn [app] in E.
      * injection E as -> ->. right. split; [reflexivity|]. exists a0, a0', [], reg, [], (tags_of reg). split; [now rewrite <- app_assoc|].
        split; [exact Q1|]. split; [reflexivity|]. split; [reflexivity|]. split; [split; [exact L|exact P1]|]. split; [exact SR|].
        split; [reflexivity|]. split; [|reflexivity]. pose proof (serve_list reg SR) as X. rewrite ES in X. exact X.
      * injection E as -> ->. left. rewrite NA by (intros ->; apply NI; now left). split; [reflexivity|]. split; [reflexivity|].
        split; [exists a0, (a0' ++ [Handled v]); split; [now rewrite <- app_assoc|rewrite accepted_app, Q1; reflexivity]|].
        exists u. split; [reflexivity|]. intro; apply NI; now right.
    + destruct P as (-> & P3). rewrite NA by (intros ->; apply P3; now left). split; [reflexivity|]. intro; apply P3; now right.
  - (* the client *)
    destruct down as [|a down]; [do 2 eexists; (split; [reflexivity|]); rewrite app_nil_r; repeat (split; [assumption|]); exact P|].
    unfold phase in P. cbn [y_cli y_up y_down y_sends k_state k_msg k_tags] in P.
    destruct st; [destruct P as (_ & _ & X & _); discriminate|destruct P as (_ & X & _); discriminate|]. destruct P as [P1 P].
    destruct msg as [[tag l|l|]|]; try (destruct P as (X & _); discriminate).
    destruct P as [(X & _)|(-> & a0 & a0' & a2 & rg & got & left & ET & Q1 & Q2 & Q3 & Q4 & Q5 & -> & ED & EG)]; [discriminate|].
    assert (AC : forall l, accepted (tr ++ [Told l]) = accepted tr) by (intros; rewrite accepted_app; cbn; apply app_nil_r).
    assert (HA : forall l, handled (tr ++ [Told l]) = handled tr) by (intros; rewrite handled_app; cbn; apply app_nil_r).
    unfold client. cbn [y_cli y_reg y_up y_down y_sends Ctl.step].
    destruct left as [|t left]; cbn [map app] in ED; injection ED as -> ->; cbn [info].
    + rewrite app_nil_r in EG. subst got. unfold list_end.
      destruct (fin cb (mkCli Connected (Some RList) (map some_name (tags_of rg))) true Q) as (x & F & N & S0). cbn [k_state k_tags] in F. rewrite F. cbn [k_tags].
      destruct (qsort_ok (tags_of rg)) as (srt & ES & PE & SO).
      { unfold tags_of. rewrite Forall_map. apply Forall_forall. intros c Hc. apply filter_In in Hc. unfold sound_reg in Q5. rewrite Forall_forall in Q5. exact (proj1 (Q5 c (proj1 Hc))). }
      rewrite ES. cbn [bind k_state k_msg]. rewrite map_map. cbn [some_name fst snd].
      set (infos := map (fun t => TagInfo (Some (fst t)) (snd t)) srt).
      assert (SI : sends infos = []) by (unfold infos; clear; induction srt; [reflexivity|exact IHsrt]).
      assert (NI : news infos = infos) by (unfold infos; clear; induction srt as [|q s IH]; [reflexivity|cbn; now f_equal]).
      change (Status true :: x ++ infos) with ((Status true :: x) ++ infos).
      assert (SS : sends ((Status true :: x) ++ infos) = []) by (unfold sends in *; rewrite flat_map_app; cbn [flat_map app]; rewrite S0, SI; reflexivity).
      rewrite SS. cbn [app length]. rewrite Nat.add_0_r.
      assert (NW : news (Status true :: x ++ infos) = Status true :: infos).
      { change (news (Status true :: x ++ infos)) with (Status true :: news (x ++ infos)). rewrite news_app, N, NI. reflexivity. }
      do 2 eexists. split; [reflexivity|].
      split; [now constructor|]. split; [exact SR|]. split; [rewrite AC; exact SA|]. split.
      { apply reports_snoc; [exact RP|]. intros l E _. injection E as <-. right.
        assert (AT : accepted tr = accepted a0 ++ [RList]).
        { rewrite ET, accepted_app. cbn [accepted flat_map]. change (flat_map _ (a0' ++ Handled RList :: a2)) with (accepted (a0' ++ Handled RList :: a2)).
          rewrite accepted_app, Q1. change (accepted (Handled RList :: a2)) with (accepted a2). rewrite Q2. reflexivity. }
        exists (accepted a0). split; [exact AT|]. exists a0, a0', a2, rg. split; [exact ET|]. split; [exact Q1|]. split; [exact Q2|]. split; [exact Q4|].
        exists srt. split; [exact NW|]. split; [exact PE|exact SO]. }
      split; [rewrite answers_app, AC; unfold answers at 2; cbn [filter has_news]; rewrite NW; cbn in *; lia|].
      unfold phase. cbn [y_cli y_up y_down y_sends k_state k_msg k_tags]. rewrite AC, HA. auto.
    + unfold tag_info. cbn [k_state k_msg k_tags bind sends flat_map app length]. rewrite Nat.add_0_r. do 2 eexists. split; [reflexivity|].
      split; [now constructor|]. split; [exact SR|]. split; [rewrite AC; exact SA|].
      split; [apply reports_snoc; [exact RP|]; intros l E X; injection E as <-; exfalso; apply X; reflexivity|].
      split; [rewrite answers_app, AC; cbn in *; lia|].
      unfold phase. cbn [y_cli y_up y_down y_sends k_state k_msg k_tags]. rewrite AC, HA. split; [exact P1|]. right. split; [reflexivity|].
      exists a0, a0', (a2 ++ [Told []]), rg, (got ++ [t]), left. split; [rewrite ET, <- app_assoc; cbn [app]; now rewrite <- app_assoc|].
      split; [exact Q1|]. split; [rewrite accepted_app, Q2; reflexivity|]. split; [rewrite handled_app, Q3; reflexivity|]. split; [exact Q4|].
      split; [exact Q5|]. split; [rewrite map_app; reflexivity|]. split; [reflexivity|]. now rewrite <- app_assoc.
  - (* the process of the server *)
    do 2 eexists. split; [reflexivity|]. split; [now econstructor; eauto|]. split; [exact SM|].
    split; [rewrite accepted_app; cbn; rewrite app_nil_r; exact SA|]. split; [apply reports_snoc; [exact RP|discriminate]|].
    split; [rewrite answers_app, accepted_app; cbn; rewrite app_nil_r; cbn in AN; lia|].
    eapply (phase_quiet reg0 (mkSys (mkCli st msg tags) reg up down sn)); [reflexivity..|exact P].
Qed.

Lemma run_inv cb reg0 : quiet cb -> forall ms y tr, Forall sound ms -> Inv reg0 y tr ->
  exists y' t, sys_run cb y ms = Ok (y', t) /\ Inv reg0 y' (tr ++ t).
Proof.
  intros Q. induction ms as [|m ms IH]; intros y tr S I; cbn [sys_run]; [exists y, []; rewrite app_nil_r; auto|].
  destruct (step_inv cb reg0 y tr m Q I (Forall_inv S)) as (y1 & t1 & E1 & I1). rewrite E1. cbn [bind].
  destruct (IH y1 (tr ++ t1) (Forall_inv_tail S) I1) as (y2 & t2 & E2 & I2). rewrite E2. cbn [bind].
  exists y2, (t1 ++ t2). split; [reflexivity|]. now rewrite app_assoc.
Qed.
Lemma inv_new reg0 : sound_reg reg0 -> Inv reg0 (sys_new reg0) [].
Proof.
  intros S. split; [constructor|]. split; [exact S|]. split; [constructor|]. split; [intros a l b E; destruct a; discriminate|]. split; [reflexivity|].
  unfold phase. cbn. auto 6.
Qed.

(** Nothing under way. *)
Definition at_rest (y : sys) : Prop := k_state (y_cli y) = Connected /\ y_up y = [] /\ y_down y = [] /\ y_sends y = 0%nat.

(** ** C129 *)

Theorem C129_connected : forall cb reg0 ms, quiet cb -> sound_reg reg0 -> Forall sound ms ->
  exists y tr, sys_run cb (sys_new reg0) ms = Ok (y, tr) /\
    (* the server handles the accepted requests, each once and in order; they determine its levels *)
    leads reg0 tr (y_reg y) /\ (exists rest, accepted tr = handled tr ++ rest) /\
    (* what the client tells: at most one answer per request, about the right one *)
    (forall a l b, tr = a ++ Told l :: b -> told_right reg0 a l) /\
    (answers tr <= length (accepted tr) <= answers tr + 1)%nat /\
    (* and nothing is forgotten *)
    (at_rest y -> accepted tr = handled tr /\ answers tr = length (accepted tr)).
Proof.
  intros cb reg0 ms Q S0 SM. destruct (run_inv cb reg0 Q ms _ [] SM (inv_new reg0 S0)) as (y & tr & E & (L & SR & SA & RP & AN & P)).
  cbn [app] in *. exists y, tr. split; [exact E|]. split; [exact L|]. split; [|split; [exact RP|split]].
  - unfold phase in P. destruct (k_state (y_cli y)).
    + destruct P as (_ & _ & _ & _ & A & H). exists []. now rewrite A, H.
    + destruct P as (_ & _ & _ & H & _). rewrite H. now exists (accepted tr).
    + destruct P as (A & _). eauto.
  - destruct (k_msg (y_cli y)); lia.
  - intros (R1 & R2 & R3 & R4). unfold phase in P. rewrite R1 in P. destruct P as [P1 P]. rewrite R2, app_nil_r in P1. split; [exact P1|].
    destruct (k_msg (y_cli y)) as [[tag l|l|]|]; [| | |lia].
    + destruct P as (_ & _ & X & _). lia.
    + destruct P as (_ & _ & X & _). lia.
    + destruct P as [(_ & _ & _ & u & X & _)|(_ & a0 & a0' & a2 & rg & got & left & _ & _ & _ & _ & _ & _ & _ & X & _)].
      * rewrite R2 in X. destruct u; discriminate.
      * rewrite R3 in X. destruct left; discriminate.
Qed.

(** A client that sets the level of a tag and then lists the tags sees that level. *)
Lemma effect_names r reg reg' : effect r reg reg' -> map (fun c => (c_default c, c_name c)) reg' = map (fun c => (c_default c, c_name c)) reg.
Proof.
  destruct 1 as [tag l a c b F N|tag l reg F|l reg|reg]; auto.
  - rewrite !map_app. cbn [map c_default c_name]. now rewrite N.
  - rewrite map_map. apply map_ext. intros c. destruct (c_default c) eqn:D; [now rewrite D|reflexivity].
Qed.
Definition first_named (tag : list Z) (d : bool) (lv : Z) (reg : list cookie) : Prop :=
  exists a b, reg = a ++ mkCookie d tag lv :: b /\ Forall (fun x => c_name x <> tag) a.
Lemma first_names tag reg reg' d lv : map (fun c => (c_default c, c_name c)) reg' = map (fun c => (c_default c, c_name c)) reg ->
  first_named tag d lv reg -> exists lv', first_named tag d lv' reg'.
Proof.
  intros E (a & b & -> & F). revert reg' E. induction F as [|x a Hx F IH]; intros reg' E; destruct reg' as [|c reg']; try discriminate; cbn [app map] in E.
  - injection E as E1 E2 E3. destruct c as [cd cn cl]. cbn in E1, E2. subst. exists cl, [], reg'. auto.
  - injection E as E1 E2 E3. destruct (IH reg' E3) as (lv' & a' & b' & -> & F'). exists lv', (c :: a'), b'. split; [reflexivity|]. constructor; [congruence|exact F'].
Qed.
Lemma first_set tag l reg reg' d lv : effect (RSetTag tag l) reg reg' -> first_named tag d lv reg -> first_named tag d (Z.max 0 (Z.min 7 l)) reg'.
Proof.
  intros E (a & b & -> & F). inversion E as [t' l' a' c b' F' N' E1 E2|t' l' reg0 F' E1 E2| |]; subst.
  - assert (X : a' = a /\ c = mkCookie d (c_name c) lv /\ b' = b).
    { clear E. revert a F E2. induction F' as [|x a' Hx F' IH]; intros a F E2; destruct a as [|z a]; cbn [app] in E2.
      - injection E2 as E2 E3. auto.
      - injection E2 as E2 E3. subst z. exfalso. exact (Forall_inv F eq_refl).
      - injection E2 as E2 E3. subst x. cbn in Hx. congruence.
      - injection E2 as E2 E3. subst z. destruct (IH a (Forall_inv_tail F) E3) as (-> & H). auto. }
    destruct X as (-> & X & ->). exists a, b. split; [|exact F]. rewrite X at 1. reflexivity.
  - exfalso. rewrite Forall_forall in F'. apply (F' (mkCookie d tag lv)); [apply in_elt|reflexivity].
Qed.
Definition not_own (x : seen) : Prop := forall reg, x <> Own reg.
Lemma leads_level reg0 tr reg : leads reg0 tr reg -> Forall not_own tr -> forall tag d lv, first_named tag d lv reg0 ->
  (exists lv', first_named tag d lv' reg) /\
  (forall h l rl, handled tr = h ++ RSetTag tag l :: rl -> Forall (fun r => r = RList) rl -> first_named tag d (Z.max 0 (Z.min 7 l)) reg).
Proof.
  induction 1 as [|tr r reg reg' L IH E|tr reg reg' L IH|tr r b reg L IH|tr l0 reg L IH]; intros NO tag d lv H.
  - split; [eauto|]. intros h l rl X; destruct h; discriminate.
  - apply Forall_app in NO. destruct NO as [NO _]. destruct (IH NO tag d lv H) as [(lv' & I1) I2]. split.
    + eapply first_names; [exact (effect_names _ _ _ E)|exact I1].
    + intros h l rl X F. rewrite handled_app in X. cbn [handled flat_map app] in X. destruct rl as [|q rl _] using rev_ind.
      * apply app_inj_tail in X. destruct X as [_ ->]. eapply first_set; eauto.
      * rewrite app_comm_cons, app_assoc in X. apply app_inj_tail in X. destruct X as [X ->]. apply Forall_app in F. destruct F as [F1 F2].
        pose proof (Forall_inv F2) as Y. cbv beta in Y. subst. inversion E; subst. exact (I2 _ _ _ X F1).
  - apply Forall_app in NO. destruct NO as [_ NO]. exfalso. exact (Forall_inv NO reg' eq_refl).
  - apply Forall_app in NO. destruct NO as [NO _]. rewrite handled_app. cbn [handled flat_map app]. rewrite app_nil_r. exact (IH NO tag d lv H).
  - apply Forall_app in NO. destruct NO as [NO _]. rewrite handled_app. cbn [handled flat_map app]. rewrite app_nil_r. exact (IH NO tag d lv H).
Qed.

Theorem C129_set_then_list : forall cb reg0 ms y tr tag level lv a l b x rl, quiet cb -> sound_reg reg0 -> Forall sound ms ->
  sys_run cb (sys_new reg0) ms = Ok (y, tr) ->
  (* the process of the server has the tag and leaves the levels alone *)
  first_named tag false lv reg0 -> Forall not_own tr ->
  (* the client accepted to set the level of the tag, after that only lists; this is the report of the last *)
  tr = a ++ Told l :: b -> accepted a = x ++ RSetTag tag level :: rl ++ [RList] -> Forall (fun r => r = RList) rl -> news l <> [] ->
  In (TagInfo (Some tag) (Z.max 0 (Z.min 7 level))) l.
Proof.
  intros cb reg0 ms y tr tag level lv a l b x rl Q S0 SM E FN NO ET EA F NW.
  destruct (C129_connected cb reg0 ms Q S0 SM) as (y' & tr' & E' & _ & _ & RP & _). rewrite E in E'.
  assert (tr' = tr) as -> by congruence. clear E'. rewrite app_comm_cons, app_assoc in EA.
  destruct (RP a l b ET NW) as [(r & z & X & N & _)|(z & X & a0 & a0' & a2 & reg & EQ & Q1 & Q2 & (L & H) & tags & NL & PE & SO)].
  - rewrite EA in X. apply app_inj_tail in X. destruct X as [_ <-]. congruence.
  - assert (AB : accepted (a0 ++ Asked RList true :: a0') = accepted a).
    { rewrite EQ, !accepted_app. cbn [accepted flat_map app]. f_equal. f_equal. change (flat_map _ (a0' ++ Handled RList :: a2)) with (accepted (a0' ++ Handled RList :: a2)).
      rewrite accepted_app. change (accepted (Handled RList :: a2)) with (accepted a2). now rewrite Q2, app_nil_r. }
    rewrite AB, EA in H. apply app_inj_tail in H. destruct H as [H _].
    assert (NB : Forall not_own (a0 ++ Asked RList true :: a0')).
    { rewrite ET, EQ in NO. rewrite Forall_forall in *. intros s Hs. apply NO. rewrite !in_app_iff in *. cbn [In] in *. rewrite in_app_iff. tauto. }
    destruct (leads_level _ _ _ L NB tag false lv FN) as [_ G]. destruct (G x level rl (eq_sym H) F) as (u & v & -> & _).
    assert (IT : In (tag, Z.max 0 (Z.min 7 level)) tags).
    { apply (Permutation_in _ (Permutation_sym PE)). unfold tags_of. rewrite filter_app, map_app. cbn [filter c_default negb map c_name c_level]. apply in_elt. }
    assert (IN : In (TagInfo (Some tag) (Z.max 0 (Z.min 7 level))) (news l)).
    { rewrite NL. right. exact (in_map (fun t => TagInfo (Some (fst t)) (snd t)) _ _ IT). }
    unfold news in IN. apply filter_In in IN. exact (proj1 IN).
Qed.

(** The client asks before it is connected, then lists; the server answers late. *)
Definition ex_moves : list move :=
  [MStart; MAsk (RSetTag [97] 9); MAsk RList; MConnect; MSent; MAsk RList; MServe; MSent; MServe; MReceive; MReceive; MReceive; MReceive].
Example C129_ex : exists y a, sys_run silent (sys_new ex_reg) ex_moves =
    Ok (y, a ++ [Told [Status true; TagInfo (Some [97]) 7; TagInfo (Some [110]) 7; TagInfo (Some [110; 101; 116]) 6]]) /\ accepted a = [] ++ RSetTag [97] 9 :: [] ++ [RList] /\ at_rest y /\ Forall not_own a /\ first_named [97] false 3 ex_reg /\
  quiet silent /\ sound_reg ex_reg /\ Forall sound ex_moves.
Proof.
  eexists. exists [Asked (RSetTag [97] 9) true; Asked RList false; Told [Status true]; Asked RList true; Handled (RSetTag [97] 9); Told []; Handled RList; Told []; Told []; Told []].
  split; [vm_compute; reflexivity|]. split; [reflexivity|]. split; [repeat split|]. split; [repeat (constructor; [intros reg; discriminate|]); constructor|].
  split; [exists [mkCookie false [110; 101; 116] 6; mkCookie true [] 6], [mkCookie false [110] 7]; split; [reflexivity|repeat (constructor; [discriminate|]); constructor]|].
  split; [exact silent_quiet|]. split; [exact (proj1 C59_list_ex)|]. repeat constructor; cbn; lia.
Qed.
Print Assumptions C129_connected.
Print Assumptions C129_set_then_list.
