(** Lemmas on the life of shdlogd. *)
From Coq Require Import ZArith String List Bool Lia ZifyBool ZifyNat Arith.
From Verif Require Import Bytes Shdlogd ShdlogdSpec.
Import ListNotations.
Open Scope Z_scope.

Lemma calls_app b : forall t u l, calls b l (t ++ u) = match calls b l t with Some l => calls b l u | None => None end.
Proof. induction t; intros; cbn; [reflexivity|]. destruct (call b l a); auto. Qed.

(** What is held while samples are read. *)
Definition full (h fd : Z) (l : list res) : Prop :=
  (h <> 0 /\ (l = [RTs; RBlobs; RShd h; RFd fd; RTimer; RLoop] \/ l = [RShd h; RTs; RBlobs; RFd fd; RTimer; RLoop])) \/
  (h = 0 /\ l = [RTs; RBlobs; RFd fd; RTimer; RLoop]).
Definition good (b : bool) (c : ctx) : Prop :=
  0 <= x_fd c /\ x_loop c = true /\ x_timer c = true /\ x_blobs c = true /\ x_ts c = true /\
  (b = false -> x_shd c <> 0) /\
  exists l, calls b [] (x_tr c) = Some l /\ full (x_shd c) (x_fd c) l.

Section Y.
Variables (b : bool) (y : sys) (f : conf).
Hypothesis O : b = false -> forall t s h r, In (Select h r) t -> y_shd y t s <> 0.

Lemma full_section h fd l : (b = false -> h <> 0) -> full h fd l -> holds (RShd h) l || (b && (h =? 0)) = true.
Proof.
  intros N [(H & [->| ->])|(-> & ->)]; cbn; rewrite ?Z.eqb_refl; auto.
  destruct b; [reflexivity|]. exfalso. apply (N eq_refl). reflexivity.
Qed.
Lemma full_mem h fd l : full h fd l -> holds RBlobs l = true /\ holds RTs l = true /\ holds RLoop l = true.
Proof. intros [(H & [->| ->])|(-> & ->)]; cbn; auto. Qed.

Lemma good_tr c e : good b c -> (forall l, full (x_shd c) (x_fd c) l -> call b l e = Some l) -> good b (tr c e).
Proof.
  intros (A1 & A2 & A3 & A4 & A5 & A6 & l & A7 & A8) C. unfold good. cbn -[call].
  repeat (split; [assumption|]). exists l. rewrite calls_app, A7. cbn -[call]. rewrite (C _ A8). auto.
Qed.
Lemma good_stop c : good b c -> good b (set_stop c).
Proof. intros H. exact H. Qed.
Lemma good_look c : good b c -> good b (look y c).
Proof. unfold look. destruct (y_signal y (x_tr c)); auto. Qed.
Lemma good_reopen c h0 r0 : In (Select h0 r0) (x_tr c) -> good b c -> good b (open_shd y f (tr c (Free (RShd (x_shd c))))).
Proof.
  intros SI (A1 & A2 & A3 & A4 & A5 & A6 & l & A7 & A8). unfold open_shd.
  set (c1 := tr (tr c (Free (RShd (x_shd c)))) (OpenShd (f_section f))).
  set (h := y_shd y (x_tr c1) (f_section f)). unfold good. cbn -[call c1].
  assert (F : exists l', calls b [] (x_tr c1) = Some l' /\ l' = [RTs; RBlobs; RFd (x_fd c); RTimer; RLoop]).
  { unfold c1. cbn -[call]. rewrite calls_app, calls_app, A7. cbn -[holds drop].
    rewrite (full_section _ _ _ A6 A8). eexists. split; [reflexivity|].
    destruct A8 as [(H & [->| ->])|(-> & ->)]; cbn; rewrite ?Z.eqb_refl; reflexivity. }
  destruct F as (l' & F & E). repeat (split; [assumption|]).
  split. { intros B. apply (O B _ _ h0 r0). cbn. rewrite !in_app_iff. auto. }
  destruct (h =? 0) eqn:Z0.
  - exists l'. split. { cbn -[c1]. rewrite calls_app, F. reflexivity. }
    right. split; [lia|exact E].
  - exists (RShd h :: l'). split. { cbn -[c1]. rewrite calls_app, F, E. reflexivity. }
    left. split; [lia|]. right. rewrite E. reflexivity.
Qed.
Lemma good_read c : good b c -> good b (fst (read_samples y f c)).
Proof.
  intros G. unfold read_samples.
  assert (S1 : good b (tr c (Select (x_shd c) (y_select y (x_tr c))))).
  { apply good_tr; [exact G|]. intros l L. cbn -[holds]. rewrite (full_section _ _ _ (proj1 (proj2 (proj2 (proj2 (proj2 (proj2 G)))))) L). reflexivity. }
  destruct (y_select y (x_tr c) <? 0).
  { cbn [fst]. destruct (y_select y (x_tr c) =? - ENODEV); [|exact S1]. refine (good_reopen _ _ _ _ S1). cbn. apply in_or_app. right. left. reflexivity. }
  set (c1 := tr c _) in *. clearbody c1.
  assert (S2 : good b (tr c1 (Read (x_shd c1) (y_read y (x_tr c1))))).
  { apply good_tr; [exact S1|]. intros l L. cbn -[holds].
    destruct (full_mem _ _ _ L) as (-> & -> & _).
    rewrite (full_section _ _ _ (proj1 (proj2 (proj2 (proj2 (proj2 (proj2 S1)))))) L). reflexivity. }
  set (c2 := tr c1 _) in *. clearbody c2.
  assert (S3 : good b (tr c2 (EndRead (x_shd c2) (y_end y (x_tr c2))))).
  { apply good_tr; [exact S2|]. intros l L. cbn -[holds].
    rewrite (full_section _ _ _ (proj1 (proj2 (proj2 (proj2 (proj2 (proj2 S2)))))) L). reflexivity. }
  set (c3 := tr c2 _) in *.
  destruct (y_end y (x_tr c2) <? 0); cbn [fst].
  - destruct (y_end y (x_tr c2) =? - ENODEV); [apply good_stop|]; exact S3.
  - apply good_tr; [exact S3|]. reflexivity.
Qed.
Lemma good_first : forall n c c' r g, good b c -> first_read n y f c = Some (c', r, g) -> good b c'.
Proof.
  induction n; intros c c' r g G; cbn [first_read]; [discriminate|].
  destruct (read_samples y f c) as (c1, r1) eqn:R.
  assert (G1 : good b (look y c1)). { apply good_look. pose proof (good_read _ G) as K. rewrite R in K. exact K. }
  destruct (x_stop (look y c1)).
  - intros [= <- <- <-]. exact G1.
  - destruct (r1 =? 0); [|apply IHn; exact G1]. intros [= <- <- <-]. exact G1.
Qed.
Lemma good_timers : forall k c, good b c -> good b (timers k y f c).
Proof. induction k; intros; cbn; [assumption|]. apply IHk, good_read. assumption. Qed.
Lemma good_loop : forall n c r c' r', good b c -> main_loop n y f c r = Some (c', r') -> good b c'.
Proof.
  induction n; intros c r c' r' G; cbn [main_loop]; apply good_look in G;
    destruct (x_stop (look y c)); try discriminate; intros E.
  - injection E as <- <-. exact G.
  - injection E as <- <-. exact G.
  - revert E. apply IHn. apply good_tr; [apply good_timers; exact G|].
    intros l L. destruct (full_mem _ _ _ L) as (_ & _ & M). cbn -[holds]. rewrite M. reflexivity.
Qed.
Lemma good_finish c r : good b c -> calls b [] (fst (finish c r)) = Some [].
Proof.
  clear O. intros (A1 & A2 & A3 & A4 & A5 & A6 & l & A7 & A8). unfold finish. rewrite A5. cbn -[calls]. rewrite A4. cbn -[calls].
  assert (F : 0 <=? x_fd c = true) by lia.
  destruct A8 as [(H & L)|(H & ->)].
  - assert (Z0 : x_shd c =? 0 = false) by lia. rewrite Z0. cbn -[calls]. rewrite F. cbn -[calls]. rewrite A3. cbn -[calls]. rewrite A2. cbn -[calls].
    rewrite !calls_app, A7. destruct L as [->| ->]; cbn; rewrite ?Z.eqb_refl; cbn; rewrite ?Z.eqb_refl; cbn; rewrite ?Z.eqb_refl; reflexivity.
  - assert (Z0 : x_shd c =? 0 = true) by lia. rewrite Z0. cbn -[calls]. rewrite F. cbn -[calls]. rewrite A3. cbn -[calls]. rewrite A2. cbn -[calls].
    rewrite !calls_app, A7. cbn. rewrite ?Z.eqb_refl; cbn; rewrite ?Z.eqb_refl; reflexivity.
Qed.
End Y.

Lemma usage_calls b : forall o f run t, calls b [] t = Some [] -> calls b [] (fst (fst (parse_opts f run t o))) = Some [].
Proof.
  induction o as [|a o IH]; intros f run t H; cbn; [assumption|].
  destruct a; apply IH; try assumption. rewrite calls_app, H. reflexivity.
Qed.

Lemma main_calls b fuel y o t st : (b = false -> forall t s h r, In (Select h r) t -> y_shd y t s <> 0) ->
  main fuel y o = Some (t, st) -> calls b [] t = Some [].
Proof.
  intros O. unfold main. pose proof (usage_calls b o default true [] eq_refl) as U.
  destruct (parse_opts default true [] o) as ((t0, f), run). cbn [fst] in U.
  destruct run; cbn [negb]; [|intros [= <- <-]; exact U].
  destruct (y_loop y); cbn [negb].
  2:{ cbn. intros [= <- <-]. rewrite calls_app, U. reflexivity. }
  destruct (y_timer y); cbn [negb].
  2:{ cbn. intros [= <- <-]. rewrite !calls_app, U. reflexivity. }
  destruct (y_period y <? 0).
  { cbn. intros [= <- <-]. rewrite !calls_app, U. reflexivity. }
  destruct (y_raw y (f_device f) <? 0) eqn:R.
  { cbn. intros [= <- <-]. rewrite !calls_app, U. reflexivity. }
  set (c0 := tr _ (OpenRaw (f_device f))). set (fd := y_raw y (f_device f)) in *.
  assert (C0 : calls b [] (x_tr (set_fd (tr c0 (Get (RFd fd))) fd)) = Some [RFd fd; RTimer; RLoop]).
  { cbn. rewrite !calls_app, U. reflexivity. }
  assert (P0 : x_fd (set_fd (tr c0 (Get (RFd fd))) fd) = fd /\ x_loop (set_fd (tr c0 (Get (RFd fd))) fd) = true /\ x_timer (set_fd (tr c0 (Get (RFd fd))) fd) = true
      /\ x_blobs (set_fd (tr c0 (Get (RFd fd))) fd) = false /\ x_ts (set_fd (tr c0 (Get (RFd fd))) fd) = false) by (cbn; auto).
  set (c1 := set_fd (tr c0 (Get (RFd fd))) fd) in *. clearbody c1. clear c0 U.
  destruct P0 as (P1 & P2 & P3 & P4 & P5). unfold open_shd.
  set (h := y_shd y _ (f_section f)).
  assert (F : 0 <=? fd = true) by lia.
  destruct (h =? 0) eqn:H0.
  { cbn. rewrite ?H0. cbn. unfold finish. cbn. rewrite P5. cbn. rewrite P4. cbn. rewrite H0. cbn. rewrite P1, F. cbn. rewrite P3. cbn. rewrite P2. cbn.
    intros [= <- <-]. rewrite !calls_app, C0. cbn. rewrite Z.eqb_refl. reflexivity. }
  cbn [set_shd x_shd]. rewrite H0.
  destruct (y_blobs y); cbn [negb].
  2:{ unfold finish. cbn. rewrite P5. cbn. rewrite P4. cbn. rewrite H0. cbn. rewrite P1, F. cbn. rewrite P3. cbn. rewrite P2. cbn.
    intros [= <- <-]. rewrite !calls_app, C0. cbn. rewrite !Z.eqb_refl. cbn. rewrite !Z.eqb_refl. reflexivity. }
  destruct (y_ts y); cbn [negb].
  2:{ unfold finish. cbn. rewrite H0. cbn. rewrite P1, F. cbn. rewrite P3. cbn. rewrite P2. cbn.
    intros [= <- <-]. rewrite !calls_app, C0. cbn. rewrite !Z.eqb_refl. cbn. rewrite !Z.eqb_refl. reflexivity. }
  match goal with |- context [first_read fuel y f ?c] => set (c2 := c) end.
  assert (G : good b c2).
  { unfold good, c2. cbn. rewrite P1, P2, P3. repeat (split; [first [reflexivity|lia]|]). 
    eexists. split. { rewrite !calls_app, C0. cbn. rewrite ?Z.eqb_refl. reflexivity. }
    left. split; [lia|]. left. reflexivity. }
  clearbody c2. destruct (first_read fuel y f c2) as [((c3, r3), [])|] eqn:E1; [| |discriminate].
  - pose proof (good_first b y f O _ _ _ _ _ G E1) as G3. intros E2. assert (E3 : finish c3 r3 = (t, st)) by congruence. pose proof (good_finish b _ r3 G3) as K. rewrite E3 in K. exact K.
  - pose proof (good_first b y f O _ _ _ _ _ G E1) as G3.
    destruct (main_loop fuel y f c3 r3) as [(c4, r4)|] eqn:E4; [|discriminate].
    pose proof (good_loop b y f O _ _ _ _ _ G3 E4) as G4. intros E2. assert (E3 : finish c4 r4 = (t, st)) by congruence. pose proof (good_finish b _ r4 G4) as K. rewrite E3 in K. exact K.
Qed.

(** ** The result *)
Lemma last_wait_app : forall t d u, last_wait d (t ++ u) = last_wait (last_wait d t) u.
Proof. induction t as [|e t IH]; intros; cbn; [reflexivity|]. destruct e; apply IH. Qed.
Lemma relayed_app t u : relayed (t ++ u) = relayed t || relayed u.
Proof. apply existsb_app. Qed.
(** Events that say nothing about the result. *)
Definition mute (e : ev) : Prop := match e with Relay _ | Wait _ => False | _ => True end.
Lemma mute_tr c e : mute e -> relayed (x_tr (tr c e)) = relayed (x_tr c) /\ forall d, last_wait d (x_tr (tr c e)) = last_wait d (x_tr c).
Proof. intros M. cbn. rewrite relayed_app. split; [destruct e; cbn; rewrite ?orb_false_r; easy|]. intros. rewrite last_wait_app. destruct e; easy. Qed.
Lemma finish_res c r : relayed (fst (finish c r)) = relayed (x_tr c) /\ (forall d, last_wait d (fst (finish c r)) = last_wait d (x_tr c)) /\ snd (finish c r) = if r =? 0 then 0 else 1.
Proof.
  assert (M : forall (q : bool) c' e, mute e ->
     relayed (x_tr (if q then tr c' e else c')) = relayed (x_tr c') /\ forall d, last_wait d (x_tr (if q then tr c' e else c')) = last_wait d (x_tr c')).
  { intros q c' e K. destruct q; [apply mute_tr; exact K|auto]. }
  assert (M' : forall (q : bool) c' e, mute e ->
     relayed (x_tr (if q then c' else tr c' e)) = relayed (x_tr c') /\ forall d, last_wait d (x_tr (if q then c' else tr c' e)) = last_wait d (x_tr c')).
  { intros q c' e K. destruct q; [auto|apply mute_tr; exact K]. }
  unfold finish. cbn [fst snd]. split; [|split; [|reflexivity]].
  - rewrite !(fun q c' e K => proj1 (M q c' e K)), (fun q c' e K => proj1 (M' q c' e K)), !(fun q c' e K => proj1 (M q c' e K)) by exact I. reflexivity.
  - intros d. rewrite !(fun q c' e K => proj2 (M q c' e K) d), (fun q c' e K => proj2 (M' q c' e K) d), !(fun q c' e K => proj2 (M q c' e K) d) by exact I. reflexivity.
Qed.
Lemma open_res y f c : relayed (x_tr (open_shd y f c)) = relayed (x_tr c) /\ forall d, last_wait d (x_tr (open_shd y f c)) = last_wait d (x_tr c).
Proof.
  unfold open_shd. cbn. set (h := y_shd y _ _). rewrite !relayed_app. split; [destruct (h =? 0); cbn; rewrite !orb_false_r; reflexivity|].
  intros. rewrite !last_wait_app. destruct (h =? 0); reflexivity.
Qed.
Lemma read_res y f c : let '(c', r) := read_samples y f c in
  relayed (x_tr c') = relayed (x_tr c) || (r =? 0) /\ (forall d, last_wait d (x_tr c') = last_wait d (x_tr c)).
Proof.
  unfold read_samples. set (s := y_select y (x_tr c)).
  destruct (s <? 0) eqn:N.
  { assert (Z0 : s =? 0 = false) by lia. rewrite Z0, orb_false_r.
    destruct (s =? - ENODEV).
    - split; [rewrite (proj1 (open_res _ _ _))|intros d; rewrite (proj2 (open_res _ _ _))];
      cbn; rewrite ?relayed_app, ?last_wait_app; cbn; rewrite ?orb_false_r; reflexivity.
    - cbn. rewrite relayed_app. cbn. rewrite orb_false_r. split; [reflexivity|]. intros. rewrite last_wait_app. reflexivity. }
  set (c1 := tr c _). set (c2 := tr c1 _). set (e := y_end y (x_tr c2)).
  assert (A : relayed (x_tr (tr c2 (EndRead (x_shd c2) e))) = relayed (x_tr c) /\ forall d, last_wait d (x_tr (tr c2 (EndRead (x_shd c2) e))) = last_wait d (x_tr c)).
  { cbn. rewrite !relayed_app. cbn. rewrite !orb_false_r. split; [reflexivity|]. intros. rewrite !last_wait_app. reflexivity. }
  set (c3 := tr c2 (EndRead (x_shd c2) e)) in *. clearbody c3.
  destruct (e <? 0) eqn:N2.
  - assert (Z0 : e =? 0 = false) by lia. rewrite Z0, orb_false_r. destruct (e =? - ENODEV); exact A.
  - destruct A as (A & B). cbn. rewrite relayed_app, orb_true_r. cbn. rewrite orb_true_r. split; [reflexivity|].
    intros. rewrite last_wait_app, B. reflexivity.
Qed.
Lemma look_tr y c : x_tr (look y c) = x_tr c.
Proof. unfold look. destruct (y_signal y (x_tr c)); reflexivity. Qed.
Lemma first_res y f : forall n c c' r g, relayed (x_tr c) = false -> last_wait 0 (x_tr c) = 0 ->
  first_read n y f c = Some (c', r, g) -> relayed (x_tr c') = (r =? 0) /\ last_wait 0 (x_tr c') = 0 /\ (g = false -> r = 0).
Proof.
  induction n; intros c c' r g R W; cbn [first_read]; [discriminate|].
  pose proof (read_res y f c) as K. destruct (read_samples y f c) as (c1, r1). destruct K as (K1 & K2).
  rewrite R in K1. cbn in K1. specialize (K2 0). rewrite W in K2.
  destruct (x_stop (look y c1)).
  - intros [= <- <- <-]. rewrite look_tr. easy.
  - destruct (r1 =? 0) eqn:E0.
    + intros [= <- <- <-]. rewrite look_tr. repeat split; try assumption; try lia; rewrite K1; lia.
    + apply IHn; rewrite look_tr; assumption.
Qed.
Lemma timers_res y f : forall k c, relayed (x_tr c) = true -> relayed (x_tr (timers k y f c)) = true.
Proof.
  induction k; intros c R; cbn; [assumption|]. apply IHk. pose proof (read_res y f c) as K.
  destruct (read_samples y f c). destruct K as (K & _). cbn. rewrite K, R. reflexivity.
Qed.
Lemma loop_res y f : forall n c r c' r', relayed (x_tr c) = true -> last_wait 0 (x_tr c) = r ->
  main_loop n y f c r = Some (c', r') -> relayed (x_tr c') = true /\ last_wait 0 (x_tr c') = r'.
Proof.
  induction n; intros c r c' r' R W; cbn [main_loop]; rewrite <- (look_tr y c) in R, W;
    destruct (x_stop (look y c)); try discriminate; intros E.
  - assert (c' = look y c /\ r' = r) as (-> & ->) by (split; congruence). auto.
  - assert (c' = look y c /\ r' = r) as (-> & ->) by (split; congruence). auto.
  - revert E. apply IHn.
    + cbn. rewrite relayed_app, timers_res by exact R. reflexivity.
    + cbn. rewrite last_wait_app. reflexivity.
Qed.
Lemma usage_res : forall o f run t, relayed t = false -> last_wait 0 t = 0 ->
  relayed (fst (fst (parse_opts f run t o))) = false /\ last_wait 0 (fst (fst (parse_opts f run t o))) = 0.
Proof.
  induction o as [|a o IH]; intros f run t R W; cbn; [auto|].
  destruct a; apply IH; rewrite ?relayed_app, ?last_wait_app, ?R, ?W; try reflexivity.
Qed.
Lemma usage_run : forall o f run t, snd (parse_opts f run t o) = run && negb (existsb (fun a => match a with OOther => true | _ => false end) o).
Proof. induction o as [|a o IH]; intros; cbn; [rewrite andb_true_r; reflexivity|]. destruct a; rewrite IH; cbn; rewrite ?andb_false_r; reflexivity. Qed.
Lemma main_res fuel y o t st : main fuel y o = Some (t, st) ->
  (existsb (fun a => match a with OOther => true | _ => false end) o = true /\ st = 0) \/
  (existsb (fun a => match a with OOther => true | _ => false end) o = false /\
   st = if relayed t && (last_wait 0 t =? 0) then 0 else 1).
Proof.
  unfold main. pose proof (usage_res o default true [] eq_refl eq_refl) as (U1 & U2). pose proof (usage_run o default true []) as U3.
  destruct (parse_opts default true [] o) as ((t0, f), run). cbn [fst snd] in *. rewrite andb_true_l in U3.
  destruct (existsb _ o); subst run; cbn [negb].
  { intros [= <- <-]. left. auto. }
  intros E. right. split; [reflexivity|].
  set (c := mkCtx t0 false false false (-1) 0 false false) in E.
  assert (Early : forall c1 r, relayed (x_tr c1) = false -> r <> 0 -> Some (finish c1 r) = Some (t, st) -> st = if relayed t && (last_wait 0 t =? 0) then 0 else 1).
  { intros c1 r R N. pose proof (finish_res c1 r) as (A & B & C). destruct (finish c1 r). cbn [fst snd] in *. intros [= <- <-].
    rewrite A, R. rewrite C. assert (Z0 : r =? 0 = false) by lia. rewrite Z0. reflexivity. }
  assert (S0 : relayed (x_tr c) = false /\ last_wait 0 (x_tr c) = 0) by (split; assumption).
  assert (T : forall c e, mute e -> relayed (x_tr c) = false /\ last_wait 0 (x_tr c) = 0 -> relayed (x_tr (tr c e)) = false /\ last_wait 0 (x_tr (tr c e)) = 0).
  { intros c1 e M (A & B). destruct (mute_tr c1 e M) as (-> & K). rewrite K. auto. }
  clearbody c.
  destruct (y_loop y); cbn [negb] in E.
  2:{ revert E. apply Early; [apply T; [exact I|exact S0]|discriminate]. }
  apply (T _ (Get RLoop) I) in S0. set (c1 := tr c (Get RLoop)) in *. clearbody c1.
  change (relayed (x_tr (set_loop c1 true)) = false /\ last_wait 0 (x_tr (set_loop c1 true)) = 0) in S0.
  set (c2 := set_loop c1 true) in *. clearbody c2.
  destruct (y_timer y); cbn [negb] in E.
  2:{ revert E. apply Early; [apply T; [exact I|exact S0]|discriminate]. }
  apply (T _ (Get RTimer) I) in S0. set (c3 := tr c2 (Get RTimer)) in *. clearbody c3.
  change (relayed (x_tr (set_timer c3 true)) = false /\ last_wait 0 (x_tr (set_timer c3 true)) = 0) in S0.
  set (c4 := set_timer c3 true) in *. clearbody c4.
  apply (T _ (Period (f_period f) (y_period y)) I) in S0. set (c5 := tr c4 _) in *. clearbody c5.
  destruct (y_period y <? 0) eqn:P. { revert E. apply Early; [apply S0|lia]. }
  apply (T _ (OpenRaw (f_device f)) I) in S0. set (c6 := tr c5 _) in *. clearbody c6.
  destruct (y_raw y (f_device f) <? 0) eqn:Q. { revert E. apply Early; [apply T; [exact I|exact S0]|lia]. }
  apply (T _ (Get (RFd (y_raw y (f_device f)))) I) in S0. set (c7 := tr c6 _) in *. clearbody c7.
  change (relayed (x_tr (set_fd c7 (y_raw y (f_device f)))) = false /\ last_wait 0 (x_tr (set_fd c7 (y_raw y (f_device f)))) = 0) in S0.
  set (c8 := set_fd c7 _) in *. clearbody c8.
  rewrite <- (proj1 (open_res y f c8)) in S0. rewrite <- (proj2 (open_res y f c8)) in S0. set (c9 := open_shd y f c8) in *. clearbody c9.
  destruct (x_shd c9 =? 0). { revert E. apply Early; [apply S0|discriminate]. }
  destruct (y_blobs y); cbn [negb] in E.
  2:{ revert E. apply Early; [apply T; [exact I|exact S0]|discriminate]. }
  apply (T _ (Get RBlobs) I) in S0. set (d1 := tr c9 _) in *. clearbody d1.
  change (relayed (x_tr (set_mem d1 true false)) = false /\ last_wait 0 (x_tr (set_mem d1 true false)) = 0) in S0.
  set (d2 := set_mem d1 true false) in *. clearbody d2.
  destruct (y_ts y); cbn [negb] in E.
  2:{ revert E. apply Early; [apply T; [exact I|exact S0]|discriminate]. }
  apply (T _ (Get RTs) I) in S0. set (d3 := tr d2 _) in *. clearbody d3.
  change (relayed (x_tr (set_mem d3 true true)) = false /\ last_wait 0 (x_tr (set_mem d3 true true)) = 0) in S0.
  set (d4 := set_mem d3 true true) in *. clearbody d4. destruct S0 as (S1 & S2).
  destruct (first_read fuel y f d4) as [((e1, r1), g)|] eqn:F; [|discriminate].
  destruct (first_res _ _ _ _ _ _ _ S1 S2 F) as (F1 & F2 & F3).
  destruct g.
  - pose proof (finish_res e1 r1) as (A & B & C). destruct (finish e1 r1). cbn [fst snd] in *. injection E as <- <-.
    rewrite A, B, F1, F2, C. rewrite andb_true_r. reflexivity.
  - specialize (F3 eq_refl). subst r1. rewrite Z.eqb_refl in F1.
    destruct (main_loop fuel y f e1 0) as [(e2, r2)|] eqn:L; [|discriminate].
    destruct (loop_res _ _ _ _ _ _ _ F1 F2 L) as (L1 & L2).
    pose proof (finish_res e2 r2) as (A & B & C). destruct (finish e2 r2). cbn [fst snd] in *. injection E as <- <-.
    rewrite A, B, L1, L2, C. reflexivity.
Qed.

(** ** The options *)
Definition uses (f : conf) (e : ev) : Prop :=
  match e with
  | OpenRaw d => d = f_device f | OpenShd s => s = f_section f | Relay p => p = f_pname f | Period ms _ => ms = f_period f
  | _ => True
  end.
Lemma parse_conf : forall o f run t, let '(t', f', _) := parse_opts f run t o in
  f_section f' = last_of (fun o => match o with OSection s => Some s | _ => None end) (f_section f) o /\
  f_device f' = last_of (fun o => match o with ODevice s => Some (Some s) | _ => None end) (f_device f) o /\
  f_pname f' = last_of (fun o => match o with OPname s => Some s | _ => None end) (f_pname f) o /\
  f_period f' = last_of (fun o => match o with OPeriod n => Some (n mod 2 ^ 32) | _ => None end) (f_period f) o /\
  (forall e, In e t' -> In e t \/ e = Usage).
Proof.
  induction o as [|a o IH]; intros f run t; cbn [parse_opts last_of]; [repeat split; auto|].
  destruct a.
  { match goal with |- context [parse_opts ?f1 ?r1 ?t1 o] => specialize (IH f1 r1 t1) end. destruct (parse_opts _ _ _ o) as ((t', f'), r'). cbn in IH. exact IH. }
  { match goal with |- context [parse_opts ?f1 ?r1 ?t1 o] => specialize (IH f1 r1 t1) end. destruct (parse_opts _ _ _ o) as ((t', f'), r'). cbn in IH. exact IH. }
  { match goal with |- context [parse_opts ?f1 ?r1 ?t1 o] => specialize (IH f1 r1 t1) end. destruct (parse_opts _ _ _ o) as ((t', f'), r'). cbn in IH. exact IH. }
  { match goal with |- context [parse_opts ?f1 ?r1 ?t1 o] => specialize (IH f1 r1 t1) end. destruct (parse_opts _ _ _ o) as ((t', f'), r'). cbn in IH. exact IH. }
  specialize (IH f false (t ++ [Usage])). destruct (parse_opts _ _ _ o) as ((t', f'), r').
  destruct IH as (A & B & C & D & E). repeat (split; [assumption|]). intros e I. destruct (E e I) as [K|K]; [|auto].
  apply in_app_iff in K. destruct K as [K|[K|[]]]; auto.
Qed.
Lemma uses_tr f c e : uses f e -> Forall (uses f) (x_tr c) -> Forall (uses f) (x_tr (tr c e)).
Proof. intros U F. cbn. apply Forall_app. split; [exact F|]. constructor; [exact U|constructor]. Qed.
Lemma uses_open y f c : Forall (uses f) (x_tr c) -> Forall (uses f) (x_tr (open_shd y f c)).
Proof. intros F. unfold open_shd. set (h := y_shd y _ _). apply (uses_tr f (tr c (OpenShd (f_section f)))); [destruct (h =? 0); exact I|]. apply uses_tr; [reflexivity|exact F]. Qed.
Lemma uses_read y f c : Forall (uses f) (x_tr c) -> Forall (uses f) (x_tr (fst (read_samples y f c))).
Proof.
  intros F. unfold read_samples.
  destruct (y_select y (x_tr c) <? 0).
  { cbn [fst]. destruct (y_select y (x_tr c) =? - ENODEV); [apply uses_open, uses_tr; [exact I|]|]; (apply uses_tr; [exact I|exact F]). }
  set (c1 := tr c _). set (c2 := tr c1 _). set (e := y_end y (x_tr c2)).
  assert (A : Forall (uses f) (x_tr (tr c2 (EndRead (x_shd c2) e)))).
  { apply uses_tr; [exact I|]. apply uses_tr; [exact I|]. apply uses_tr; [exact I|exact F]. }
  destruct (e <? 0); cbn [fst]; [destruct (e =? - ENODEV); exact A|]. apply uses_tr; [reflexivity|exact A].
Qed.
Lemma uses_first y f : forall n c c' r g, Forall (uses f) (x_tr c) -> first_read n y f c = Some (c', r, g) -> Forall (uses f) (x_tr c').
Proof.
  induction n; intros c c' r g F; cbn [first_read]; [discriminate|].
  pose proof (uses_read y f c F) as K. destruct (read_samples y f c) as (c1, r1). cbn [fst] in K. rewrite <- (look_tr y c1) in K.
  destruct (x_stop (look y c1)); [intros [= <- <- <-]; exact K|].
  destruct (r1 =? 0); [intros [= <- <- <-]; exact K|]. apply IHn. exact K.
Qed.
Lemma uses_timers y f : forall k c, Forall (uses f) (x_tr c) -> Forall (uses f) (x_tr (timers k y f c)).
Proof. induction k; intros; cbn; [assumption|]. apply IHk, uses_read. assumption. Qed.
Lemma uses_loop y f : forall n c r c' r', Forall (uses f) (x_tr c) -> main_loop n y f c r = Some (c', r') -> Forall (uses f) (x_tr c').
Proof.
  induction n; intros c r c' r' F; cbn [main_loop]; rewrite <- (look_tr y c) in F; destruct (x_stop (look y c)); try discriminate; intros E.
  - assert (c' = look y c) as -> by congruence. exact F.
  - assert (c' = look y c) as -> by congruence. exact F.
  - revert E. apply IHn. apply uses_tr; [exact I|]. apply uses_timers. exact F.
Qed.
Lemma uses_finish f c r : Forall (uses f) (x_tr c) -> Forall (uses f) (fst (finish c r)).
Proof.
  assert (M : forall (q : bool) c' e, uses f e -> Forall (uses f) (x_tr c') -> Forall (uses f) (x_tr (if q then tr c' e else c'))).
  { intros q c' e K F. destruct q; [apply uses_tr; assumption|exact F]. }
  assert (M' : forall (q : bool) c' e, uses f e -> Forall (uses f) (x_tr c') -> Forall (uses f) (x_tr (if q then c' else tr c' e))).
  { intros q c' e K F. destruct q; [exact F|apply uses_tr; assumption]. }
  intros F. unfold finish. cbn [fst]. do 3 (apply M; [exact I|]). apply M'; [exact I|]. do 2 (apply M; [exact I|]). exact F.
Qed.
Lemma main_uses fuel y o t st : main fuel y o = Some (t, st) -> Forall (uses (snd (fst (parse_opts default true [] o)))) t.
Proof.
  unfold main. pose proof (parse_conf o default true []) as PC.
  destruct (parse_opts default true [] o) as ((t0, f), run). cbn [fst snd]. destruct PC as (_ & _ & _ & _ & PC).
  assert (U : Forall (uses f) t0). { apply Forall_forall. intros e E. destruct (PC e E) as [[]| ->]. exact I. }
  destruct run; cbn [negb]; [|intros [= <- <-]; exact U].
  assert (Fin : forall c r, Forall (uses f) (x_tr c) -> Some (finish c r) = Some (t, st) -> Forall (uses f) t).
  { intros c r F E. apply (uses_finish f c r) in F. replace (finish c r) with (t, st) in F by congruence. exact F. }
  destruct (y_loop y); cbn [negb]. 2:{ apply Fin. apply uses_tr; [exact I|exact U]. }
  destruct (y_timer y); cbn [negb]. 2:{ apply Fin. apply uses_tr; [exact I|]. apply uses_tr; [exact I|exact U]. }
  set (c5 := tr _ (Period _ _)).
  assert (U5 : Forall (uses f) (x_tr c5)). { apply uses_tr; [reflexivity|]. apply uses_tr; [exact I|]. apply uses_tr; [exact I|exact U]. }
  clearbody c5. destruct (y_period y <? 0). { apply Fin. exact U5. }
  destruct (y_raw y (f_device f) <? 0). { apply Fin. apply uses_tr; [exact I|]. apply uses_tr; [reflexivity|exact U5]. }
  set (c9 := open_shd y f _).
  assert (U9 : Forall (uses f) (x_tr c9)). { apply uses_open. apply uses_tr; [exact I|]. apply uses_tr; [reflexivity|exact U5]. }
  clearbody c9. destruct (x_shd c9 =? 0). { apply Fin. exact U9. }
  destruct (y_blobs y); cbn [negb]. 2:{ apply Fin. apply uses_tr; [exact I|exact U9]. }
  destruct (y_ts y); cbn [negb]. 2:{ apply Fin. apply uses_tr; [exact I|]. apply uses_tr; [exact I|exact U9]. }
  set (d4 := set_mem (tr (set_mem _ true false) _) true true).
  assert (U4 : Forall (uses f) (x_tr d4)). { apply uses_tr; [exact I|]. apply uses_tr; [exact I|exact U9]. }
  clearbody d4. destruct (first_read fuel y f d4) as [((e1, r1), g)|] eqn:F; [|discriminate].
  pose proof (uses_first _ _ _ _ _ _ _ U4 F) as F1.
  destruct g. { apply Fin. exact F1. }
  destruct (main_loop fuel y f e1 r1) as [(e2, r2)|] eqn:L; [|discriminate].
  pose proof (uses_loop _ _ _ _ _ _ _ F1 L) as L1. apply Fin. exact L1.
Qed.

(** ** A signal stops it *)
Lemma tr_len c e : length (x_tr (tr c e)) = S (length (x_tr c)).
Proof. cbn. rewrite app_length. cbn. lia. Qed.
Lemma read_len y f c : (length (x_tr c) < length (x_tr (fst (read_samples y f c))))%nat.
Proof.
  unfold read_samples. set (c1 := tr c _). assert (L1 : (length (x_tr c) < length (x_tr c1))%nat) by (unfold c1; rewrite tr_len; lia). clearbody c1.
  destruct (y_select y (x_tr c) <? 0); cbn [fst].
  - destruct (y_select y (x_tr c) =? - ENODEV); [|exact L1]. unfold open_shd. cbn. rewrite !app_length. cbn. lia.
  - set (c2 := tr c1 _). set (e := y_end y (x_tr c2)). set (c3 := tr c2 _).
    assert (L3 : (length (x_tr c) < length (x_tr c3))%nat) by (unfold c3, c2; rewrite !tr_len; lia). clearbody c3.
    destruct (e <? 0); cbn [fst]; [destruct (e =? - ENODEV); exact L3|]. rewrite tr_len. lia.
Qed.
Lemma timers_len y f : forall k c, (length (x_tr c) <= length (x_tr (timers k y f c)))%nat.
Proof. induction k; intros; cbn; [lia|]. specialize (IHk (fst (read_samples y f c))). pose proof (read_len y f c). lia. Qed.
Lemma first_stops y f n : (forall t, (n <= length t)%nat -> y_signal y t = true) ->
  forall k c, (n <= length (x_tr c) + k)%nat -> (0 < k)%nat -> exists c' r g, first_read k y f c = Some (c', r, g) /\ (length (x_tr c) <= length (x_tr c'))%nat.
Proof.
  intros S. induction k; intros c L K; [lia|]. cbn [first_read].
  pose proof (read_len y f c) as RL. destruct (read_samples y f c) as (c1, r1). cbn [fst] in RL.
  pose proof (look_tr y c1) as LT.
  destruct (x_stop (look y c1)) eqn:ST. { do 3 eexists. split; [reflexivity|]. rewrite LT. lia. }
  destruct (r1 =? 0). { do 3 eexists. split; [reflexivity|]. rewrite LT. lia. }
  destruct (le_lt_dec n (length (x_tr c1))) as [H|H].
  { unfold look in ST. rewrite (S _ H) in ST. discriminate. }
  destruct (IHk (look y c1)) as (c' & r & g & E & L'); [rewrite LT; lia|lia|]. exists c', r, g. split; [exact E|]. rewrite LT in L'. lia.
Qed.
Lemma loop_stops y f n : (forall t, (n <= length t)%nat -> y_signal y t = true) ->
  forall k c r, (n <= length (x_tr c) + k)%nat -> main_loop k y f c r <> None.
Proof.
  intros S. induction k; intros c r L; cbn [main_loop].
  - assert (x_stop (look y c) = true) as ->; [|discriminate]. unfold look. rewrite S; [reflexivity|lia].
  - destruct (x_stop (look y c)); [discriminate|]. apply IHk. rewrite tr_len.
    pose proof (timers_len y f (y_fires y (x_tr (look y c))) (look y c)). rewrite look_tr in *. lia.
Qed.
Lemma main_stops y o n : (forall t, (n <= length t)%nat -> y_signal y t = true) -> main (S n) y o <> None.
Proof.
  intros S. unfold main. destruct (parse_opts default true [] o) as ((t0, f), run).
  destruct (negb run); [discriminate|]. destruct (negb (y_loop y)); [discriminate|]. destruct (negb (y_timer y)); [discriminate|].
  destruct (y_period y <? 0); [discriminate|]. destruct (y_raw y (f_device f) <? 0); [discriminate|].
  set (c9 := open_shd y f _). clearbody c9. destruct (x_shd c9 =? 0); [discriminate|]. destruct (negb (y_blobs y)); [discriminate|]. destruct (negb (y_ts y)); [discriminate|].
  set (d4 := set_mem (tr (set_mem _ true false) _) true true). clearbody d4.
  destruct (first_stops y f n S (Datatypes.S n) d4) as (c' & r & g & -> & L'); [lia|lia|]. destruct g; [discriminate|].
  pose proof (loop_stops y f n S (Datatypes.S n) c' r) as K. destruct (main_loop (Datatypes.S n) y f c' r) as [(c2, r2)|]; [discriminate|]. exfalso. apply K; [lia|reflexivity].
Qed.
