(** Lemmas for C107: reading and polling while other processes run. *)
From Coq Require Import ZArith String List Bool Lia ZifyBool ZifyNat Arith.
From Verif Require Import Bytes BytesProofs Ring RingSpec RingHistory RingRefine RingInv RingObs RingLemmas Parse ParseSpec ParseProofs ParseE2E PropsParse Iov
  Cat CatSpec CatProofs Render Live LiveSpec LiveProofs LiveDump LiveText SaidSpec PropsSaid FollowSpec FollowProofs Busy BusySpec BusyProofs.
Import ListNotations.
Open Scope Z_scope.

Section Run.
Variables (csv : bool) (uid : Z) (gs : list LiveSpec.log) (ls : list (list said)) (sched : list (list (nat * op))).
Hypothesis names_ok : Forall (fun g => c_string (g_nm g) /\ zlen (g_nm g) <= 15) gs.
Hypothesis same_len : length ls = length gs.
Hypothesis sched_ok : Forall (Forall (fun io => forall g, nth_error gs (fst io) = Some g -> polite (g_fid g) (snd io))) sched.
Notation B := (B uid gs ls sched).

Lemma name_ok i g : nth_error gs i = Some g -> c_string (g_nm g) /\ zlen (g_nm g) <= 15.
Proof. intros H. rewrite Forall_forall in names_ok. apply names_ok. eapply nth_error_In; eauto. Qed.

Lemma same_trans b b1 u u1 u2 : same b u u1 -> (length (snd b1) <= length (snd b))%nat -> same b1 u1 u2 -> same b u u2.
Proof.
  intros [A1 A2] L [B1 B2]. split.
  - intros j. now rewrite B1.
  - intros E j. rewrite E in L. cbn in L. assert (E1 : snd b1 = []) by (destruct (snd b1); [reflexivity|cbn in L; lia]). now rewrite B2, A2.
Qed.
Lemma same_upd b u u1 i : same b u u1 -> same b u (upd u1 i (u1 i)).
Proof. intros [A1 A2]. split; [intros j; rewrite upd_same; apply A1|intros E j; rewrite upd_same; now apply A2]. Qed.

Definition check (fid : Z) : op := OpReadCheck fid true false.
Lemma check_busy uss b i g l : B uss b -> nth_error gs i = Some g -> nth_error ls i = Some l ->
  exists b' x uss', own_call b i check = (b', Ok x) /\ B uss' b' /\ same b uss uss' /\ (x = OutCont \/ (x = OutErr EAGAIN /\ snd (uss' i) = O)) /\
    length (snd b') = pred (length (snd b)).
Proof.
  intros HB Eg El.
  destruct (B_own uid gs ls sched same_len sched_ok uss b i g l check (fun x p p' _ => p' = p /\ (x = OutCont \/ (x = OutErr EAGAIN /\ snd p = O))) HB Eg El)
    as (b' & x & uss1 & p' & d' & E & Sm & HB' & [-> Hx] & Hl & _).
  { intros ex d p HJ. destruct (J_check _ _ _ _ _ _ HJ) as (d' & x & Es & HJ' & Hx). exists d', x, p. auto. }
  exists b', x, (upd uss1 i (uss1 i)). split; [exact E|]. split; [exact HB'|]. split; [now apply same_upd|]. rewrite upd_same. auto.
Qed.
Lemma poll1_busy uss b i g l : B uss b -> nth_error gs i = Some g -> nth_error ls i = Some l ->
  exists b' uss', own_call b i (fun fid => OpPoll fid uid) = (b', Ok (OutPoll (negb (Nat.eqb (snd (uss' i)) 0)))) /\
    B uss' b' /\ same b uss uss' /\ length (snd b') = pred (length (snd b)).
Proof.
  intros HB Eg El.
  destruct (B_own uid gs ls sched same_len sched_ok uss b i g l (fun fid => OpPoll fid uid) (fun x p p' _ => p' = p /\ x = OutPoll (negb (Nat.eqb (snd p) 0))) HB Eg El)
    as (b' & x & uss1 & p' & d' & E & Sm & HB' & [-> ->] & Hl & _).
  { intros ex d p HJ. destruct (J_poll _ _ _ _ _ _ HJ) as (d' & Es & HJ'). exists d', (OutPoll (negb (Nat.eqb (snd p) 0))), p. auto. }
  exists b', (upd uss1 i (uss1 i)). rewrite upd_same. split; [exact E|]. split; [exact HB'|]. split; [now apply same_upd|exact Hl].
Qed.

(** [uss'] after a record of device [i] was read. *)
Definition more (b : busy) (i : nat) (u : uentry) (uss uss' : nat -> list uentry * nat) : Prop :=
  fst (uss' i) = fst (uss i) ++ [u] /\ (forall j, j <> i -> fst (uss' j) = fst (uss j)) /\
  (snd b = [] -> snd (uss i) = S (snd (uss' i)) /\ forall j, j <> i -> uss' j = uss j).
Lemma more_after b b1 i u us u1 u2 : same b us u1 -> (length (snd b1) <= length (snd b))%nat -> more b1 i u u1 u2 -> more b i u us u2.
Proof.
  intros [A1 A2] L (B1 & B2 & B3). split; [now rewrite B1, A1|]. split; [intros j Hj; now rewrite B2, A1|].
  intros E. rewrite E in L. cbn in L. assert (E1 : snd b1 = []) by (destruct (snd b1); [reflexivity|cbn in L; lia]).
  destruct (B3 E1) as [B4 B5]. split; [now rewrite <- (A2 E)|]. intros j Hj. now rewrite B5, A2.
Qed.

Lemma read_busy c : forall fuel uss b i g l, B uss b -> nth_error gs i = Some g -> nth_error ls i = Some l ->
  ((length (snd b) + 2 <= fuel)%nat \/
   (snd b = [] /\ (1 <= fuel)%nat /\ exists d, nth_error (fst b) i = Some (d, g_fid g) /\ step d (check (g_fid g)) = Ok (d, OutErr EAGAIN))) ->
  exists b' r uss', busy_read fuel b i uid c = (b', r) /\ B uss' b' /\ (length (snd b') <= pred (length (snd b)))%nat /\
    ((r = RdErr EAGAIN /\ same b uss uss' /\ (snd b = [] -> snd (uss i) = O)) \/ (r = RdErr EINVAL /\ c < 4100 /\ same b uss uss') \/
     (exists bs u, r = RdBytes bs /\ record_of bs u /\ more b i u uss uss')).
Proof.
  induction fuel as [|f IH]; intros uss b i g l HB Eg El Hf; [destruct Hf as [H|(_ & H & _)]; lia|].
  cbn [busy_read].
  destruct (check_busy uss b i g l HB Eg El) as (b1 & x & u1 & Ec & HB1 & S1 & Hx & Hl1).
  change (fun fid => OpReadCheck fid true false) with check. rewrite Ec.
  assert (Done : x = OutErr EAGAIN -> snd (u1 i) = O -> exists b' r uss', (b1, RdErr EAGAIN) = (b', r) /\ B uss' b' /\ (length (snd b') <= pred (length (snd b)))%nat /\
    ((r = RdErr EAGAIN /\ same b uss uss' /\ (snd b = [] -> snd (uss i) = O)) \/ (r = RdErr EINVAL /\ c < 4100 /\ same b uss uss') \/
     (exists bs u, r = RdBytes bs /\ record_of bs u /\ more b i u uss uss'))).
  { intros _ Z0. exists b1, (RdErr EAGAIN), u1. split; [reflexivity|]. split; [exact HB1|]. split; [lia|]. left. split; [reflexivity|]. split; [exact S1|].
    intros Eb. destruct S1 as [_ S1]. now rewrite <- (S1 Eb). }
  destruct Hf as [Hf|(Hs & _ & d & En & Es)].
  2:{ assert (x = OutErr EAGAIN) as ->.
      { unfold own_call in Ec. assert (Ep : pause b = b) by (unfold pause; now rewrite Hs). rewrite Ep, En, Es in Ec. congruence. }
      destruct Hx as [Hx|[_ Hx]]; [discriminate|]. now apply Done. }
  destruct Hx as [->|[-> Hx]]; [|now apply Done]. clear Done.
  destruct (B_own uid gs ls sched same_len sched_ok u1 b1 i g l (fun fid => OpReadBody fid uid c c)
    (fun x p p' d' => (x = OutRetry /\ p' = p /\ snd p = O /\ step d' (check (g_fid g)) = Ok (d', OutErr EAGAIN)) \/
       (x = OutErr EINVAL /\ c < 4100 /\ p' = p) \/
       (exists bs u w', x = OutData bs /\ record_of bs u /\ snd p = S w' /\ p' = (fst p ++ [u], w'))) HB1 Eg El)
    as (b2 & x & u2 & p' & d' & Eo & S2 & HB2 & HP & Hl2 & En2).
  { intros ex d p HJ. destruct (name_ok i g Eg) as [N1 N2].
    destruct (J_body _ _ _ _ _ _ c N1 N2 HJ) as (d' & x & Es & [(-> & Z0 & HJ' & Hc)|[(-> & Lc & HJ')|(bs & u & w' & -> & Hr & Hw & HJ')]]).
    - exists d', OutRetry, p. split; [exact Es|]. split; [left; auto|exact HJ'].
    - exists d', (OutErr EINVAL), p. split; [exact Es|]. split; [right; left; auto|exact HJ'].
    - exists d', (OutData bs), (fst p ++ [u], w'). split; [exact Es|]. split; [|exact HJ']. right; right. exists bs, u, w'. auto. }
  rewrite Eo.
  assert (S12 : same b uss u2) by (apply (same_trans b b1 uss u1 u2); [exact S1|lia|exact S2]).
  destruct HP as [(-> & -> & Z0 & Hc)|[(-> & Lc & ->)|(bs & u & w' & -> & Hr & Hw & ->)]].
  - destruct (IH _ b2 i g l HB2 Eg El) as (b' & r & u3 & E3 & HB3 & Hl3 & H3).
    { rewrite Hl1 in Hl2. destruct (length (snd b)) as [|k] eqn:Ek; cbn [pred] in Hl2.
      + right. split; [now apply length_zero_iff_nil|]. split; [lia|]. exists d'. auto.
      + left. lia. }
    exists b', r, u3. split; [exact E3|]. split; [exact HB3|]. split; [lia|].
    assert (S2' : same b uss (upd u2 i (u2 i))) by now apply same_upd.
    destruct H3 as [(-> & S3 & Z3)|[(-> & Lc & S3)|(bs & u & -> & Hr & M3)]].
    + left. split; [reflexivity|]. split; [apply (same_trans b b2 uss _ u3 S2'); [lia|exact S3]|].
      intros Eb. destruct S12 as [_ S12]. now rewrite <- (S12 Eb).
    + right; left. split; [reflexivity|]. split; [exact Lc|]. apply (same_trans b b2 uss _ u3 S2'); [lia|exact S3].
    + right; right. exists bs, u. split; [reflexivity|]. split; [exact Hr|]. apply (more_after b b2 i u uss _ u3 S2'); [lia|exact M3].
  - exists b2, (RdErr EINVAL), (upd u2 i (u2 i)). split; [reflexivity|]. split; [exact HB2|]. split; [lia|]. right; left. split; [reflexivity|]. split; [exact Lc|].
    now apply same_upd.
  - exists b2, (RdBytes bs), (upd u2 i (fst (u2 i) ++ [u], w')). split; [reflexivity|]. split; [exact HB2|]. split; [lia|]. right; right. exists bs, u.
    split; [reflexivity|]. split; [exact Hr|]. apply (more_after b b i u uss u2); [exact S12|lia|]. unfold more, upd. rewrite Nat.eqb_refl. cbn [fst snd].
    split; [reflexivity|]. split; [|intros _; split; [exact Hw|]]; intros j Hj; destruct (Nat.eqb_spec j i); congruence.
Qed.

Lemma recv_busy uss b i : B uss b -> (i < length gs)%nat ->
  exists b' x uss', busy_recv csv uid b i = (b', x) /\ B uss' b' /\ (length (snd b') <= pred (length (snd b)))%nat /\
    ((x = RxSkip 0 /\ same b uss uss' /\ (snd b = [] -> snd (uss i) = O)) \/
     (exists bs u, record_of bs u /\ x = rx_of (item_of csv bs) /\ more b i u uss uss')).
Proof.
  intros HB Hi. destruct (get_all gs ls same_len i Hi) as (g & l & Eg & El). unfold busy_recv.
  assert (Data : forall bs u r2, record_of bs u -> ulog_receive_entry csv (RdBytes bs) true r2 = Ok (rx_of (item_of csv bs))).
  { intros bs u r2 [(e & We & ->) _]. destruct (record_read csv e We) as (m & pe & v & _ & _ & _ & _ & _ & _ & _ & Hr). apply Hr. }
  assert (Again : forall bs, ulog_receive_entry csv (RdErr EINVAL) true (RdBytes bs) = ulog_receive_entry csv (RdBytes bs) true (RdBytes bs)) by reflexivity.
  destruct (read_busy FRAME_BUFSIZE (passes b) uss b i g l HB Eg El ltac:(left; unfold passes; lia)) as (b1 & r1 & u1 & E1 & H1 & L1 & [(-> & S1 & Z1)|[(-> & _ & S1)|(bs & u & -> & Hr & M1)]]);
    rewrite E1; cbv beta iota zeta.
  - change (EAGAIN =? EINVAL) with false. cbv iota. exists b1, (RxSkip 0), u1. split; [reflexivity|]. split; [exact H1|]. split; [exact L1|]. left. auto.
  - change (EINVAL =? EINVAL) with true. cbv iota.
    destruct (read_busy ENTRY_MAX_LEN (passes b1) u1 b1 i g l H1 Eg El ltac:(left; unfold passes; lia)) as (b2 & r2 & u2 & E2 & H2 & L2 & [(-> & S2 & Z2)|[(-> & Lc & S2)|(bs & u & -> & Hr & M2)]]); rewrite E2.
    + exists b2, (RxSkip 0), u2. split; [reflexivity|]. split; [exact H2|]. split; [lia|]. left. split; [reflexivity|].
      split; [apply (same_trans b b1 uss u1 u2 S1); [lia|exact S2]|]. intros Eb. destruct S1 as [_ S1]. rewrite <- (S1 Eb). apply Z2.
      rewrite Eb in L1. cbn in L1. destruct (snd b1); [reflexivity|cbn in L1; lia].
    + unfold ENTRY_MAX_LEN in Lc. lia.
    + rewrite Again, (Data bs u _ Hr). exists b2, (rx_of (item_of csv bs)), u2. split; [reflexivity|]. split; [exact H2|]. split; [lia|].
      right. exists bs, u. split; [exact Hr|]. split; [reflexivity|]. apply (more_after b b1 i u uss u1 u2 S1); [lia|exact M2].
  - rewrite (Data bs u _ Hr). exists b1, (rx_of (item_of csv bs)), u1. split; [reflexivity|]. split; [exact H1|]. split; [exact L1|]. right. exists bs, u. auto.
Qed.

(** The calls of other processes happen if any descriptor is asked for. *)
Lemma poll_busy : forall fds i uss b, B uss b -> exists b' r uss', busy_poll uid i fds b = (b', r) /\ B uss' b' /\ same b uss uss' /\
  (length (snd b') <= length (snd b))%nat /\ (In true fds -> length (snd b') <= pred (length (snd b)))%nat /\
  (snd b = [] -> forall j, (i + j < length gs)%nat -> nth j r false = nth j fds false && negb (Nat.eqb (snd (uss (i + j)%nat)) 0)).
Proof.
  induction fds as [|a fds IH]; intros i uss b HB; cbn [busy_poll].
  { exists b, [], uss. split; [reflexivity|]. split; [exact HB|]. split; [split; auto|]. split; [lia|]. split; [contradiction|]. intros _ [|j]; reflexivity. }
  assert (X : exists b1 x u1, (if a then match own_call b i (fun fid => OpPoll fid uid) with
                            | (b, Ok (OutPoll x)) => (b, x)
                            | (b, _) => (b, false)
                            end else (b, false)) = (b1, x) /\ B u1 b1 /\ same b uss u1 /\ (length (snd b1) <= length (snd b))%nat /\
                (a = true -> length (snd b1) <= pred (length (snd b)))%nat /\
                (snd b = [] -> (i < length gs)%nat -> x = a && negb (Nat.eqb (snd (uss i)) 0))).
  { destruct a; [|exists b, false, uss; split; [reflexivity|]; split; [exact HB|]; split; [split; auto|]; split; [lia|]; split; [discriminate|reflexivity]].
    destruct (Nat.lt_ge_cases i (length gs)) as [Hi|Hi].
    - destruct (get_all gs ls same_len i Hi) as (g & l & Eg & El).
      destruct (poll1_busy uss b i g l HB Eg El) as (b1 & u1 & -> & HB1 & S1 & L1). eexists b1, _, u1. split; [reflexivity|]. split; [exact HB1|]. split; [exact S1|].
      split; [lia|]. split; [intros _; lia|]. intros Eb _. destruct S1 as [_ S1]. now rewrite (S1 Eb).
    - destruct (B_pause uid gs ls sched same_len sched_ok _ _ HB) as (u1 & S1 & HB1 & L1). unfold own_call.
      pose proof HB1 as (done & _ & HL & _).
      replace (nth_error (fst (pause b)) i) with (@None node) by (symmetry; apply nth_error_None; lia).
      exists (pause b), false, u1. split; [reflexivity|]. split; [exact HB1|]. split; [exact S1|]. split; [lia|]. split; [intros _; lia|]. intros _ X. exfalso; lia. }
  destruct X as (b1 & x & u1 & -> & HB1 & S1 & L1 & A1 & Z1). destruct (IH (S i) u1 b1 HB1) as (b2 & r & u2 & -> & HB2 & S2 & L2 & A2 & Z2).
  exists b2, (x :: r), u2. split; [reflexivity|]. split; [exact HB2|]. split; [apply (same_trans b b1 uss u1 u2 S1 L1 S2)|].
  split; [lia|]. split.
  - intros [->|Hin]; [specialize (A1 eq_refl); lia|]. specialize (A2 Hin). lia.
  - intros Eb j Hj. assert (Eb1 : snd b1 = []) by (rewrite Eb in L1; cbn in L1; destruct (snd b1); [reflexivity|cbn in L1; lia]).
    destruct j as [|j]; cbn [nth].
    + rewrite Nat.add_0_r in *. now apply Z1.
    + rewrite (Z2 Eb1 j) by lia. destruct S1 as [_ S1]. rewrite (S1 Eb). replace (i + S j)%nat with (S i + j)%nat by lia. reflexivity.
Qed.
End Run.

Lemma poll_asked uid : forall fds i b b' r, busy_poll uid i fds b = (b', r) ->
  forall j, nth j r false = true -> nth j fds false = true.
Proof.
  induction fds as [|a fds IH]; intros i b b' r; cbn [busy_poll].
  - intros [= <- <-] j. destruct j; discriminate.
  - destruct a.
    + destruct (match own_call b i (fun fid => OpPoll fid uid) with
                            | (b, Ok (OutPoll x)) => (b, x)
                            | (b, _) => (b, false)
                            end) as [b1 x]. destruct (busy_poll uid (S i) fds b1) as [b2 r2] eqn:E.
      intros [= <- <-] [|j]; cbn; [auto|]. eapply IH; eauto.
    + destruct (busy_poll uid (S i) fds b) as [b2 r2] eqn:E.
      intros [= <- <-] [|j]; cbn; [auto|]. eapply IH; eauto.
Qed.
Lemma busy_sane csv uid : poll_sane (busy_env csv uid).
Proof.
  intros w fds w' rev. cbn. destruct (busy_poll uid 0 fds w) as [b r] eqn:E. intros [= <- <-]. eapply poll_asked; eauto.
Qed.

(** ** What holds of the environment throughout *)
Section EnvInv.
Context {W : Type}.
Variables (en : env W) (n : nat) (P : W -> Prop).
Hypothesis poll_P : forall w fds, P w -> exists w' r, e_poll en w fds = (w', inr r) /\ P w'.
Hypothesis recv_P : forall w i, (i < n)%nat -> P w -> exists w' x, e_recv en w i = (w', x) /\ x <> RxFail /\ P w'.

Lemma env_read fds rev : forall k i w c fr, (i + k <= n)%nat -> P w -> 0 <= fr ->
  let r := read_devices en k i fds rev w c fr in
  P (fst (fst r)) /\ match snd r with inl z => 0 <= z | inr z => 0 <= z end.
Proof.
  induction k as [|k IH]; intros i w c fr Hk HP Hfr; cbn; [auto|].
  destruct (negb _); [apply IH; auto; lia|].
  destruct (alloc_frame c) as [[f c1]|]; [|apply IH; auto; lia].
  destruct (recv_P w i ltac:(lia) HP) as (w' & x & E & Hx & HP'). rewrite E.
  destruct x as [ | dec | st da dec ok]; [contradiction|cbn; split; [exact HP'|lia]|]. apply IH; auto; lia.
Qed.
Lemma env_process w c w' c' r : length (c_devs c) = n -> P w -> process_devices en w c = Ok (w', c', r) -> P w' /\ 0 <= r.
Proof.
  intros Hn HP. unfold process_devices. destruct (poll_P w (map (fun d => negb (d_pending d)) (c_devs c)) HP) as (w1 & rev & E & HP1). rewrite E.
  pose proof (env_read (map (fun d => negb (d_pending d)) (c_devs c)) rev (length (c_devs c)) 0 w1 c 0 ltac:(lia) HP1 ltac:(lia)) as H. cbn zeta in H.
  destruct (read_devices en (length (c_devs c)) 0 _ rev w1 c 0) as [[w2 c2] [z|z]]; cbn [fst snd] in H.
  - intros [= <- <- <-]. exact H.
  - destruct (pull c2); cbn; [|discriminate]. intros [= <- <- <-]. exact H.
Qed.
Lemma devs_process w c w' c' r : BI n (fun _ => True) c -> process_devices en w c = Ok (w', c', r) -> BI n (fun _ => True) c'.
Proof. apply BI_devices. auto. Qed.
End EnvInv.
