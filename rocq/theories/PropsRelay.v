(** C87: every sample of the shared memory section is relayed once, or reported lost. *)
From Coq Require Import ZArith String List Bool Lia ZifyBool ZifyNat Arith Sorted.
From Verif Require Import Bytes BytesProofs Parse Iov Klog KlogProofs Shd ShdProofs Relay RelaySpec RelayProofs.
Import ListNotations.
Open Scope Z_scope.

(** While the library calls succeed, time stamps increase strictly and fewer than 32768 samples are lost
    between two polls, the entries relayed are those of samples at increasing positions [ks] (so in order
    and none twice), and the losses reported are exactly the samples seen by the last poll that were not
    relayed. Three of the hypotheses are needed, see the refutations. *)
Theorem C87_accounted_partial : forall cap bound pname blobs l, (0 < cap <= NB_SAMPLES)%nat -> Z.of_nat bound < 32768 + Z.of_nat cap ->
  at_most bound 0 l -> numbered (puts l) -> increasing (puts l) -> readable pname (puts l) -> Forall fine l ->
  exists c acts ks, run cap pname (init blobs) l = Ok (puts l, c, acts) /\ StronglySorted lt ks /\
    Forall (fun i => i < polled 0 0 l)%nat ks /\
    Forall2 (fun i e => exists s, nth_error (puts l) i = Some s /\ entry pname s = Ok e) ks (relays acts) /\
    ~ In Many acts /\ lost acts + Z.of_nat (length ks) = Z.of_nat (polled 0 0 l).
Proof.
  intros cap bound pname blobs l HC HB HM HN HI HR HF.
  destruct (run_ok cap pname bound HC HB l [] (mkCtx 0 Oldest blobs false) 0) as (c & acts & ks & R & P1 & P2 & P3 & P4 & P5 & _); auto.
  { split; [cbn; lia|]. split; reflexivity. } { cbn. lia. }
  cbn [app length] in *. exists c, acts, ks. split; [exact R|]. split; [exact P1|]. split; [eapply Forall_impl; [|exact P2]; cbn; lia|].
  split; [exact P3|]. split; [exact P4|]. rewrite P5. lia.
Qed.

(** When the relay reports no loss, and in particular when no more samples than the section holds are
    written between two polls, every sample seen by the last poll was relayed exactly once, in order. *)
Theorem C87_once_partial : forall cap bound pname blobs l, (0 < cap <= NB_SAMPLES)%nat -> Z.of_nat bound < 32768 + Z.of_nat cap ->
  at_most bound 0 l -> numbered (puts l) -> increasing (puts l) -> readable pname (puts l) -> Forall fine l ->
  exists c acts, run cap pname (init blobs) l = Ok (puts l, c, acts) /\
    (lost acts = 0 -> Forall2 (fun s e => entry pname s = Ok e) (firstn (polled 0 0 l) (puts l)) (relays acts)) /\
    ((bound <= cap)%nat -> lost acts = 0).
Proof.
  intros cap bound pname blobs l HC HB HM HN HI HR HF.
  destruct (run_ok cap pname bound HC HB l [] (mkCtx 0 Oldest blobs false) 0) as (c & acts & ks & R & P1 & P2 & P3 & P4 & P5 & P6); auto.
  { split; [cbn; lia|]. split; reflexivity. } { cbn. lia. }
  cbn [app length] in *. exists c, acts. split; [exact R|]. split; [|exact P6]. intros L0.
  assert (EK : ks = seq 0 (polled 0 0 l)). { apply sorted_full; [exact P1| |lia]. eapply Forall_impl; [|exact P2]. cbn. lia. }
  rewrite EK in P3. clear - P3. revert P3. generalize (polled 0 0 l) as n, (relays acts) as es, (puts l) as h.
  intros n es h. intros F.
  assert (G : forall m j es, Forall2 (fun i e => exists s, nth_error h i = Some s /\ entry pname s = Ok e) (seq j m) es ->
            Forall2 (fun s e => entry pname s = Ok e) (firstn m (skipn j h)) es).
  { induction m; intros j es' HF; cbn [seq] in HF; inversion HF; subst; [constructor|].
    destruct H1 as (s & E & ES). destruct (nth_error_split h j E) as (h1 & h2 & EH & EL).
    assert (SK : skipn j h = s :: skipn (S j) h).
    { rewrite EH, <- EL. clear. induction h1; [reflexivity|]. exact IHh1. }
    rewrite SK. cbn [firstn]. constructor; [exact ES|]. apply IHm. exact H3. }
  exact (G n 0%nat es F).
Qed.

(** Two samples written, a poll, then three samples with a section that holds two, a poll: the third
    sample is lost and reported. *)
Definition ex_blob (i : Z) : blob := mkBlob i 4 9 1 1 (3) ([0; 0; 104; 105; 0] ++ zrepeat 0 251).
Definition ex_l : list ev := [Put (ex_blob 1) 10; Put (ex_blob 2) 20; Poll 0 0; Put (ex_blob 3) 30; Put (ex_blob 4) 40; Put (ex_blob 5) 50; Poll 0 (-5); Poll 0 0].
Example C87_accounted_ex : (0 < 2 <= NB_SAMPLES)%nat /\ at_most 3 0 ex_l /\ numbered (puts ex_l) /\ increasing (puts ex_l) /\ readable [114; 0] (puts ex_l) /\
  Forall fine ex_l /\ polled 0 0 ex_l = 5%nat /\
  exists c acts, run 2 [114; 0] (init []) ex_l = Ok (puts ex_l, c, acts) /\ lost acts = 1 /\ length (relays acts) = 4%nat.
Proof.
  split; [unfold NB_SAMPLES; lia|]. split; [cbn; lia|]. split.
  { intros i s E. do 5 (destruct i as [|i]; [injection E as <-; reflexivity|]). destruct i; discriminate. }
  split. { intros i j a b L E1 E2.
    do 5 (destruct j as [|j]; [do 5 (destruct i as [|i]; [first [lia|injection E1 as <-; injection E2 as <-; cbn; lia]|]); lia|]). destruct j; discriminate. }
  split. { repeat constructor; eexists; reflexivity. }
  split. { repeat constructor; cbn; lia. }
  split; [reflexivity|]. do 2 eexists. split; [vm_compute; reflexivity|]. split; reflexivity.
Qed.
Example C87_once_ex : at_most 3 0 ex_l /\ exists c acts, run 3 [114; 0] (init []) ex_l = Ok (puts ex_l, c, acts) /\ lost acts = 0 /\ map rw_sec (relays acts) = [0; 0; 0; 0; 0] /\
  map rw_nsec (relays acts) = [10; 20; 30; 40; 50].
Proof. split; [cbn; lia|]. do 2 eexists. split; [vm_compute; reflexivity|]. repeat split. Qed.

(** Without increasing time stamps: a sample with the time stamp of the one before it, written after the
    poll that saw that one, is never relayed, and if nothing follows it no loss is reported. *)
Theorem C87_same_time_refuted : exists l, numbered (puts l) /\ readable [114; 0] (puts l) /\ Forall fine l /\ at_most 1 0 l /\
  (forall i j a b, (i < j)%nat -> nth_error (puts l) i = Some a -> nth_error (puts l) j = Some b -> snd a <= snd b) /\ polled 0 0 l = 2%nat /\
  exists c acts, run 8 [114; 0] (init []) l = Ok (puts l, c, acts) /\ length (relays acts) = 1%nat /\ lost acts = 0 /\ ~ In Many acts.
Proof.
  exists [Put (ex_blob 1) 10; Poll 0 0; Put (ex_blob 2) 10; Poll 0 0; Poll 0 0]. split.
  { intros i s E. do 2 (destruct i as [|i]; [injection E as <-; reflexivity|]). destruct i; discriminate. }
  split. { repeat constructor; eexists; reflexivity. } split. { repeat constructor; cbn; lia. } split; [cbn; lia|].
  split. { intros i j a b L E1 E2. do 2 (destruct j as [|j]; [do 2 (destruct i as [|i]; [first [lia|injection E1 as <-; injection E2 as <-; cbn; lia]|]); lia|]). destruct j; discriminate. }
  split; [reflexivity|]. do 2 eexists. split; [vm_compute; reflexivity|]. split; [reflexivity|]. split; [reflexivity|]. cbn. intuition discriminate.
Qed.

(** The result of shd_read_quantity is overwritten by that of shd_end_read: when the read fails, the
    samples of the poll before are relayed again with the time stamps of the new ones, and the new ones
    are never relayed. *)
Theorem C87_read_error_refuted : exists l, numbered (puts l) /\ increasing (puts l) /\ readable [114; 0] (puts l) /\ at_most 1 0 l /\
  (forall rd en, In (Poll rd en) l -> 0 <= en) /\
  exists c acts e1 e2, run 8 [114; 0] (init []) l = Ok (puts l, c, acts) /\ relays acts = [e1; e2] /\
    entry [114; 0] (ex_blob 1, 10) = Ok e1 /\ entry [114; 0] (ex_blob 1, 20) = Ok e2 /\ lost acts = 0 /\ In Many acts.
Proof.
  exists [Put (ex_blob 1) 10; Poll 0 0; Put (ex_blob 2) 20; Poll (-5) 0; Poll 0 0]. split.
  { intros i s E. do 2 (destruct i as [|i]; [injection E as <-; reflexivity|]). destruct i; discriminate. }
  split. { intros i j a b L E1 E2. do 2 (destruct j as [|j]; [do 2 (destruct i as [|i]; [first [lia|injection E1 as <-; injection E2 as <-; cbn; lia]|]); lia|]). destruct j; discriminate. }
  split. { repeat constructor; eexists; reflexivity. } split; [cbn; lia|].
  split. { cbn. intros rd en. intuition (try discriminate); repeat match goal with H : Poll _ _ = Poll _ _ |- _ => injection H as <- <- end; lia. }
  do 4 eexists. split; [vm_compute; reflexivity|]. split; [reflexivity|]. split; [vm_compute; reflexivity|]. split; [vm_compute; reflexivity|]. split; [reflexivity|].
  cbn. tauto.
Qed.

(** And a library that finds no sample without reporting an error makes the relay read ts[-1]. *)
Theorem C87_no_match_refuted : exists c rd en, 0 <= rd /\ 0 <= en /\ read_samples [114; 0] c (inr []) rd en = Bug Oob.
Proof. exists (mkCtx 0 Oldest [] false), 0, 0. split; [lia|]. split; [lia|]. reflexivity. Qed.

(** The number of losses reported is computed on 16 bits: 65536 samples lost between two polls are not
    reported (bound of the theorem above). *)
Theorem C87_wrap_refuted : exists a b, b - a - 1 = 65536 /\ check_index (u16 a) (u16 b) = [].
Proof. exists 7, 65544. split; reflexivity. Qed.

Print Assumptions C87_accounted_partial.
Print Assumptions C87_once_partial.
Print Assumptions C87_same_time_refuted.
Print Assumptions C87_read_error_refuted.
Print Assumptions C87_no_match_refuted.
Print Assumptions C87_wrap_refuted.
