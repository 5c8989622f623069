(** C106: whatever the devices do while the reader runs, what they deliver is shown in their order,
    without gaps. *)
From Coq Require Import ZArith String List Bool Lia ZifyBool ZifyNat Arith Permutation.
From Verif Require Import Bytes BytesProofs Cat CatSpec CatProofs FollowSpec FollowProofs.
Import ListNotations.
Open Scope Z_scope.

(** Keeping the record changes nothing. *)
Lemma tap_read {W} (en : env W) fds rev k : forall i w l c fr, exists l',
  read_devices (tap en) k i fds rev (w, l) c fr =
  (let r := read_devices en k i fds rev w c fr in (fst (fst r), l', snd (fst r), snd r)).
Proof.
  induction k as [|k IH]; intros i w l c fr; cbn -[tap]; [eauto|].
  destruct (negb _); [apply IH|].
  destruct (alloc_frame c) as [[f c1]|]; [|apply IH].
  cbn [tap e_recv fst snd]. destruct (e_recv en w i) as [w' [ | dec | st da dec ok]]; cbn -[tap]; eauto.
Qed.
Lemma tap_process {W} (en : env W) w l c : exists l',
  process_devices (tap en) (w, l) c =
  match process_devices en w c with Ok (w', c', r) => Ok (w', l', c', r) | Bug b => Bug b end.
Proof.
  unfold process_devices.
  assert (P : forall fds, e_poll (tap en) (w, l) fds = (let (w', r) := e_poll en w fds in (w', l, r))) by reflexivity.
  rewrite P. clear P.
  destruct (e_poll en w _) as [w1 [b|rev]]; [eauto|].
  destruct (tap_read en (map (fun d => negb (d_pending d)) (c_devs c)) rev (length (c_devs c)) 0 w1 l c 0) as (l' & E).
  rewrite E. cbn zeta. destruct (read_devices en _ _ _ _ _ _ _) as [[w2 c2] [x|x]]; cbn; [eauto|].
  exists l'. destruct (pull c2); reflexivity.
Qed.
Lemma tap_logs {W} (en : env W) dump max k : forall w l c fr, exists l',
  process_logs k (tap en) dump max (w, l) c fr =
  match process_logs k en dump max w c fr with
  | Ok (Some (w', c', x)) => Ok (Some (w', l', c', x)) | Ok None => Ok None | Bug b => Bug b end.
Proof.
  induction k as [|k IH]; intros w l c fr; cbn -[tap]; [eauto|].
  destruct (tap_process en w l c) as (l1 & E). rewrite E.
  destruct (process_devices en w c) as [[[w1 c1] r]|b]; cbn -[tap]; [|eauto].
  destruct (r <? 0); [eauto|]. destruct (dump && c_mark c1).
  - destruct (flush_pending_queue _ c1); cbn; eauto.
  - destruct (_ || _); [apply IH|eauto].
Qed.

(** A dump that ends without an error has reached the mark. *)
Lemma pend_mark k : forall c c', flush_pending_queue k c = Ok c' -> c_mark c' = c_mark c.
Proof.
  induction k as [|k IH]; intros c c'; cbn; destruct (0 <? c_pending c); try discriminate; try (now intros [= <-]).
  destruct (flush_pending_frame c false) as [c3|] eqn:E3; cbn; [|discriminate]. intros E. rewrite (IH _ _ E).
  revert E3. unfold flush_pending_frame. destruct (0 <? c_pending c); [|now intros [= <-]].
  destruct (find_oldest c); [|discriminate]. intros [= <-]. cbn.
  destruct (flush_frame_same c f) as (_ & _ & _ & _ & _ & _ & -> & _). reflexivity.
Qed.
Lemma dump_mark {W} (en : env W) k : forall w c fr w' c' x,
  process_logs k en true 0 w c fr = Ok (Some (w', c', x)) -> 0 <= x -> c_mark c' = true.
Proof.
  induction k as [|k IH]; intros w c fr w' c' x; cbn; [discriminate|].
  destruct (process_devices en w c) as [[[w1 c1] r]|b]; cbn; [|discriminate].
  destruct (Z.ltb_spec r 0); [intros [= <- <- <-] X0; lia|].
  destruct (c_mark c1) eqn:Mc; [|apply IH].
  destruct (flush_pending_queue (Z.to_nat (c_pending c1)) c1) as [c2|] eqn:Fq; cbn; [|discriminate].
  intros [= <- <- <-] _. now rewrite (pend_mark _ _ _ Fq).
Qed.

(** For any behaviour of poll and of the devices, in dump and in follow mode, after any number of
    rounds: the acceptable entries that a device delivered are, in order, some that are dropped,
    those shown, and those not yet shown. Entries are dropped only if a tail is asked for and more
    entries came than it has. At most one entry of a device is not yet shown if no tail is asked
    for, or as soon as anything is shown; none when a dump has ended. *)
Theorem C106_no_loss : forall W (en : env W) dump max N marks k w w' c' x, 0 <= N -> poll_sane en ->
  process_logs k en dump max w (open_ctx N marks) 0 = Ok (Some (w', c', x)) ->
  exists l, process_logs k (tap en) dump max (w, []) (open_ctx N marks) 0 = Ok (Some (w', l, c', x)) /\
  forall d, exists dropped waiting,
    delivered d l = dropped ++ shown_from d (c_out c') ++ waiting /\
    (dropped <> [] -> 0 < N < zlen l) /\
    ((N = 0 \/ printed (c_out c') <> []) -> (length waiting <= 1)%nat) /\
    (dump = true -> max = 0 -> 0 <= x -> waiting = []).
Proof.
  intros W en dump max N marks k w w' c' x HN PS E.
  destruct (tap_logs en dump max k w [] (open_ctx N marks) 0) as (l & T). rewrite E in T. exists l. split; [exact T|].
  assert (F : FI N (open_ctx N marks) []).
  { constructor; cbn.
    - intros d. exists []. split; [reflexivity|]. intros X; now destruct X.
    - reflexivity.
    - reflexivity.
    - reflexivity.
    - apply Z.le_refl. }
  destruct (FI_logs N en (Z.to_nat (N + zlen marks + 1)) dump max k w [] (open_ctx N marks) 0 w' l c' x PS (open_inv N marks HN) F) as (I & F' & M & Q);
    [discriminate|exact T|].
  intros d. destruct (fi_dev _ _ _ F' d) as (dr & D & Z). exists dr, (on d (c_rq c' ++ c_pq c')).
  split; [exact D|]. split; [exact Z|].
  assert (One : c_rq c' = [] -> (length (on d (c_rq c' ++ c_pq c')) <= 1)%nat).
  { intros ->. cbn [app]. pose proof (iv_nodup _ _ I) as ND. revert ND. generalize (c_pq c'). clear.
    induction l as [|f q IH]; cbn; [lia|]. intros ND. inversion ND; subst. unfold on in *. cbn.
    destruct (f_ok f && Nat.eqb (f_dev f) d) eqn:B; [|now apply IH].
    apply andb_prop in B as [_ B%Nat.eqb_eq]. cbn.
    fold (on d q). rewrite on_other; [cbn; lia|]. now rewrite <- B. }
  split.
  - intros X. apply One, (fi_now _ _ _ F').
    destruct (Z.eq_dec (c_tail c') 0) as [->|T0]; [reflexivity|exfalso].
    destruct X as [->|X]; [apply T0, (fi_tail _ _ _ F' T0)|].
    apply X. destruct (printed (c_out c')) as [|[[j st] da] r] eqn:P; [reflexivity|exfalso].
    pose proof (fi_new _ _ _ F' T0 j) as Y. unfold shown_from in Y. rewrite P in Y. cbn in Y.
    rewrite Nat.eqb_refl in Y. discriminate.
  - intros Dm Mx Xp. specialize (Q Dm Xp (or_introl Mx)).
    assert (Mk : c_mark c' = true -> on d (c_rq c' ++ c_pq c') = []).
    { intros Mt. rewrite (fi_now _ _ _ F' (M Mt)), Q. reflexivity. }
    apply Mk. rewrite Dm, Mx in E. exact (dump_mark en k _ _ _ _ _ _ E Xp).
Qed.
Print Assumptions C106_no_loss.

(** Three entries of two devices, read in follow mode until three have come: the two of the first
    device are shown in order, the one of the second, which is the latest, is not yet. With a tail
    of one, the dump shows the last one. *)
Definition ex_it (st : Z) : item := mkItem true st (mkData [st] None) true 0.
Definition ex_w : world := [[ex_it 10; ex_it 20]; [ex_it 30]].
Definition ex_data (d : nat) (st : Z) : nat * Z * fdata := (d, st, mkData [st] None).
Example C106_ex :
  (exists w c x l, process_logs 9 static_env false 3 ex_w (open_ctx 0 [1; 1]) 0 = Ok (Some (w, c, x)) /\
     process_logs 9 (tap static_env) false 3 (ex_w, []) (open_ctx 0 [1; 1]) 0 = Ok (Some (w, l, c, x)) /\
     delivered 0 l = [ex_data 0 10; ex_data 0 20] /\ shown_from 0 (c_out c) = [ex_data 0 10; ex_data 0 20] /\
     delivered 1 l = [ex_data 1 30] /\ shown_from 1 (c_out c) = []) /\
  (exists w c l, process_logs 9 (tap static_env) true 0 (ex_w, []) (open_ctx 1 [1; 1]) 0 = Ok (Some (w, l, c, 0)) /\
     length l = 3%nat /\ delivered 0 l = [ex_data 0 10; ex_data 0 20] /\ shown_from 0 (c_out c) = [] /\
     shown_from 1 (c_out c) = [ex_data 1 30]).
Proof.
  split.
  - do 4 eexists. split; [vm_compute; reflexivity|]. split; [vm_compute; reflexivity|]. repeat split; vm_compute; reflexivity.
  - do 3 eexists. split; [vm_compute; reflexivity|]. repeat split; vm_compute; reflexivity.
Qed.
