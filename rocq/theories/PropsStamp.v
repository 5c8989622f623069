(** Property C131: the order of the messages of a device and their times. *)
From Coq Require Import ZArith String List Bool Sorted Lia ZifyBool ZifyNat Arith.
From Verif Require Import Bytes BytesProofs Ring RingHistory Parse Cat CatSpec Render Live LiveSpec Program ProgramSpec PropsProgram Stamp StampSpec.
Import ListNotations.
Open Scope Z_scope.

Lemma dated_at c ns : 0 <= ns -> same_at ns c (dated c ns).
Proof.
  intros H. unfold same_at, when, dated. cbn [p_sec p_nsec]. pose proof (Z.div_mod ns (10 ^ 9) ltac:(lia)). pose proof (Z.mod_pos_bound ns (10 ^ 9) ltac:(lia)).
  split; [lia|]. split; [lia|reflexivity].
Qed.
Lemma clock_nonneg evs i : 0 <= clock evs i.
Proof. unfold clock. induction (firstn i evs) as [|[n| |] l IH]; cbn [fold_right]; lia. Qed.
Lemma clock_app evs es i : (i <= length evs)%nat -> clock (evs ++ es) i = clock evs i.
Proof. intros H. unfold clock. rewrite firstn_app. replace (i - length evs)%nat with 0%nat by lia. cbn [firstn]. now rewrite app_nil_r. Qed.
Lemma clock_snoc evs e : clock (evs ++ [e]) (S (length evs)) = clock evs (length evs) + match e with Tick n => Z.max 0 n | _ => 0 end.
Proof.
  unfold clock. rewrite !firstn_all2 by (rewrite ?app_length; cbn [length]; lia). induction evs as [|[n| |] l IH]; cbn [app fold_right]; [destruct e; lia|..]; rewrite ?IH; lia.
Qed.
Lemma clock_mono evs i j : (i <= j)%nat -> clock evs i <= clock evs j.
Proof.
  intros H. unfold clock. revert i j H. induction evs as [|e l IH]; intros i j H; [now rewrite !firstn_nil|].
  destruct i as [|i]; [cbn [firstn fold_right]; apply (clock_nonneg (e :: l) j)|]. destruct j as [|j]; [lia|]. cbn [firstn fold_right]. specialize (IH i j ltac:(lia)). destruct e; lia.
Qed.
Lemma nth_snoc {A} (l : list A) x i y : nth_error (l ++ [x]) i = Some y <-> nth_error l i = Some y \/ (i = length l /\ y = x).
Proof.
  destruct (Nat.lt_ge_cases i (length l)) as [L|L].
  - rewrite nth_error_app1 by lia. split; [auto|]. intros [E|[E _]]; [auto|lia].
  - rewrite nth_error_app2 by lia. pose proof (proj2 (nth_error_None l i) L) as N. rewrite N.
    destruct (Nat.eq_dec i (length l)) as [->|NE]; [rewrite Nat.sub_diag; cbn; split; [intros [= <-]; auto|intros [X|[_ ->]]; [discriminate|reflexivity]]|].
    destruct (i - length l)%nat as [|k] eqn:Q; [lia|]. cbn. destruct k; (split; [discriminate|intros [X|[X _]]; [discriminate|lia]]).
Qed.

(** The invariant: who is in a call, and the calls that are over. *)
Definition open_call (evs : list event) (i : nat) (c : call) : Prop :=
  nth_error evs i = Some (Enter c) /\ forall k e, (i < k)%nat -> nth_error evs k = Some e -> ~ by_thread (t_pid (p_task c)) e.
Record inv (evs : list event) (s : race) (ijs : list (nat * nat)) : Prop := {
  v_now : k_now s = clock evs (length evs);
  v_in : forall th s', k_in s th = Some s' <-> exists i c, open_call evs i c /\ thread c = th /\ s' = dated c (clock evs i);
  v_sort : StronglySorted (fun a b => (snd a < snd b)%nat) ijs;
  v_all : forall i j, In (i, j) ijs <-> exists c, lasts evs i j c;
  v_log : Forall2 (fun ij s' => exists c, lasts evs (fst ij) (snd ij) c /\ s' = dated c (clock evs (fst ij))) ijs (k_log s) }.

Lemma lasts_end evs i j c : lasts evs i j c -> (i < j < length evs)%nat.
Proof. intros (H & _ & E & _). split; [exact H|]. apply nth_error_Some. congruence. Qed.
Lemma lasts_snoc evs e i j c : (j < length evs)%nat -> lasts (evs ++ [e]) i j c <-> lasts evs i j c.
Proof.
  intros L. unfold lasts. assert (X : forall k, (k <= j)%nat -> nth_error (evs ++ [e]) k = nth_error evs k) by (intros k Hk; apply nth_error_app1; lia).
  split; intros (H1 & H2 & H3 & H4).
  - rewrite X in H2 by lia. rewrite X in H3 by lia. repeat split; auto. intros k e' Hk E. apply (H4 k e' Hk). rewrite X by lia. exact E.
  - rewrite !X by lia. repeat split; auto. intros k e' Hk E. rewrite X in E by lia. apply (H4 k e' Hk E).
Qed.
Lemma lasts_app evs es i j c : lasts evs i j c -> lasts (evs ++ es) i j c.
Proof.
  intros L. pose proof (lasts_end _ _ _ _ L). destruct L as (H1 & H2 & H3 & H4). assert (X : forall k, (k <= j)%nat -> nth_error (evs ++ es) k = nth_error evs k) by (intros k Hk; apply nth_error_app1; lia).
  unfold lasts. rewrite !X by lia. repeat split; auto. intros k e' Hk E. rewrite X in E by lia. apply (H4 k e' Hk E).
Qed.
Lemma lasts_last evs i c th : lasts (evs ++ [Lock th]) i (length evs) c <-> open_call evs i c /\ thread c = th.
Proof.
  unfold lasts, open_call, thread. split.
  - intros (H1 & H2 & H3 & H4). rewrite nth_error_app1 in H2 by lia. rewrite nth_error_app2, Nat.sub_diag in H3 by lia. cbn in H3. injection H3 as H3.
    split; [split; [exact H2|]|auto]. intros k e Hk E. assert (k < length evs)%nat by (apply nth_error_Some; congruence). apply (H4 k e); [lia|]. now rewrite nth_error_app1 by lia.
  - intros ((H2 & H4) & <-). assert (i < length evs)%nat by (apply nth_error_Some; congruence). split; [lia|]. rewrite nth_error_app1 by lia. split; [exact H2|].
    rewrite nth_error_app2, Nat.sub_diag by lia. split; [reflexivity|]. intros k e Hk E. rewrite nth_error_app1 in E by lia. apply (H4 k e); [lia|exact E].
Qed.
Lemma open_lt evs i c : open_call evs i c -> (i < length evs)%nat.
Proof. intros [E _]. apply nth_error_Some. congruence. Qed.
Lemma open_snoc evs e i c : (i < length evs)%nat -> open_call (evs ++ [e]) i c <-> open_call evs i c /\ ~ by_thread (t_pid (p_task c)) e.
Proof.
  intros L. unfold open_call. rewrite nth_error_app1 by lia. split.
  - intros (H & K). split; [split; [exact H|]|].
    + intros k e' Hk E. apply (K k e' Hk). apply nth_snoc. auto.
    + apply (K (length evs) e ltac:(lia)). apply nth_snoc. auto.
  - intros ((H & K) & N). split; [exact H|]. intros k e' Hk E. apply nth_snoc in E as [E|[-> ->]]; [apply (K k e' Hk E)|exact N].
Qed.

Lemma legal_prefix evs e : legal (evs ++ [e]) -> legal evs.
Proof.
  intros [A B]. split.
  - intros j th E. assert (L : (j < length evs)%nat) by (apply nth_error_Some; congruence).
    destruct (A j th) as (i & c & H); [now rewrite nth_error_app1 by lia|]. exists i, c. apply (lasts_snoc evs e); auto.
  - intros i c k c' E1 E2 L T. assert (K : (k < length evs)%nat) by (apply nth_error_Some; congruence).
    destruct (B i c k c') as (j & Hj & E); [rewrite nth_error_app1 by lia; exact E1|rewrite nth_error_app1 by lia; exact E2|exact L|exact T|].
    exists j. split; [exact Hj|]. now rewrite nth_error_app1 in E by lia.
Qed.

Lemma sort_snoc (l : list (nat * nat)) x : StronglySorted (fun a b => (snd a < snd b)%nat) l -> Forall (fun a => (snd a < snd x)%nat) l ->
  StronglySorted (fun a b => (snd a < snd b)%nat) (l ++ [x]).
Proof.
  induction 1 as [|a l S IH F]; intros H; cbn [app]; [repeat constructor|]. inversion H; subst. constructor; [auto|]. apply Forall_app. auto.
Qed.

Lemma Forall2_imp {A B} (P Q : A -> B -> Prop) l r : (forall a b, P a b -> Q a b) -> Forall2 P l r -> Forall2 Q l r.
Proof. intros H. induction 1; constructor; auto. Qed.
Lemma inv_holds evs : legal evs -> exists ijs, inv evs (fold_left happen evs still) ijs.
Proof.
  induction evs as [|e evs IH] using rev_ind; intros LG.
  { exists []. constructor; cbn; auto.
    - intros th s'. split; [discriminate|]. intros (i & c & [E _] & _). destruct i; discriminate.
    - constructor.
    - intros i j. split; [intros []|]. intros (c & H). pose proof (lasts_end _ _ _ _ H). cbn in *. lia. }
  destruct (IH (legal_prefix _ _ LG)) as (ijs & I). rewrite fold_left_app. cbn [fold_left]. set (s := fold_left happen evs still) in *. clearbody s. clear IH.
  assert (EL : length (evs ++ [e]) = S (length evs)) by (rewrite app_length; cbn [length]; lia).
  assert (LOGK : Forall2 (fun ij s' => exists c, lasts (evs ++ [e]) (fst ij) (snd ij) c /\ s' = dated c (clock (evs ++ [e]) (fst ij))) ijs (k_log s)).
  { eapply Forall2_imp; [|exact (v_log _ _ _ I)]. cbv beta. intros [i j] s' (c & L & ->). cbn [fst snd] in *. exists c. pose proof (lasts_end _ _ _ _ L). split; [now apply lasts_app|]. now rewrite clock_app by lia. }
  assert (INLT : Forall (fun a => (snd a < length evs)%nat) ijs).
  { apply Forall_forall. intros [i j] H. apply (v_all _ _ _ I) in H as (c & L). pose proof (lasts_end _ _ _ _ L). cbn. lia. }
  assert (OLD : forall i c, open_call (evs ++ [e]) i c <-> (open_call evs i c /\ ~ by_thread (t_pid (p_task c)) e) \/ (i = length evs /\ e = Enter c)).
  { intros i c. destruct (Nat.lt_ge_cases i (length evs)) as [L|L].
    - rewrite (open_snoc evs e i c L). split; [auto|]. intros [H|[H _]]; [exact H|lia].
    - split.
      + intros [H _]. apply nth_snoc in H as [H|[-> H]]; [exfalso; apply (proj2 (nth_error_None evs i)) in L; congruence|]. right. auto.
      + intros [[H _]|[-> ->]]; [apply open_lt in H; lia|]. split; [apply nth_snoc; auto|]. intros k e' Hk E. exfalso. assert (k < length (evs ++ [Enter c]))%nat by (apply nth_error_Some; congruence). lia. }
  assert (ALL : (forall th, e <> Lock th) -> forall i j, In (i, j) ijs <-> exists c, lasts (evs ++ [e]) i j c).
  { intros NL i j. rewrite (v_all _ _ _ I). split; intros (c & H); exists c; [now apply lasts_app|].
    apply (lasts_snoc evs e); [|exact H]. pose proof (lasts_end _ _ _ _ H). destruct (Nat.eq_dec j (length evs)) as [->|]; [|lia].
    destruct H as (_ & _ & H & _). apply nth_snoc in H as [H|[_ H]]; [exfalso; assert (length evs < length evs)%nat by (apply nth_error_Some; congruence); lia|]. exfalso. apply (NL _ (eq_sym H)). }
  destruct e as [n|c0|th0]; cbn [happen].
  - exists ijs. constructor; cbn [k_now k_in k_log]; auto.
    + rewrite EL, clock_snoc, (v_now _ _ _ I). reflexivity.
    + intros th s'. rewrite (v_in _ _ _ I). split.
      * intros (i & c & O & T & ->). exists i, c. rewrite OLD, clock_app by (apply open_lt in O; lia). split; [left; split; [exact O|intros []]|auto].
      * intros (i & c & O & T & ->). apply OLD in O as [[O _]|[_ O]]; [|discriminate]. exists i, c. rewrite clock_app by (apply open_lt in O; lia). auto.
    + exact (v_sort _ _ _ I).
    + apply ALL. discriminate.
  - destruct (k_in s (thread c0)) as [s0|] eqn:Q.
    { exfalso. apply (v_in _ _ _ I) in Q as (i & c & O & T & _). destruct LG as [_ LG]. pose proof (open_lt _ _ _ O) as Li.
      destruct (LG i c (length evs) c0) as (j & Hj & E); [rewrite nth_error_app1 by lia; apply O|apply nth_snoc; auto|lia|unfold thread in T; congruence|].
      rewrite nth_error_app1 in E by lia. apply (proj2 O j _ (proj1 Hj) E). reflexivity. }
    exists ijs. constructor; cbn [k_now k_in k_log]; auto.
    + rewrite EL, clock_snoc, (v_now _ _ _ I). lia.
    + intros th s'. destruct (Z.eqb_spec th (thread c0)) as [->|N].
      * split.
        -- intros [= <-]. exists (length evs), c0. rewrite clock_app, <- (v_now _ _ _ I) by lia. split; [|auto]. apply OLD. right. auto.
        -- intros (i & c & O & T & ->). apply OLD in O as [[O B]|[-> O]]; [exfalso; apply B; cbn; unfold thread in T; congruence|]. injection O as <-. rewrite clock_app, <- (v_now _ _ _ I) by lia. reflexivity.
      * rewrite (v_in _ _ _ I). split.
        -- intros (i & c & O & T & ->). exists i, c. rewrite clock_app by (apply open_lt in O; lia). split; [|auto]. apply OLD. left. split; [exact O|]. cbn. unfold thread in *. congruence.
        -- intros (i & c & O & T & ->). apply OLD in O as [[O _]|[_ O]]; [|injection O as <-; congruence]. exists i, c. rewrite clock_app by (apply open_lt in O; lia). auto.
    + exact (v_sort _ _ _ I).
    + apply ALL. discriminate.
  - destruct (proj1 LG (length evs) th0) as (i0 & c0 & L0); [apply nth_snoc; auto|]. apply lasts_last in L0 as L1. destruct L1 as [O0 T0].
    assert (Q : k_in s th0 = Some (dated c0 (clock evs i0))) by (apply (v_in _ _ _ I); eauto). rewrite Q.
    assert (UQ : forall i c, open_call evs i c -> thread c = th0 -> i = i0 /\ c = c0).
    { intros i c O T. assert (i = i0).
      { destruct (Nat.lt_trichotomy i i0) as [X|[X|X]]; [exfalso|exact X|exfalso].
        - apply (proj2 O i0 _ X (proj1 O0)). cbn. unfold thread in *. congruence.
        - apply (proj2 O0 i _ X (proj1 O)). cbn. unfold thread in *. congruence. }
      subst i. split; [reflexivity|]. destruct O as [O _], O0 as [O0 _]. congruence. }
    exists (ijs ++ [(i0, length evs)]). constructor; cbn [k_now k_in k_log]; auto.
    + rewrite EL, clock_snoc, (v_now _ _ _ I). lia.
    + intros th s'. destruct (Z.eqb_spec th th0) as [->|N].
      * split; [discriminate|]. intros (i & c & O & T & _). exfalso. apply OLD in O as [[O B]|[_ O]]; [|discriminate]. apply B. cbn. unfold thread in *. congruence.
      * rewrite (v_in _ _ _ I). split.
        -- intros (i & c & O & T & ->). exists i, c. rewrite clock_app by (apply open_lt in O; lia). split; [|auto]. apply OLD. left. split; [exact O|]. cbn. unfold thread in *. congruence.
        -- intros (i & c & O & T & ->). apply OLD in O as [[O _]|[_ O]]; [|discriminate]. exists i, c. rewrite clock_app by (apply open_lt in O; lia). auto.
    + apply sort_snoc; [exact (v_sort _ _ _ I)|exact INLT].
    + intros i j. rewrite in_app_iff. split.
      * intros [H|[H|[]]]; [apply (v_all _ _ _ I) in H as (c & H); exists c; now apply lasts_app|]. injection H as <- <-. eauto.
      * intros (c & H). pose proof (lasts_end _ _ _ _ H). destruct (Nat.eq_dec j (length evs)) as [->|NE].
        -- right. apply lasts_last in H as [O T]. destruct (UQ i c O T) as [-> _]. now left.
        -- left. apply (v_all _ _ _ I). exists c. apply (lasts_snoc evs (Lock th0)); [lia|exact H].
    + apply Forall2_app; [exact LOGK|]. constructor; [|constructor]. cbn [fst snd]. exists c0. split; [exact L0|]. rewrite clock_app by (apply open_lt in O0; lia). reflexivity.
Qed.

(** ** C131 *)

(** Whatever the threads do, the device stores the calls in the order in which they took the lock,
    each with the time at which it began. *)
Theorem C131_calls_partial : forall evs, legal evs ->
  exists ijs, StronglySorted (fun a b => (snd a < snd b)%nat) ijs /\ (forall i j, In (i, j) ijs <-> exists c, lasts evs i j c) /\
    Forall2 (fun ij s => exists c, lasts evs (fst ij) (snd ij) c /\ same_at (clock evs (fst ij)) c s) ijs (stored evs).
Proof.
  intros evs LG. destruct (inv_holds evs LG) as (ijs & I). exists ijs. split; [exact (v_sort _ _ _ I)|]. split; [exact (v_all _ _ _ I)|].
  eapply Forall2_imp; [|exact (v_log _ _ _ I)]. cbv beta. intros [i j] s' (c & L & ->). exists c. split; [exact L|]. apply dated_at, clock_nonneg.
Qed.

Lemma sorted_of ijs l (P : nat * nat -> call -> Prop) : StronglySorted (fun a b => (snd a < snd b)%nat) ijs ->
  (forall a b s t, In a ijs -> In b ijs -> P a s -> P b t -> (snd a < snd b)%nat -> when s <= when t) -> Forall2 P ijs l -> in_order l.
Proof.
  intros S H F. unfold in_order. revert S H. induction F as [|a s ijs l Ha F IH]; intros S H; constructor.
  - apply IH; [now inversion S|]. intros x y u v X Y. apply H; now right.
  - inversion S as [|? ? _ SF]; subst. clear IH S. assert (X : forall b, In b ijs -> (snd a < snd b)%nat) by (apply Forall_forall; exact SF).
    assert (Y : Forall2 (fun b t => In b ijs /\ P b t) ijs l). { clear - F. induction F; constructor; cbn; auto. eapply Forall2_imp; [|exact IHF]. cbn. intuition. }
    clear F SF. revert Y. generalize ijs at 2. intros js Y. induction Y as [|b t js l [Hb Hp] _ IH]; constructor; [|exact IH].
    apply (H a b); auto; cbn; auto.
Qed.

(** Calls that do not overlap are stored in the order of their times. *)
Theorem C131_sequential_partial : forall evs, legal evs ->
  (forall i j c i' j' c', lasts evs i j c -> lasts evs i' j' c' -> (j < j')%nat -> (j < i')%nat) -> in_order (stored evs).
Proof.
  intros evs LG NO. destruct (C131_calls_partial evs LG) as (ijs & S & _ & F). eapply sorted_of; eauto. cbv beta.
  intros [i j] [i' j'] s t _ _ (c & L & A & _) (c' & L' & A' & _) Hj. cbn [fst snd] in *. rewrite A, A'. apply clock_mono.
  pose proof (lasts_end _ _ _ _ L). pose proof (NO _ _ _ _ _ _ L L' Hj). lia.
Qed.
(** So are the calls of one thread. *)
Theorem C131_thread_partial : forall evs th, legal evs -> in_order (filter (fun c => t_pid (p_task c) =? th) (stored evs)).
Proof.
  intros evs th LG. destruct (C131_calls_partial evs LG) as (ijs & S & _ & F).
  assert (X : exists ijs', StronglySorted (fun a b => (snd a < snd b)%nat) ijs' /\ Forall2 (fun ij s => exists c, lasts evs (fst ij) (snd ij) c /\ same_at (clock evs (fst ij)) c s /\ t_pid (p_task c) = th)
     ijs' (filter (fun c => t_pid (p_task c) =? th) (stored evs)) /\ forall x, In x ijs' -> In x ijs).
  { clear LG. revert S. induction F as [|a s ijs l Ha F IH]; intros S; [exists []; repeat constructor; auto|]. inversion S as [|? ? S' SF]; subst. destruct (IH S') as (js & J1 & J2 & J3).
    cbn [filter]. destruct (Z.eqb_spec (t_pid (p_task s)) th) as [E|E].
    - exists (a :: js). split; [|split].
      + constructor; [exact J1|]. rewrite Forall_forall in *. auto.
      + constructor; [|exact J2]. destruct Ha as (c & L & A). exists c. split; [exact L|]. split; [exact A|]. destruct A as (_ & _ & A). rewrite A in E. exact E.
      + intros x [->|X]; [now left|right; auto].
    - exists js. split; [exact J1|]. split; [exact J2|]. intros x X. right. auto. }
  destruct X as (js & J1 & J2 & _). eapply sorted_of; eauto. cbv beta.
  intros [i j] [i' j'] s t _ _ (c & L & (A & _) & T) (c' & L' & (A' & _) & T') Hj. cbn [fst snd] in *. rewrite A, A'. apply clock_mono.
  destruct (Nat.le_gt_cases i i') as [|X]; [assumption|]. exfalso. pose proof (lasts_end _ _ _ _ L). destruct L as (_ & L & _). destruct L' as (_ & _ & _ & L').
  apply (L' i _ ltac:(lia) L). cbn. congruence.
Qed.

(** But the messages of a device are not always in the order of their times: thread 101 reads the
    clock, then thread 102 does and takes the lock first. The dump shows the later message first. *)
Definition ex_c (tid fid : Z) (s : string) : call :=
  mkCall fid (mkTask 100 tid (bytes_of_string "prog") (bytes_of_string "worker") 5) 0 0 (repeat 170 256) (bytes_of_string "net") 6 6 (bytes_of_string s).
Definition ex_race : list event := [Tick 1000; Enter (ex_c 101 7 "first"); Tick 1000; Enter (ex_c 102 7 "second"); Lock 102; Lock 101].
Ltac idx j E := destruct j as [|[|[|[|[|[|j]]]]]]; cbn [nth_error ex_race] in E; try discriminate; try (destruct j; discriminate).
Example ex_race_legal : legal ex_race.
Proof.
  split.
  - intros j th E. idx j E; injection E as <-.
    + exists 3%nat, (ex_c 102 7 "second"). split; [lia|]. split; [reflexivity|]. split; [reflexivity|]. intros k e Hk. lia.
    + exists 1%nat, (ex_c 101 7 "first"). split; [lia|]. split; [reflexivity|]. split; [reflexivity|]. intros k e Hk Ek.
      assert (k = 2 \/ k = 3 \/ k = 4)%nat as [->|[->| ->]] by lia; injection Ek as <-; cbn; lia.
  - intros i c k c' E1 E2 L T. idx i E1; injection E1 as <-; idx k E2; injection E2 as <-; cbn in T; lia.
Qed.
Theorem C131_order_refuted : exists evs a b, legal evs /\ stored evs = [a; b] /\ Forall (proper [7]) [a; b] /\ when b < when a /\
  forall nm mem pow2 rfid uid paths, init_ok nm mem pow2 -> ~ In 0 nm -> rfid <> 7 ->
  exists ops d outs node mark fuel ns' c', program (stored evs) = Ok ops /\
    run (init_dev nm mem pow2) (opens [7] ++ ops) = Ok (d, outs) /\ add_ulog_device d rfid true uid = Ok (Some (node, mark)) /\
    process_logs fuel (live_env false uid) true 0 [node] (open_ctx 0 [mark]) 0 = Ok (Some (ns', c', 0)) /\
    output (mkO FShort false [] false []) paths (c_out c') = Ok (map Some (screen a ++ screen b)).
Proof.
  exists ex_race, (dated (ex_c 102 7 "second") 2000), (dated (ex_c 101 7 "first") 1000). split; [exact ex_race_legal|]. split; [reflexivity|].
  assert (P : Forall (proper [7]) [dated (ex_c 102 7 "second") 2000; dated (ex_c 101 7 "first") 1000]).
  { unfold dated, ex_c. repeat constructor; cbn [p_fid p_task p_sec p_nsec p_stack p_tag p_prio p_text t_tgid t_pid]; unfold ProgramSpec.int32;
      try lia; try reflexivity; try (vm_compute; intuition discriminate); try (apply C130_fits; vm_compute; discriminate). }
  split; [exact P|]. split; [reflexivity|]. intros nm mem pow2 rfid uid paths HI HN HR.
  destruct (C130_screen nm mem pow2 [7] (stored ex_race) rfid true uid paths HI HN) as (ops & d & outs & node & mark & E1 & E2 & E3 & lost & kept & EL & K & D).
  { repeat constructor. intros []. } { intros [X|[]]. congruence. } { exact P. }
  change (filter visible (stored ex_race)) with [dated (ex_c 102 7 "second") 2000; dated (ex_c 101 7 "first") 1000] in EL.
  cbv zeta in D. destruct D as (note & N & D).
  assert (lost = []) as ->.
  { destruct K as [K|K]; [exact K|]. exfalso. assert (2 ^ 14 <= 2 ^ pow2) by (apply Z.pow_le_mono_r; destruct HI; lia). change (2 ^ 14) with 16384 in H.
    assert (costs kept < 4000); [|lia]. destruct lost as [|l1 [|l2 [|l3 lost]]]; cbn [app] in EL.
    - subst kept. reflexivity.
    - injection EL as _ <-. reflexivity.
    - injection EL as _ _ <-. reflexivity.
    - discriminate. }
  cbn [app] in EL. subst kept. destruct N as [[_ ->]|[X _]]; [|congruence].
  destruct (D _ (Nat.lt_succ_diag_r _)) as (ns' & c' & PL & O). cbn [app map concat] in O. rewrite app_nil_r in O.
  exists ops, d, outs, node, mark. do 3 eexists. split; [exact E1|]. split; [exact E2|]. split; [exact E3|]. split; [exact PL|exact O].
Qed.
(** Two threads one after the other meet the hypotheses of C131_sequential_partial. *)
Example C131_ex : let evs := [Enter (ex_c 101 7 "first"); Tick 1000; Lock 101; Enter (ex_c 102 7 "second"); Lock 102] in
  legal evs /\ (forall i j c i' j' c', lasts evs i j c -> lasts evs i' j' c' -> (j < j')%nat -> (j < i')%nat) /\
  stored evs = [dated (ex_c 101 7 "first") 0; dated (ex_c 102 7 "second") 1000].
Proof.
  cbv zeta. split; [split|split; [|reflexivity]].
  - intros j th E. idx j E; injection E as <-.
    + exists 0%nat, (ex_c 101 7 "first"). split; [lia|]. split; [reflexivity|]. split; [reflexivity|]. intros k e Hk Ek. assert (k = 1)%nat as -> by lia. injection Ek as <-. intros [].
    + exists 3%nat, (ex_c 102 7 "second"). split; [lia|]. split; [reflexivity|]. split; [reflexivity|]. intros k e Hk. lia.
  - intros i c k c' E1 E2 L T. idx i E1; injection E1 as <-; idx k E2; injection E2 as <-; cbn in T; lia.
  - intros i j c i' j' c' (L1 & L2 & L3 & _) (L1' & L2' & L3' & _) Hj.
    idx j L3; idx j' L3'; try lia; idx i' L2'; try lia; injection L2' as <-; discriminate.
Qed.
Print Assumptions C131_calls_partial.
Print Assumptions C131_sequential_partial.
Print Assumptions C131_thread_partial.
Print Assumptions C131_order_refuted.
