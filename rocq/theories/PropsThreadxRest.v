(** Property C124: the rest of the ThreadX port. *)
From Coq Require Import ZArith String List Bool Lia ZifyBool Arith.
From Verif Require Import Bytes BytesProofs Writer Macros Parse Threadx ThreadxSpec ThreadxProofs ThreadxRest.
Import ListNotations.
Open Scope Z_scope.

(** ** C124 *)

Lemma names_ok m maxlen room : maxlen <= room -> forall p l, linked m p l -> forall idx fuel, (length l <= fuel)%nat -> 0 <= idx ->
  names_loop fuel m p idx maxlen room = Ok (map (fun c => c_name (m c)) (ztake (maxlen - idx) l)).
Proof.
  intros R p l L. induction L as [|c l L IH]; intros idx fuel F I; [destruct fuel; cbn; unfold ztake; now rewrite firstn_nil|].
  cbn [length] in F. destruct fuel as [|fuel]; [lia|]. cbn [names_loop]. destruct (Z.ltb_spec idx maxlen).
  - destruct (Z.ltb_spec idx room); [|lia]. rewrite IH by lia. cbn [bind]. f_equal. unfold ztake. replace (Z.to_nat (maxlen - idx)) with (S (Z.to_nat (maxlen - (idx + 1)))) by lia. reflexivity.
  - unfold ztake. replace (Z.to_nat (maxlen - idx)) with 0%nat by lia. reflexivity.
Qed.

Lemma nodup_firstn : forall n (l : list nat), NoDup l -> NoDup (firstn n l).
Proof.
  induction n as [|n IH]; intros [|x l] H; cbn [firstn]; [constructor|constructor|constructor|]. inversion H; subst. constructor; [|now apply IH].
  intros I. apply H2. rewrite <- (firstn_skipn n l). apply in_app_iff. now left.
Qed.
(** The names of the tags in use, those registered last first, as many as there is room for; no more than
    what was announced is stored. *)
Theorem C124_names : forall fuel s l maxlen room, sound s l -> s_ready s = true -> (length l <= fuel)%nat -> maxlen <= room ->
  exists seen, get_tag_names fuel s true maxlen room = Ok (zlen seen, map (fun c => c_name (s_mem s c)) seen) /\
    zlen seen = Z.max 0 (Z.min maxlen (zlen l)) /\ NoDup seen /\ (forall c, In c seen -> 0 <= c_level (s_mem s c)) /\
    (zlen l <= maxlen -> forall c, 0 <= c_level (s_mem s c) -> In c seen).
Proof.
  intros fuel s l maxlen room (L & ND & _ & IN & _) R F H. exists (ztake maxlen l). unfold get_tag_names. rewrite R. cbn [negb].
  rewrite (names_ok _ _ _ H _ _ L) by lia. cbn [bind]. rewrite Z.sub_0_r. pose proof (zlen_nonneg l).
  split. { do 2 f_equal. unfold zlen. now rewrite map_length. }
  split. { unfold ztake, zlen in *. rewrite firstn_length. lia. }
  split. { now apply nodup_firstn. }
  split. { intros c I. apply IN. unfold ztake in I. rewrite <- (firstn_skipn (Z.to_nat maxlen) l). apply in_app_iff. now left. }
  intros M c I. rewrite ztake_all by lia. now apply IN.
Qed.
Theorem C124_names_none : forall fuel s lock maxlen room, s_ready s = false \/ lock = false -> get_tag_names fuel s lock maxlen room = Ok (0, []).
Proof. intros fuel s lock maxlen room [H|H]; unfold get_tag_names; rewrite H; [reflexivity|]. destruct (s_ready s); reflexivity. Qed.

(** The letter of a level, read back, is the level; so is its digit. *)
Theorem C124_letters : forall p, (2 <= p <= 7 -> parse_level (prio2char p) = p) /\ (p < 2 \/ 7 < p -> prio2char p = 32) /\ (0 <= p <= 7 -> parse_level (48 + p) = p) /\
  (forall c, 0 <= parse_level c <= 7).
Proof.
  intros p. split; [|split; [|split]].
  - intros H. assert (C : p = 2 \/ p = 3 \/ p = 4 \/ p = 5 \/ p = 6 \/ p = 7) by lia. destruct C as [->|[->|[->|[->|[->| ->]]]]]; reflexivity.
  - intros H. unfold prio2char. destruct (Z.ltb_spec p 0); [reflexivity|]. destruct (Z.gtb_spec p 7); [reflexivity|]. assert (C : p = 0 \/ p = 1) by lia. destruct C as [->| ->]; reflexivity.
  - intros H. unfold parse_level. replace ((48 <=? 48 + p) && (48 + p <=? 57)) with true by lia. replace (48 + p - 48) with p by lia. destruct (Z.gtb_spec p 7); lia.
  - intros c. unfold parse_level. destruct ((48 <=? c) && (c <=? 57)) eqn:D; [destruct (c - 48 >? 7) eqn:G; lia|].
    destruct ((65 <=? c) && (c <=? 90)) eqn:U; [|destruct (0 >? 7) eqn:?; lia].
    assert (K : In c (map (fun n => 65 + Z.of_nat n) (seq 0 26))).
    { apply in_map_iff. exists (Z.to_nat (c - 65)). split; [lia|]. apply in_seq. lia. }
    cbn [seq map In] in K. repeat (destruct K as [<-|K]; [vm_compute; split; discriminate|]). destruct K.
Qed.

(** Throttled messages: those printed are the texts given, enabled, and at least the delay apart, in units of the clock. *)
Definition sane (c : tcall) : Prop := 0 <= c_ms c < 2 ^ 32 /\ 0 <= c_now c < 2 ^ 63.
Lemma tx_later : forall l s, Forall sane l -> 0 <= t_last s < 2 ^ 63 -> forall j c x, nth_error l j = Some c -> nth_error (snd (tx_run s l)) j = Some (Some x) ->
  x = c_text c /\ t_last s + c_ms c <= c_now c /\ Z.land (c_prio c) 7 <= Macros.c_level c.
Proof.
  induction l as [|d l IH]; intros s F B j c x J E; [destruct j; discriminate|]. inversion F as [|? ? (D1 & D2) F']; subst. cbn [tx_run] in E.
  destruct (tx_throttle s d) as [s1 o] eqn:T. destruct (tx_run s1 l) as [s2 os] eqn:R. cbn [snd] in E.
  unfold tx_throttle, u64 in T. rewrite Z.mod_small in T by lia. destruct (Z.geb_spec (c_now d) (t_last s + c_ms d)) as [G|G].
  - assert (LS : t_last s1 = c_now d) by (destruct (negb (t_masked s =? 0)); injection T as <- _; reflexivity).
    destruct j as [|j]; cbn in J, E.
    + injection J as <-. injection E as ->. destruct (negb (t_masked s =? 0)); [discriminate|]. injection T as _ T. unfold enabled in T.
      destruct (Z.leb_spec (Z.land (c_prio d) 7) (Macros.c_level d)); [|discriminate]. injection T as <-. auto.
    + specialize (IH s1 F' ltac:(rewrite LS; lia) j c x J). rewrite R in IH. destruct (IH E) as (A1 & A2 & A3). rewrite LS in A2.
      assert (0 <= c_ms c). { apply nth_error_In in J. rewrite Forall_forall in F'. apply F' in J. destruct J. lia. } repeat split; auto; lia.
  - injection T as <- <-. destruct j as [|j]; cbn in J, E; [discriminate|]. specialize (IH (mkT (u32 (t_masked s + 1)) (t_last s)) F' B j c x J). rewrite R in IH. exact (IH E).
Qed.
Theorem C124_throttle_partial : forall l i j ci cj xi xj, Forall sane l -> (i < j)%nat ->
  nth_error l i = Some ci -> nth_error (snd (tx_run t_init l)) i = Some (Some xi) ->
  nth_error l j = Some cj -> nth_error (snd (tx_run t_init l)) j = Some (Some xj) ->
  xi = c_text ci /\ xj = c_text cj /\ Z.land (c_prio ci) 7 <= Macros.c_level ci /\ Z.land (c_prio cj) 7 <= Macros.c_level cj /\ c_now ci + c_ms cj <= c_now cj.
Proof.
  intros l i j ci cj xi xj F IJ Ci Xi Cj Xj. assert (B : 0 <= t_last t_init < 2 ^ 63) by (cbn; lia). revert B Xi Xj. generalize t_init. revert l i j Ci Cj F IJ.
  induction l as [|d l IH]; intros i j Ci Cj F IJ s B Xi Xj; [destruct i; discriminate|]. destruct j as [|j]; [lia|].
  inversion F as [|? ? (D1 & D2) F']; subst. cbn [tx_run] in *. destruct (tx_throttle s d) as [s1 o] eqn:T. destruct (tx_run s1 l) as [s2 os] eqn:R. cbn [snd nth_error] in *.
  assert (S1 : 0 <= t_last s1 < 2 ^ 63).
  { unfold tx_throttle in T. destruct (c_now d >=? _); [destruct (negb _)|]; injection T as <- _; cbn; lia. }
  destruct i as [|i]; cbn [nth_error] in *.
  - injection Ci as ->. injection Xi as ->.
    assert (L1 : t_last s1 = c_now ci /\ xi = c_text ci /\ Z.land (c_prio ci) 7 <= Macros.c_level ci).
    { unfold tx_throttle in T. destruct (c_now ci >=? _); [destruct (negb _)|]; try discriminate. injection T as <- T. unfold enabled in T.
      destruct (Z.leb_spec (Z.land (c_prio ci) 7) (Macros.c_level ci)); [|discriminate]. injection T as <-. auto. }
    destruct L1 as (L1 & -> & L2). pose proof (tx_later l s1 F' S1 j cj xj Cj) as X. rewrite R in X. destruct (X Xj) as (-> & X2 & X3). rewrite L1 in X2. auto.
  - specialize (IH i j Ci Cj F' ltac:(lia) s1 S1). rewrite R in IH. exact (IH Xi Xj).
Qed.
(** A message that is due after masked ones is not printed, and their number is forgotten. *)
Theorem C124_throttle_lost : forall s c1 c2, sane c1 -> sane c2 -> 0 <= t_last s < 2 ^ 63 -> 0 <= t_masked s < 2 ^ 32 - 1 ->
  c_now c1 < t_last s + c_ms c1 -> t_last s + c_ms c2 <= c_now c2 -> tx_run s [c1; c2] = (mkT 0 (c_now c2), [None; None]).
Proof.
  intros s c1 c2 (A1 & A2) (B1 & B2) L M N D. cbn [tx_run]. unfold tx_throttle at 1. unfold u64. rewrite Z.mod_small by lia. destruct (Z.geb_spec (c_now c1) (t_last s + c_ms c1)); [lia|].
  unfold tx_throttle, u64, u32. cbn [t_last t_masked]. rewrite Z.mod_small by lia. destruct (Z.geb_spec (c_now c2) (t_last s + c_ms c2)); [|lia]. rewrite Z.mod_small by lia.
  destruct (Z.eqb_spec (t_masked s + 1) 0); [lia|]. reflexivity.
Qed.
Theorem C124_throttle_refuted : exists c1 c2 c3, Forall sane [c1; c2; c3] /\ Forall (fun c => Z.land (c_prio c) 7 <= Macros.c_level c) [c1; c2; c3] /\
  c_now c1 + 1000 * c_ms c3 <= c_now c3 /\ snd (tx_run t_init [c1; c2; c3]) = [Some (c_text c1); None; None].
Proof.
  exists (mkTC 10 6 6 1000 [97]), (mkTC 10 6 6 1005 [98]), (mkTC 10 6 6 20000 [99]). split; [repeat constructor; cbn; lia|]. split; [repeat constructor; cbn; lia|].
  split; [cbn; lia|]. reflexivity.
Qed.
(** The delay is not in milliseconds if the clock of the system counts faster: [unit] per millisecond. *)
Theorem C124_unit_refuted : forall unit, 1 < unit < 2 ^ 31 -> exists c1 c2, c_ms c1 = 1000 /\ c_ms c2 = 1000 /\
  snd (tx_run t_init [c1; c2]) = [Some (c_text c1); Some (c_text c2)] /\ c_now c2 - c_now c1 < 1000 * unit.
Proof.
  intros un H. exists (mkTC 1000 6 6 1000 [97]), (mkTC 1000 6 6 2000 [98]). cbn [c_ms c_now]. split; [reflexivity|]. split; [reflexivity|]. split; [reflexivity|lia].
Qed.

(** While sharing starts, and after, whether it could be set up or not, a message goes somewhere: to the console, or to
    an output function that writes; in the end to one of them. *)
Theorem C124_init : forall created done_ todo, shd_init created = done_ ++ todo ->
  let r := fold_left apply done_ r_start in
  (r_console r = true \/ r_output r = true /\ r_shd r = true) /\
  (todo = [] -> r_console r = negb created /\ r_output r = created /\ r_shd r = created).
Proof.
  intros [|] d t E r; subst r; cbn [shd_init] in E.
  - destruct d as [|a [|b [|c [|? ?]]]]; cbn [app] in E; inversion E; subst; cbn; (split; [auto|]); intros X; subst; try discriminate; auto.
  - destruct d; [|discriminate]. cbn in E. subst t. cbn. auto.
Qed.

Example C124_names_ex : let s := mkSt true (fun c => match c with O => mkCookie [116] 6 None | S O => mkCookie [97] 3 (Some O) | _ => mkCookie [] (-1) None end) (Some 1%nat) in
  sound s [1; 0]%nat /\ get_tag_names 5 s true 10 10 = Ok (2, [[97]; [116]]) /\ get_tag_names 5 s true 1 1 = Ok (1, [[97]]).
Proof.
  split; [|split; reflexivity]. split; [repeat constructor|]. split; [repeat constructor; cbn; intuition discriminate|]. split; [reflexivity|]. split.
  - intros [|[|c]]; cbn; split; intros H; try lia; auto; destruct H as [H|[H|[]]]; discriminate.
  - intros [|[|c]]; cbn; lia.
Qed.
Example C124_throttle_ex : tx_run t_init [mkTC 10 6 6 1000 [97]; mkTC 10 6 6 1005 [98]; mkTC 10 6 6 1010 [99]; mkTC 10 6 6 1020 [100]] =
  (mkT 0 1020, [Some [97]; None; None; Some [100]]).
Proof. reflexivity. Qed.

Print Assumptions C124_names.
Print Assumptions C124_names_none.
Print Assumptions C124_letters.
Print Assumptions C124_throttle_partial.
Print Assumptions C124_throttle_lost.
Print Assumptions C124_throttle_refuted.
Print Assumptions C124_unit_refuted.
Print Assumptions C124_init.
