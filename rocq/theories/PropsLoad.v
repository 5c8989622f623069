(** Property C160: loading and unloading the driver. Vocabulary: LoadSpec.v; PropsRegistry.v ([reaches], [devs]). *)
From Coq Require Import ZArith String List Bool Lia ZifyBool Arith Permutation.
From Verif Require Import Bytes BytesProofs Registry PropsRegistry Load LoadSpec.
Import ListNotations.
Open Scope Z_scope.

(** When the kernel refuses nothing, the driver loads with a valid size, and takes nothing with another. *)
Theorem C160_load_partial : forall y pow2 t ret, k_vmalloc y = true -> k_reg y = 0 -> k_attr y = 0 -> load y pow2 = (t, ret) ->
  (14 <= pow2 <= 24 -> ret = 0 /\ after main_uses nothing t (mkHolds [MAIN] true [0]) /\
     exists s, ulogger_init pow2 = Some s /\ map d_name (devs (r_logs s)) = [MAIN] /\ r_live s = [0]) /\
  (~ 14 <= pow2 <= 24 -> ret < 0 /\ t = [] /\ ulogger_init pow2 = None).
Proof.
  intros y pow2 t ret V R A E. unfold load, ulogger_init in *. rewrite V, R, A in E. unfold check_buf_size in *.
  destruct ((14 <=? pow2) && (pow2 <=? 24)) eqn:C; cbn [negb Z.eqb app] in E; injection E as <- <-; (split; intros H; [|try lia]); try lia.
  - split; [reflexivity|]. split.
    + unfold nothing. apply memory. apply device; [intros []|]. apply attribute; [left; reflexivity|]. apply at_end.
    + eexists. split; [reflexivity|]. split; reflexivity.
  - split; [unfold EINVAL; lia|]. auto.
Qed.
Example C160_load_ex : load (mkKern true 0 0) 18 = ([Vmalloc 0 true; Register MAIN 0; Create 0], 0).
Proof. reflexivity. Qed.
(** A device that cannot be registered: the memory is not given back. *)
Theorem C160_register_refuted : exists y pow2 t ret, load y pow2 = (t, ret) /\ ret < 0 /\ after main_uses nothing t (mkHolds [] false [0]).
Proof.
  exists (mkKern true (-16) 0), 18. do 2 eexists. split; [reflexivity|]. split; [cbn; lia|]. unfold nothing. apply memory. apply no_device; [discriminate|]. apply at_end.
Qed.
(** An attribute that cannot be created: loading fails, so that the code goes, but the device stays. *)
Theorem C160_attribute_refuted : exists y pow2 t ret, load y pow2 = (t, ret) /\ ret < 0 /\ after main_uses nothing t (mkHolds [MAIN] false [0]).
Proof.
  exists (mkKern true 0 (-12)), 18. do 2 eexists. split; [reflexivity|]. split; [cbn; lia|]. unfold nothing. apply memory. apply device; [intros []|].
  apply no_attribute; [left; reflexivity|discriminate|]. apply at_end.
Qed.
(** No memory for the buffer: the driver loads, with a device that has none. *)
Theorem C160_memory_refuted : exists y pow2 t, load y pow2 = (t, 0) /\ after main_uses nothing t (mkHolds [MAIN] true []).
Proof.
  exists (mkKern false 0 0), 18. eexists. split; [reflexivity|]. unfold nothing. apply no_memory. apply device; [intros []|]. apply attribute; [left; reflexivity|]. apply at_end.
Qed.

(** ** Unloading *)
Definition blocks_ok (d : dev) : Prop := if d_main d then d_blocks d = [0] else exists n l b, d_blocks d = [n; l; b].
Lemma add_blocks s buf count a s' ret : ulogger_add_log s buf count a = Ok (s', ret) -> Forall blocks_ok (devs (r_logs s)) -> Forall blocks_ok (devs (r_logs s')).
Proof.
  unfold ulogger_add_log. intros H F. destruct (sscanf_spec buf) as [(nm & z)|]; [|assert (s' = s) by congruence; subst; exact F].
  destruct (negb (name_ok nm)); [assert (s' = s) by congruence; subst; exact F|]. destruct (negb (check_buf_size (s32 z))); [assert (s' = s) by congruence; subst; exact F|]. cbv zeta in H.
  destruct (negb (a_log a) || negb (a_buf a)) eqn:X; [injection H as <- _; exact F|]. destruct (negb (a_name a)) eqn:Y; [discriminate|].
  assert (a_log a = true /\ a_buf a = true /\ a_name a = true) as (A1 & A2 & A3) by (destruct (a_log a), (a_buf a), (a_name a); auto; discriminate). rewrite A1, A2, A3 in H.
  match type of H with context [find_slot ?x ?y ?z] => destruct (find_slot x y z) as [lg|] eqn:FS end; [|injection H as <- _; exact F].
  injection H as <- _. cbn [r_logs]. set (d := mkDev _ _ _ _) in FS. assert (D : blocks_ok d) by (unfold blocks_ok; cbn; eauto). clearbody d.
  revert lg FS. induction (r_logs s) as [|[d'|] r IH]; intros lg FS; cbn [find_slot] in FS; [discriminate| |].
  - destruct (bytes_eqb _ _); [discriminate|]. destruct (find_slot r d (a_reg a)) as [r'|]; [|discriminate]. injection FS as <-. cbn [devs flat_map app] in *. inversion F; subst. constructor; [assumption|]. apply IH; auto.
  - destruct (a_reg a); [|discriminate]. injection FS as <-. cbn [devs flat_map app] in *. constructor; assumption.
Qed.
Lemma run_blocks l : forall s s' rets, run s l = Ok (s', rets) -> Forall blocks_ok (devs (r_logs s)) -> Forall blocks_ok (devs (r_logs s')).
Proof.
  induction l as [|((buf, count), a) l IH]; intros s s' rets H F; cbn [run] in H; [injection H as <- _; exact F|].
  destruct (ulogger_add_log s buf count a) as [(s1, r1)|] eqn:E; [|discriminate]. cbn [bind fst snd] in H. destruct (run s1 l) as [(s2, r2)|] eqn:E2; [|discriminate]. cbn [bind fst] in H.
  injection H as <- _. eapply IH; [exact E2|]. eapply add_blocks; eauto.
Qed.
Lemma reaches_blocks pow2 l s rets : reaches pow2 l s rets -> Forall blocks_ok (devs (r_logs s)).
Proof.
  intros (s0 & H0 & H). eapply run_blocks; [exact H|]. unfold ulogger_init in H0. destruct (check_buf_size pow2); [|discriminate]. injection H0 as <-. cbn. constructor; [reflexivity|constructor].
Qed.

(** Unloading gives back everything, once, whatever devices were added; the attribute goes first, and memory
    only after the device that uses it. *)
Theorem C160_unload : forall pow2 l s rets, reaches pow2 l s rets ->
  after (fun n b => exists d, In d (devs (r_logs s)) /\ d_name d = n /\ In b (d_blocks d))
    (mkHolds (map d_name (devs (r_logs s))) true (r_live s)) (unload s) nothing.
Proof.
  intros pow2 l s rets R. pose proof (reaches_blocks _ _ _ _ R) as B. destruct (reaches_inv _ _ _ _ R) as (d & more & I & EM & _).
  destruct I as [(n & T & _) NN _ L Nd _ (d' & ds' & E & Hm & Hf)]. assert (d' = d /\ ds' = more) as (-> & ->) by (inversion E; auto). clear E.
  rewrite T, devs_table in B. inversion B as [|? ? B1 B2]; subst. unfold blocks_ok in B1. rewrite Hm in B1.
  set (us := fun n b => exists d, In d (devs (r_logs s)) /\ d_name d = n /\ In b (d_blocks d)).
  assert (US : forall d0 b, In d0 (d :: more) -> In b (d_blocks d0) -> forall d1, In d1 (d :: more) -> d_name d1 <> d_name d0 -> ~ us (d_name d1) b).
  { intros d0 b I0 Ib d1 I1 Nn (d2 & I2 & E2 & Ib2). rewrite T, devs_table in I2. rewrite L in Nd.
    assert (G : forall ds, NoDup (concat (map d_blocks ds)) -> forall x y, In x ds -> In y ds -> In b (d_blocks x) -> In b (d_blocks y) -> x = y).
    { induction ds as [|z ds IHd]; intros Nz x y Ix Iy Hx Hy; [destruct Ix|]. cbn [map concat] in Nz.
      assert (XX : forall w, In w ds -> In b (d_blocks w) -> In b (concat (map d_blocks ds))) by (intros w Iw Hw; apply in_concat; exists (d_blocks w); split; [apply in_map; exact Iw|exact Hw]).
      assert (NB : forall A (p q : list A), NoDup (p ++ q) -> forall x, In x p -> ~ In x q) by (intros A0 p; induction p as [|c p IHp]; intros q NP x0 Ip Iq; [destruct Ip|]; inversion NP; subst; destruct Ip as [->|Ip]; [apply H1; apply in_or_app; auto|eapply IHp; eauto]).
      assert (N2 : NoDup (concat (map d_blocks ds))) by (clear - Nz; induction (d_blocks z) as [|c p IHp]; [exact Nz|inversion Nz; subst; auto]).
      destruct Ix as [<-|Ix], Iy as [<-|Iy]; auto.
      - exfalso. apply (NB _ _ _ Nz b Hx). eapply XX; eauto.
      - exfalso. apply (NB _ _ _ Nz b Hy). eapply XX; eauto. }
    assert (d2 = d0) by (eapply G; eauto). subst d2. congruence. }
  rewrite T, devs_table, L. unfold unload. rewrite T. cbn [map app concat]. rewrite B1, EM. cbn [app]. fold MAIN.
  apply removed; [left; reflexivity|]. apply (deregistered us []); [reflexivity|]. cbn [app].
  cbn [map] in NN. rewrite EM in NN. inversion NN as [|? ? NM NN']; subst.
  apply (vfreed us _ _ []).
  { intros x Hx. apply in_map_iff in Hx. destruct Hx as (d1 & <- & I1). apply (US d 0); [left; reflexivity|rewrite B1; left; reflexivity|right; exact I1|]. rewrite EM. intros X. apply NM. rewrite <- X. apply in_map. exact I1. }
  cbn [app table map delete_logs]. rewrite Hm. cbn [app]. fold (table more n).
  assert (US2 : forall d0 b, In d0 more -> In b (d_blocks d0) -> forall d1, In d1 more -> d_name d1 <> d_name d0 -> ~ us (d_name d1) b) by (intros; apply (US d0 b); auto; right; auto).
  clear - Hf B2 NN' US2. revert Hf B2 NN' US2. induction more as [|x more IH]; intros Hf B2 NN US; unfold table in *; cbn [map app delete_logs concat].
  - destruct n; apply at_end.
  - inversion Hf; subst. inversion B2 as [|? ? Bx B3]; subst. unfold blocks_ok in Bx. rewrite H1 in Bx. destruct Bx as (bn & bl & bb & Bx). unfold delete_log. rewrite H1, Bx. cbn [app].
    cbn [map] in NN. inversion NN as [|? ? NX NN']; subst. apply (deregistered us []).
    { reflexivity. }
    cbn [app]. assert (F : forall b, In b [bn; bl; bb] -> forall y, In y (map d_name more) -> ~ us y b).
    { intros b Ib y Hy. apply in_map_iff in Hy. destruct Hy as (d1 & <- & I1). apply (US x b); [left; reflexivity|rewrite Bx; exact Ib|right; exact I1|]. intros X. apply NX. rewrite <- X. apply in_map. exact I1. }
    apply (vfreed us _ _ [bn; bl]); [apply F; cbn; auto|]. cbn [app]. apply (kfreed us _ _ []); [apply F; cbn; auto|]. cbn [app]. apply (kfreed us _ _ []); [apply F; cbn; auto|]. cbn [app].
    apply IH; auto. intros d0 b I0 Ib d1 I1. apply (US d0 b); cbn; auto.
Qed.
Example C160_unload_ex : exists s, reaches 18 [(bytes_of_string "ulog_cam 17" ++ [0], 11, mkA true true true true)] s [11] /\
  unload s = [Remove; Deregister MAIN; Vfree 0; Deregister (bytes_of_string "ulog_cam"); Vfree 3; Kfree 1; Kfree 2].
Proof. eexists. split; [eexists; split; [reflexivity|vm_compute; reflexivity]|vm_compute; reflexivity]. Qed.

Print Assumptions C160_load_partial.
Print Assumptions C160_register_refuted.
Print Assumptions C160_attribute_refuted.
Print Assumptions C160_memory_refuted.
Print Assumptions C160_unload.
