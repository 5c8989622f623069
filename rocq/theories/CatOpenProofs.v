(** Lemmas for C94 to C98. *)
From Coq Require Import ZArith String List Bool Lia ZifyBool ZifyNat Arith Permutation.
From Verif Require Import Bytes BytesProofs CatOpen CatOpenSpec.
Import ListNotations.
Open Scope Z_scope.

(** ** Descriptors *)
Lemma held_app t : forall l u, held l (t ++ u) = match held l t with Some l' => held l' u | None => None end.
Proof.
  induction t as [|e t IH]; intros l u; [reflexivity|]. destruct e; cbn [app held]; rewrite ?IH; try reflexivity.
  destruct (drop1 fd l); [apply IH|reflexivity].
Qed.
Lemma drop1_perm fd l r : Permutation l (fd :: r) -> exists l', drop1 fd l = Some l' /\ Permutation l' r.
Proof.
  revert r. induction l as [|x l IH]; intros r P; [apply Permutation_nil in P; discriminate|]. cbn [drop1]. destruct (Z.eqb_spec x fd) as [->|N].
  - exists l. split; [reflexivity|]. now apply Permutation_cons_inv in P.
  - assert (I : In fd l). { assert (X : In fd (x :: l)) by (eapply Permutation_in; [apply Permutation_sym; exact P|now left]). destruct X; [congruence|assumption]. }
    apply in_split in I. destruct I as (a & b & ->). destruct (IH (a ++ b)) as (l' & E & Q); [symmetry; apply Permutation_middle|]. rewrite E.
    exists (x :: l'). split; [reflexivity|]. rewrite Q. apply (Permutation_cons_inv (a := fd)). rewrite <- P. rewrite perm_swap. constructor. apply Permutation_middle.
Qed.
Lemma close_devs ds : forall l out, Permutation l (map d_fd ds ++ out) -> Forall (fun d => 0 <= d_fd d) ds ->
  exists l', held l (flat_map close_dev ds) = Some l' /\ Permutation l' out.
Proof.
  induction ds as [|d ds IH]; intros l out P F; [exists l; split; [reflexivity|exact P]|]. inversion_clear F as [|? ? F0 FR]. cbn [flat_map map app] in *. unfold close_dev.
  rewrite (proj2 (Z.leb_le _ _) F0). cbn [app held]. destruct (drop1_perm _ _ _ P) as (l1 & -> & P1). apply IH; assumption.
Qed.

(** ** The devices *)
Definition cut (name : list Z) : list Z := ztake 63 (file_of name).
Definition same (c c' : ctx) : Prop :=
  k_format c' = k_format c /\ k_flags c' = k_flags c /\ k_tail c' = k_tail c /\ k_fp c' = k_fp c /\ k_fd c' = k_fd c.
Record inv (out : list Z) (t0 t : list ev) (c : ctx) (ps : list (list Z)) : Prop := {
  i_held : exists u l, t = t0 ++ u /\ held out u = Some l /\ Permutation l (map d_fd (k_devs c) ++ out) /\ Forall2 (from u) (k_devs c) ps;
  i_pos : Forall (fun d => 0 <= d_fd d) (k_devs c);
  i_count : k_count c = zlen (k_devs c);
  i_idx : map d_idx (k_devs c) = map Z.of_nat (seq 0 (length (k_devs c))) }.

Lemma same_refl c : same c c.
Proof. repeat split. Qed.
Lemma same_trans a b c : same a b -> same b c -> same a c.
Proof. unfold same. intros (?&?&?&?&?) (?&?&?&?&?). repeat split; congruence. Qed.

Lemma from_app u v d p : from u d p -> from (u ++ v) d p.
Proof. unfold from. intros H. apply in_or_app. now left. Qed.
Lemma Forall2_app_r A B (R : A -> B -> Prop) l l' x y : Forall2 R l l' -> R x y -> Forall2 R (l ++ [x]) (l' ++ [y]).
Proof. intros H H0. apply Forall2_app; [exact H|]. constructor; [exact H0|constructor]. Qed.
Lemma Forall2_imp A B (R S : A -> B -> Prop) : (forall x y, R x y -> S x y) -> forall l l', Forall2 R l l' -> Forall2 S l l'.
Proof. intros H l l' F. induction F; constructor; auto. Qed.

(** A device that could be opened. *)
Lemma inv_add out t0 t c ps p fd c' path k m : inv out t0 t c ps -> 0 <= fd ->
  k_devs c' = k_devs c ++ [mkDev path fd (k_count c) k m] -> k_count c' = k_count c + 1 ->
  inv out t0 (t ++ [Open p false fd]) c' (ps ++ [p]).
Proof.
  intros [(u & l & -> & H & P & F) HP HC HI] Hfd Ed Ec. constructor.
  - exists (u ++ [Open p false fd]), (fd :: l). split; [now rewrite app_assoc|]. split; [rewrite held_app, H; cbn [held]; now rewrite (proj2 (Z.ltb_ge _ _) Hfd)|].
    split; [rewrite Ed, map_app; cbn [map d_fd]; rewrite <- app_assoc; cbn [app]; rewrite P; apply Permutation_middle|].
    rewrite Ed. apply Forall2_app_r; [eapply Forall2_imp; [|exact F]; intros x y; apply from_app|]. unfold from. apply in_or_app. right. now left.
  - rewrite Ed. apply Forall_app. split; [exact HP|]. constructor; [exact Hfd|constructor].
  - rewrite Ec, Ed, HC, zlen_app. reflexivity.
  - rewrite Ed, map_app, app_length, HI, HC. cbn [map length d_idx]. rewrite Nat.add_1_r, seq_S, map_app. reflexivity.
Qed.
(** A file that could be opened and closed again, or not opened. *)
Lemma inv_none out t0 t c ps p fd c' : inv out t0 t c ps -> k_devs c' = k_devs c -> k_count c' = k_count c ->
  inv out t0 ((t ++ [Open p false fd]) ++ (if 0 <=? fd then [Close fd] else [])) c' ps.
Proof.
  intros [(u & l & -> & H & P & F) HP HC HI] Ed Ec. constructor; rewrite ?Ed, ?Ec; try assumption.
  exists (u ++ [Open p false fd] ++ (if 0 <=? fd then [Close fd] else [])), l. split; [now rewrite !app_assoc|]. split; [|split; [exact P|]].
  - rewrite held_app, H. destruct (Z.leb_spec 0 fd) as [L|L]; cbn [app held].
    + rewrite (proj2 (Z.ltb_ge _ _) L). cbn [drop1]. now rewrite Z.eqb_refl.
    + now rewrite (proj2 (Z.ltb_lt _ _) L).
  - eapply Forall2_imp; [|exact F]. intros x y. apply from_app.
Qed.
Lemma inv_ext out t0 t c c' ps : inv out t0 t c ps -> k_devs c' = k_devs c -> k_count c' = k_count c -> inv out t0 t c' ps.
Proof. intros [A B C D] Ed Ec. constructor; rewrite ?Ed, ?Ec; assumption. Qed.

Lemma add_ulog_spec y out t0 t c ps name t' c' ret : add_ulog_device y t c name = (t', c', ret) -> inv out t0 t c ps ->
  same c c' /\ (ret = 0 /\ inv out t0 t' c' (ps ++ [cut name]) /\ k_ulogs c' = k_ulogs c + (if bytes_eqb name KMSGD then 0 else 1) \/ ret = -1 /\ inv out t0 t' c' ps).
Proof.
  unfold add_ulog_device, log_device_create. intros E I. destruct (y_alloc y t ADev).
  2:{ injection E as <- <- <-. split; [apply same_refl|]. right. auto. }
  fold (cut name) in E. set (fd := y_open y t (ztake 63 (bytes_of_string "/dev/ulog_" ++ name)) false) in *.
  change (ztake 63 (bytes_of_string "/dev/ulog_" ++ name)) with (cut name) in *. destruct (Z.ltb_spec fd 0) as [L|L].
  - unfold log_device_destroy, set_devs in E. cbn [k_format k_flags k_tail k_fp k_fd k_count k_ulogs k_devs k_nfds k_frames] in E. rewrite removelast_last in E.
    assert (t' = (t ++ [Open (cut name) false fd]) ++ (if 0 <=? fd then [Close fd] else [])) by congruence.
    assert (c' = mkCtx (k_format c) (k_flags c) (k_tail c) (k_fp c) (k_fd c) (k_count c + 1 - 1) (k_ulogs c) (k_devs c) (k_nfds c) (k_frames c)) by congruence.
    assert (ret = -1) by congruence. subst. clear E. split; [repeat split|]. right. split; [reflexivity|]. eapply inv_none; [exact I|reflexivity|cbn [k_count]; lia].
  - unfold set_last, set_devs in E. cbn [k_format k_flags k_tail k_fp k_fd k_count k_ulogs k_devs k_nfds k_frames] in E. rewrite removelast_last in E.
    set (m := y_len y (t ++ [Open (cut name) false fd]) fd) in *.
    set (pth := if bytes_eqb name KMSGD then bytes_of_string "/proc/kmsg" else cut name) in *. set (kd := if bytes_eqb name KMSGD then KKmsgd else KUlog) in *.
    set (ul := if bytes_eqb name KMSGD then k_ulogs c else k_ulogs c + 1) in *.
    destruct (m <? 0).
    + unfold log_device_destroy, set_devs in E. cbn [k_format k_flags k_tail k_fp k_fd k_count k_ulogs k_devs k_nfds k_frames] in E. rewrite removelast_last in E.
      assert (t' = (t ++ [Open (cut name) false fd]) ++ (if 0 <=? fd then [Close fd] else [])) by congruence.
      assert (c' = mkCtx (k_format c) (k_flags c) (k_tail c) (k_fp c) (k_fd c) (k_count c + 1 - 1) ul (k_devs c) (k_nfds c) (k_frames c)) by congruence.
      assert (ret = -1) by congruence. subst t' c' ret. clear E. split; [repeat split|]. right. split; [reflexivity|]. eapply inv_none; [exact I|reflexivity|cbn [k_count]; lia].
    + assert (t' = t ++ [Open (cut name) false fd]) by congruence.
      assert (c' = mkCtx (k_format c) (k_flags c) (k_tail c) (k_fp c) (k_fd c) (k_count c + 1) ul (k_devs c ++ [mkDev pth fd (k_count c + 1 - 1) kd m]) (k_nfds c) (k_frames c)) by congruence.
      assert (ret = 0) by congruence. subst t' c' ret. clear E. split; [repeat split|]. left. split; [reflexivity|]. split.
      * eapply inv_add; [exact I|exact L| |reflexivity]. cbn [k_devs]. now replace (k_count c + 1 - 1) with (k_count c) by lia.
      * cbn [k_ulogs]. unfold ul. destruct (bytes_eqb name KMSGD); lia.
Qed.

Lemma add_klog_spec y out t0 t c ps t' c' ret : add_klog_device y t c = (t', c', ret) -> inv out t0 t c ps ->
  same c c' /\ (ret = 0 /\ inv out t0 t' c' (ps ++ [bytes_of_string "/dev/kmsg"]) \/ ret = -1 /\ inv out t0 t' c' ps).
Proof.
  unfold add_klog_device, log_device_create. intros E I. destruct (y_alloc y t ADev).
  2:{ injection E as <- <- <-. split; [apply same_refl|]. right. auto. }
  remember (bytes_of_string "/dev/kmsg") as p. set (fd := y_open y t p false) in *.
  assert (HF : forall c', same c c' -> (let '(t1, c1) := log_device_destroy (t ++ [Open p false fd]) (set_devs c (k_count c + 1) (k_ulogs c) (k_devs c ++ [mkDev [] 0 (k_count c) KUlog 0])) fd in (t1, c1, -1)) = (t', c', ret) ->
    same c c' /\ (ret = 0 /\ inv out t0 t' c' (ps ++ [p]) \/ ret = -1 /\ inv out t0 t' c' ps)).
  { intros c1 S E1. unfold log_device_destroy, set_devs in E1. cbn [k_format k_flags k_tail k_fp k_fd k_count k_ulogs k_devs k_nfds k_frames] in E1. rewrite removelast_last in E1.
    split; [exact S|]. right. split; [congruence|].
    assert (t' = (t ++ [Open p false fd]) ++ (if 0 <=? fd then [Close fd] else [])) by congruence. subst t'.
    assert (c1 = mkCtx (k_format c) (k_flags c) (k_tail c) (k_fp c) (k_fd c) (k_count c + 1 - 1) (k_ulogs c) (k_devs c) (k_nfds c) (k_frames c)) by congruence. subst c1.
    eapply inv_none; [exact I|reflexivity|cbn [k_count]; lia]. }
  assert (HS : forall x, log_device_destroy (t ++ [Open p false fd]) (set_devs c (k_count c + 1) (k_ulogs c) (k_devs c ++ [mkDev [] 0 (k_count c) KUlog 0])) fd = (fst x, snd x) -> same c (snd x)).
  { intros (t1 & c1) E1. unfold log_device_destroy in E1. cbn [fst snd] in *. assert (c1 = set_devs (set_devs c (k_count c + 1) (k_ulogs c) (k_devs c ++ [mkDev [] 0 (k_count c) KUlog 0])) (k_count c + 1 - 1) (k_ulogs c) (removelast (k_devs c ++ [mkDev [] 0 (k_count c) KUlog 0]))) by (inversion E1; reflexivity).
    subst c1. repeat split. }
  assert (HG : (log_device_destroy (t ++ [Open p false fd]) (set_devs c (k_count c + 1) (k_ulogs c) (k_devs c ++ [mkDev [] 0 (k_count c) KUlog 0])) fd, -1) = (t', c', ret) ->
    same c c' /\ (ret = 0 /\ inv out t0 t' c' (ps ++ [p]) \/ ret = -1 /\ inv out t0 t' c' ps)).
  { intros E1. apply HF; [|now destruct (log_device_destroy _ _ _)]. apply (HS (t', c')). cbn [fst snd]. congruence. }
  destruct (Z.ltb_spec fd 0) as [L|L]; [apply HG, E|]. destruct (y_kread y (t ++ [Open p false fd])); cbn [negb] in E; [|apply HG, E].
  destruct (2 * y_ksize y <? 0); [apply HG, E|]. clear HF HS HG.
  unfold set_last, set_devs in E. cbn [k_format k_flags k_tail k_fp k_fd k_count k_ulogs k_devs k_nfds k_frames] in E. rewrite removelast_last in E.
  assert (t' = t ++ [Open p false fd]) by congruence. assert (ret = 0) by congruence.
  assert (c' = mkCtx (k_format c) (k_flags c) (k_tail c) (k_fp c) (k_fd c) (k_count c + 1) (k_ulogs c) (k_devs c ++ [mkDev p fd (k_count c + 1 - 1) KKlog (2 * y_ksize y)]) (k_nfds c) (k_frames c)) by congruence.
  clear E. subst t' c' ret. split; [repeat split|]. left. split; [reflexivity|]. eapply inv_add; [exact I|exact L| |reflexivity].
  cbn [k_devs]. now replace (k_count c + 1 - 1) with (k_count c) by lia.
Qed.

Lemma add_names_spec y out t0 : forall names t c ps t' c' ok, add_names y names t c = (t', c', ok) -> inv out t0 t c ps ->
  same c c' /\ (ok = true /\ inv out t0 t' c' (ps ++ map cut (asked names)) /\ k_ulogs c' = k_ulogs c + zlen (asked names) \/ ok = false /\ exists ps', inv out t0 t' c' ps').
Proof.
  induction names as [|n names IH]; intros t c ps t' c' ok E I; cbn [add_names asked filter] in *.
  - injection E as <- <- <-. split; [apply same_refl|]. left. split; [reflexivity|]. cbn [map]. rewrite app_nil_r. change (zlen (@nil (list Z))) with 0. split; [exact I|lia].
  - change (bytes_eqb n (bytes_of_string "kmsgd")) with (bytes_eqb n KMSGD). fold (asked names). destruct (bytes_eqb n KMSGD) eqn:K; cbn [negb]; [eapply IH; eassumption|].
    destruct (add_ulog_device y t c n) as ((t1 & c1) & r1) eqn:E1. destruct (add_ulog_spec _ _ _ _ _ _ _ _ _ _ E1 I) as (S & [(-> & I1 & U)|(-> & I1)]).
    + cbn [Z.eqb] in E. destruct (IH _ _ (ps ++ [cut n]) _ _ _ E I1) as (S2 & [(-> & I2 & U2)|(-> & I2)]); (split; [eapply same_trans; eassumption|]).
      * left. split; [reflexivity|]. cbn [map]. rewrite <- app_assoc in I2. split; [exact I2|]. rewrite U2, U, K, zlen_cons. lia.
      * right. auto.
    + cbn [Z.eqb] in E. injection E as <- <- <-. split; [exact S|]. right. eauto.
Qed.

(** The names the file logs gives. *)
Definition named (bufs : list (list Z)) : list (list Z) := flat_map (fun b => match log_name b with Some n => [n] | None => [] end) bufs.
Lemma add_listed_spec y out t0 : forall bufs t c ps t' c' ret, add_listed y bufs t c 0 = (t', c', ret) -> inv out t0 t c ps ->
  same c c' /\ (ret = 0 /\ inv out t0 t' c' (ps ++ map cut (asked (named bufs))) \/ ret = -1 /\ exists ps', inv out t0 t' c' ps').
Proof.
  induction bufs as [|b bufs IH]; intros t c ps t' c' ret E I; cbn [add_listed named flat_map] in *.
  - injection E as <- <- <-. split; [apply same_refl|]. left. split; [reflexivity|]. cbn [asked filter map]. rewrite app_nil_r. exact I.
  - fold (named bufs). destruct (log_name b) as [n|]; cbn [app]; [|eapply IH; eassumption]. cbn [asked filter]. fold (asked (named bufs)).
    change (bytes_eqb n (bytes_of_string "kmsgd")) with (bytes_eqb n KMSGD). destruct (bytes_eqb n KMSGD) eqn:K; cbn [negb]; [cbn [Z.eqb] in E; eapply IH; eassumption|].
    destruct (add_ulog_device y t c n) as ((t1 & c1) & r1) eqn:E1. destruct (add_ulog_spec _ _ _ _ _ _ _ _ _ _ E1 I) as (S & [(-> & I1 & U)|(-> & I1)]).
    + cbn [Z.eqb] in E. destruct (IH _ _ _ _ _ _ E I1) as (S2 & [(-> & I2)|(-> & I2)]); (split; [eapply same_trans; eassumption|]).
      * left. split; [reflexivity|]. cbn [map]. rewrite <- app_assoc in I2. exact I2.
      * right. auto.
    + cbn [Z.eqb] in E. injection E as <- <- <-. split; [exact S|]. right. eauto.
Qed.
Definition all_names (y : sys) : list (list Z) := match y_logs y with Some text => asked (named (fgets_all 31 30 [] text)) | None => [bytes_of_string "main"] end.
Lemma add_all_spec y out t0 t c ps t' c' ret : add_all_ulog_devices y t c = (t', c', ret) -> inv out t0 t c ps ->
  same c c' /\ (ret = 0 /\ inv out t0 t' c' (ps ++ map cut (all_names y)) \/ ret = -1 /\ exists ps', inv out t0 t' c' ps').
Proof.
  unfold add_all_ulog_devices, all_names. intros E I. destruct (y_logs y) as [text|]; [eapply add_listed_spec; eassumption|].
  destruct (add_ulog_spec _ _ _ _ _ _ _ _ _ _ E I) as (S & [(-> & I1 & U)|(-> & I1)]); (split; [exact S|]); [left; auto|right; eauto].
Qed.

(** ** Closing *)
Lemma close_all t0 t c ps o : o_fd o = k_fd c -> inv (output (o_fd o)) t0 t c ps -> exists u, t = t0 ++ u /\ held (output (o_fd o)) (u ++ ulogcat3_close c) = Some [].
Proof.
  intros Ho [(u & l & -> & H & P & F) HP HC HI]. exists u. split; [reflexivity|]. rewrite held_app, H. unfold ulogcat3_close. rewrite held_app.
  destruct (close_devs (k_devs c) l (output (o_fd o)) P HP) as (l' & -> & Q). unfold output in *. rewrite Ho in *. destruct (Z.ltb_spec (k_fd c) 0) as [L|L].
  - replace (0 <=? k_fd c) with false by (clear - L; lia). symmetry in Q. apply Permutation_nil in Q. subst l'. destruct (k_fp c); reflexivity.
  - replace (0 <=? k_fd c) with true by (clear - L; lia). symmetry in Q. apply Permutation_length_1_inv in Q. subst l'. cbn [app held drop1]. rewrite Z.eqb_refl. destruct (k_fp c); reflexivity.
Qed.

(** ** Opening *)
Definition opened (o : opts) (y : sys) (names ps : list (list Z)) : Prop := exists ks,
  ps = map cut (match asked names with [] => if has (o_flags o) FLAG_ULOG then all_names y else [] | _ => asked names end) ++ ks /\ kernel_file (has (o_flags o) FLAG_KLOG) ks.
Definition taken (o : opts) (c : ctx) : Prop :=
  k_format c = o_format o /\ k_flags c = o_flags o /\ k_tail c = s32 (o_tail o) /\ k_fd c = o_fd o /\ k_fp c = (if (o_fd o <? 0) && (match o_fp o with None => true | Some _ => false end) then Some 1 else o_fp o).
Lemma open_spec y t0 o names t r : ulogcat3_open y t0 o names = (t, r) ->
  match r with
  | None => y_alloc y t0 ACtx = false /\ t = t0 \/ exists u, t = t0 ++ u /\ held (output (o_fd o)) u = Some []
  | Some c => exists ps, inv (output (o_fd o)) t0 t c ps /\ opened o y names ps /\ taken o c /\ numbered c /\ k_devs c <> [] /\ k_frames c = s32 (s32 (o_tail o) + zlen (k_devs c) + 1) /\ 0 <= k_frames c
  end.
Proof.
  unfold ulogcat3_open. intros E. destruct (y_alloc y t0 ACtx) eqn:A; cbn [negb] in E; [|injection E as <- <-; left; auto].
  set (fp := if (o_fd o <? 0) && (match o_fp o with None => true | Some _ => false end) then Some 1 else o_fp o) in *.
  set (c0 := mkCtx (o_format o) (o_flags o) (s32 (o_tail o)) fp (o_fd o) 0 0 [] 0 0) in *.
  assert (I0 : inv (output (o_fd o)) t0 t0 c0 []).
  { constructor; try reflexivity; [|constructor]. exists [], (output (o_fd o)). split; [now rewrite app_nil_r|]. split; [reflexivity|]. split; [reflexivity|constructor]. }
  assert (HF : forall t1 c1 ps, same c0 c1 -> inv (output (o_fd o)) t0 t1 c1 ps -> (t1 ++ ulogcat3_close c1, None) = (t, r) ->
    match r with None => true = false /\ t = t0 \/ exists u, t = t0 ++ u /\ held (output (o_fd o)) u = Some [] | Some c => False end).
  { intros t1 c1 ps (_ & _ & _ & _ & S) I1 E1. injection E1 as <- <-. right. destruct (close_all t0 t1 c1 ps o) as (u & -> & H); [symmetry; exact S|exact I1|]. exists (u ++ ulogcat3_close c1). split; [now rewrite app_assoc|exact H]. }
  assert (HG : forall t1 c1 ps, same c0 c1 -> inv (output (o_fd o)) t0 t1 c1 ps -> (t1 ++ ulogcat3_close c1, None) = (t, r) ->
    match r with
    | None => true = false /\ t = t0 \/ exists u, t = t0 ++ u /\ held (output (o_fd o)) u = Some []
    | Some c => exists ps, inv (output (o_fd o)) t0 t c ps /\ opened o y names ps /\ taken o c /\ numbered c /\ k_devs c <> [] /\ k_frames c = s32 (s32 (o_tail o) + zlen (k_devs c) + 1) /\ 0 <= k_frames c
    end). { intros t1 c1 ps S I1 E1. pose proof (HF t1 c1 ps S I1 E1) as X. destruct r; [destruct X|exact X]. }
  clear HF. destruct (add_names y names t0 c0) as ((t1 & c1) & ok) eqn:E1. destruct (add_names_spec _ _ _ _ _ _ _ _ _ _ E1 I0) as (S1 & [(-> & I1 & U1)|(-> & ps & I1)]); cbn [negb] in E.
  2:{ eapply HG; eassumption. }
  destruct (if (k_ulogs c1 =? 0) && has (k_flags c1) FLAG_ULOG then add_all_ulog_devices y t1 c1 else (t1, c1, 0)) as ((t2 & c2) & r2) eqn:E2.
  assert (X2 : same c0 c2 /\ (r2 = 0 /\ inv (output (o_fd o)) t0 t2 c2 (map cut (match asked names with [] => if has (o_flags o) FLAG_ULOG then all_names y else [] | _ => asked names end)) \/ r2 = -1 /\ exists ps', inv (output (o_fd o)) t0 t2 c2 ps')).
  { change (k_ulogs c0) with 0 in U1. assert (Fl : k_flags c1 = o_flags o) by (destruct S1 as (_ & F & _); rewrite F; reflexivity). rewrite Fl, U1 in E2. cbn [app] in I1.
    destruct (asked names) as [|a l] eqn:EA.
    - change (0 + zlen (@nil (list Z)) =? 0) with true in E2. cbn [andb] in E2. destruct (has (o_flags o) FLAG_ULOG).
      + destruct (add_all_spec _ _ _ _ _ _ _ _ _ E2 I1) as (S2 & [(-> & I2)|(-> & I2)]); (split; [eapply same_trans; eassumption|]); [left; auto|right; auto].
      + injection E2 as <- <- <-. split; [exact S1|]. left. auto.
    - replace (0 + zlen (a :: l) =? 0) with false in E2 by (rewrite zlen_cons; pose proof (zlen_nonneg l); lia). cbn [andb] in E2. injection E2 as <- <- <-. split; [exact S1|]. left. auto. }
  destruct X2 as (S2 & [(-> & I2)|(-> & ps & I2)]); cbn [Z.eqb negb] in E; [|eapply HG; eassumption]. clear E1 E2 I1 S1 U1 I0.
  set (ps := map cut (match asked names with [] => if has (o_flags o) FLAG_ULOG then all_names y else [] | _ => asked names end)) in *.
  destruct (if has (k_flags c2) FLAG_KLOG then let '(t3, c3, ret) := add_klog_device y t2 c2 in if ret =? 0 then (t3, c3, 0) else add_ulog_device y t3 c3 KMSGD else (t2, c2, 0)) as ((t3 & c3) & r3) eqn:E3.
  assert (X3 : same c0 c3 /\ (r3 = 0 /\ (exists ks, inv (output (o_fd o)) t0 t3 c3 (ps ++ ks) /\ kernel_file (has (o_flags o) FLAG_KLOG) ks) \/ r3 = -1 /\ exists ps', inv (output (o_fd o)) t0 t3 c3 ps')).
  { assert (Fl : k_flags c2 = o_flags o) by (destruct S2 as (_ & F & _); rewrite F; reflexivity). rewrite Fl in E3. destruct (has (o_flags o) FLAG_KLOG).
    - destruct (add_klog_device y t2 c2) as ((t4 & c4) & r4) eqn:E4. destruct (add_klog_spec _ _ _ _ _ _ _ _ _ E4 I2) as (S4 & [(-> & I4)|(-> & I4)]); cbn [Z.eqb] in E3.
      + injection E3 as <- <- <-. split; [eapply same_trans; eassumption|]. left. split; [reflexivity|]. eexists. split; [exact I4|]. left. reflexivity.
      + destruct (add_ulog_spec _ _ _ _ _ _ _ _ _ _ E3 I4) as (S5 & [(-> & I5 & _)|(-> & I5)]); (split; [eapply same_trans; [exact S2|]; eapply same_trans; eassumption|]).
        * left. split; [reflexivity|]. eexists. split; [exact I5|]. right. reflexivity.
        * right. eauto.
    - injection E3 as <- <- <-. split; [exact S2|]. left. split; [reflexivity|]. exists []. rewrite app_nil_r. split; [exact I2|reflexivity]. }
  destruct X3 as (S3 & [(-> & ks & I3 & K3)|(-> & ps' & I3)]); cbn [Z.eqb negb] in E; [|eapply HG; eassumption]. clear E3.
  destruct (Z.eqb_spec (k_count c3) 0) as [C0|C0]; [eapply HG; eassumption|]. destruct (y_alloc y t3 AFds); cbn [negb] in E; [|eapply HG; eassumption].
  destruct (y_alloc y t3 ARender); cbn [negb] in E; [|eapply HG; eassumption]. set (nf := s32 (k_tail c3 + k_count c3 + 1)) in *.
  destruct (Z.ltb_spec nf 0) as [L|L]; cbn [orb] in E; [eapply HG; eassumption|]. destruct (y_alloc y t3 (AFrames nf)); cbn [negb] in E; [|eapply HG; eassumption]. clear HG.
  assert (t = t3) by congruence. assert (r = Some (mkCtx (k_format c3) (k_flags c3) (k_tail c3) (k_fp c3) (k_fd c3) (k_count c3) (k_ulogs c3) (k_devs c3) (k_count c3) nf)) by congruence. clear E. subst t r.
  destruct S3 as (F1 & F2 & F3 & F4 & F5). pose proof (i_count _ _ _ _ _ I3) as HC.
  exists (ps ++ ks). split; [eapply inv_ext; [exact I3|reflexivity|reflexivity]|]. split; [exists ks; auto|]. split; [repeat split; assumption|].
  split; [split; [exact (i_idx _ _ _ _ _ I3)|]; cbn [k_nfds k_count k_devs]; auto|]. cbn [k_devs k_frames]. split; [intros X; apply C0; rewrite HC, X; reflexivity|].
  split; [|exact L]. unfold nf. rewrite F3, HC. reflexivity.
Qed.

(** ** Clearing *)
Lemma clear_buffer_held y t d t' ret : clear_buffer y t d = (t', ret) -> exists u, t' = t ++ u /\ (forall l, 0 <= ret -> held l u = Some l) /\ (forall l, held l u = Some l) /\
  (0 <= ret -> match d_kind d with KKlog => kernel_emptied u | _ => emptied u (d_path d) end).
Proof.
  assert (Hu : forall y t d t' ret, (let fd := y_open y t (d_path d) true in let t := t ++ [Open (d_path d) true fd] in if fd <? 0 then (t, -1) else let ret := y_flush y t fd in (t ++ [Flush fd ret; Close fd], ret)) = (t', ret) ->
    exists u, t' = t ++ u /\ (forall l, held l u = Some l) /\ (0 <= ret -> emptied u (d_path d))).
  { clear. intros y t d t' ret E. cbv zeta in E. destruct (Z.ltb_spec (y_open y t (d_path d) true) 0) as [L|L].
    - injection E as <- <-. eexists. split; [reflexivity|]. split; [intros l; cbn [held]; now rewrite (proj2 (Z.ltb_lt _ _) L)|lia].
    - set (fd := y_open y t (d_path d) true) in *. set (r := y_flush _ _ _) in *. injection E as <- <-. rewrite <- app_assoc. eexists. split; [reflexivity|]. split.
      + intros l. cbn [app held]. rewrite (proj2 (Z.ltb_ge _ _) L). cbn [drop1]. now rewrite Z.eqb_refl.
      + intros HR. exists fd, r. cbn [app]. repeat split; try assumption; [now left|right; now left]. }
  unfold clear_buffer. destruct (d_kind d); intros E; try (destruct (Hu _ _ _ _ _ E) as (u & A & B & C); exists u; auto; fail).
  injection E as <- <-. eexists. split; [reflexivity|]. split; [reflexivity|]. split; [reflexivity|]. intros HR. exists (y_kclear y t). split; [now left|exact HR].
Qed.
Lemma emptied_app u v w p : emptied v p -> emptied (u ++ v ++ w) p.
Proof. intros (fd & r & A & B & C). exists fd, r. rewrite !in_app_iff. auto. Qed.
Lemma kernel_emptied_app u v w : kernel_emptied v -> kernel_emptied (u ++ v ++ w).
Proof. intros (r & A & C). exists r. rewrite !in_app_iff. auto. Qed.
Lemma clear_devs_spec y : forall l t ret0 t' ret, clear_devs y t l ret0 = (t', ret) -> exists u, t' = t ++ u /\ (forall h, held h u = Some h) /\
  (0 <= ret0 -> 0 <= ret -> Forall (fun d => match d_kind d with KKlog => kernel_emptied u | _ => emptied u (d_path d) end) l).
Proof.
  induction l as [|d l IH]; intros t ret0 t' ret E; cbn [clear_devs] in E; [injection E as <- <-; exists []; rewrite app_nil_r; split; [reflexivity|]; split; [reflexivity|constructor]|].
  destruct (clear_buffer y t d) as (t1 & r1) eqn:E1. destruct (clear_buffer_held _ _ _ _ _ E1) as (u & -> & _ & H & X). destruct (Z.ltb_spec r1 0) as [L|L].
  - injection E as <- <-. exists u. split; [reflexivity|]. split; [exact H|lia].
  - destruct (IH _ _ _ _ E) as (v & -> & H2 & F). exists (u ++ v). split; [now rewrite app_assoc|]. split; [intros h; rewrite held_app, H; apply H2|].
    intros R0 R. specialize (F L R). constructor.
    + specialize (X L). destruct (d_kind d); [apply (emptied_app [] u v)|apply (emptied_app [] u v)|apply (kernel_emptied_app [] u v)]; exact X.
    + eapply Forall_impl; [|exact F]. intros x Y. revert Y. replace (u ++ v) with (u ++ v ++ []) by now rewrite app_nil_r. destruct (d_kind x); intros Y; [now apply emptied_app|now apply emptied_app|now apply kernel_emptied_app].
Qed.
