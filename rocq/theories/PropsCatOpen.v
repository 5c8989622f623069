(** Opening, clearing and closing of the log reader, its old interface and its options: properties C94 to
    C98. *)
From Coq Require Import ZArith String List Bool Lia ZifyBool ZifyNat Arith Permutation.
From Verif Require Import Bytes BytesProofs KlogSpec KlogProofs RenderProofs Registry PropsRegistry.
From Verif Require PropsUlogger.
From Verif Require Import CatOpen CatOpenSpec CatOpenProofs.
Import ListNotations.
Open Scope Z_scope.

(** ** The list of the driver *)
Lemma fgets_all_line : forall a cur k r, ~ In 10 a -> (length a <= k)%nat -> fgets_all 31 k cur (a ++ 10 :: r) = (cur ++ a ++ [10]) :: fgets_all 31 30 [] r.
Proof.
  induction a as [|c a IH]; intros cur k r N L; [reflexivity|]. cbn [app fgets_all length] in *. assert (c <> 10) by (intros ->; apply N; now left).
  replace ((c =? 10) || Nat.eqb k 0) with false by (clear - H L; lia). rewrite IH; [now rewrite <- app_assoc|intros X; apply N; now right|lia].
Qed.
Lemma fgets_all_lines : forall ls, Forall (fun l => exists a, l = a ++ [10] /\ ~ In 10 a /\ (length a <= 30)%nat) ls -> fgets_all 31 30 [] (concat ls) = ls.
Proof.
  induction ls as [|l ls IH]; intros F; [reflexivity|]. inversion_clear F as [|? ? (a & -> & N & L) FR]. cbn [concat]. rewrite <- app_assoc. cbn [app].
  rewrite fgets_all_line by assumption. now rewrite IH.
Qed.
Lemma strchr_first n r : ~ In 32 n -> strchr 32 (n ++ 32 :: r) = Some (length n).
Proof.
  induction n as [|c n IH]; intros N; [reflexivity|]. cbn [app strchr length]. destruct (Z.eqb_spec c 32) as [->|X]; [exfalso; apply N; now left|]. rewrite IH; [reflexivity|intros Y; apply N; now right].
Qed.
Lemma valid_chars n c : valid_name n -> In c n -> c <> 0 /\ c <> 10 /\ c <> 32.
Proof. intros V H. pose proof (valid_no_space n V) as F. rewrite Forall_forall in F. destruct (F c H) as (S & Z0). unfold isspace in S. lia. Qed.
Lemma valid_log d : valid_name (d_name d) -> valid_size (d_size d) -> 14 <= Z.log2 (d_size d) <= 24.
Proof.
  intros _ (k & -> & B). assert (0 <= k). { destruct (Z.leb_spec 0 k) as [?|Hk]; [assumption|]. rewrite (Z.pow_neg_r 2 k Hk) in B. lia. }
  rewrite Z.log2_pow2 by assumption. change 16384 with (2 ^ 14) in B. change 16777216 with (2 ^ 24) in B. split; apply (Z.pow_le_mono_r_iff 2); lia.
Qed.
Lemma line_split d : valid_name (d_name d) -> valid_size (d_size d) -> exists a, line d = a ++ [10] /\ ~ In 10 a /\ (length a <= 30)%nat.
Proof.
  intros V S. exists (d_name d ++ [32] ++ dec_u (Z.log2 (d_size d))). pose proof (valid_log d V S) as B. unfold line. split; [now rewrite <- !app_assoc|]. split.
  - rewrite !in_app_iff. intros [X|[[X|[]]|X]]; [destruct (valid_chars _ _ V X); tauto|discriminate|]. unfold dec_u in X. apply dec_digits_range in X; lia.
  - destruct V as (l & E & L & _). rewrite E, !app_length. change (length (bytes_of_string "ulog_")) with 5%nat. change (length [32]) with 1%nat.
    pose proof (dec_digits_len 20 (Z.log2 (d_size d)) 2 ltac:(cbn; lia) ltac:(lia)). unfold dec_u, zlen in *. lia.
Qed.
Lemma log_name_line d : valid_name (d_name d) -> valid_size (d_size d) -> log_name (line d) = Some (zdrop 5 (d_name d)).
Proof.
  intros V S. pose proof (valid_log d V S) as B. unfold log_name, line. cbn [app].
  assert (N : ~ In 0 (d_name d ++ 32 :: dec_u (Z.log2 (d_size d)) ++ [10])).
  { rewrite in_app_iff. cbn [In]. rewrite in_app_iff. cbn [In]. intros [X|[X|[X|[X|[]]]]]; [destruct (valid_chars _ _ V X); tauto|discriminate| |discriminate]. unfold dec_u in X. apply dec_digits_range in X; lia. }
  rewrite cstr_id by exact N. rewrite strchr_first by (intros X; destruct (valid_chars _ _ V X) as (_ & _ & ?); tauto).
  assert (L5 : 5 < zlen (d_name d ++ 32 :: dec_u (Z.log2 (d_size d)) ++ [10])).
  { rewrite zlen_app, zlen_cons, zlen_app. destruct V as (l & E & _). rewrite E, zlen_app. change (zlen (bytes_of_string "ulog_")) with 5. change (zlen [10]) with 1. pose proof (zlen_nonneg l). pose proof (zlen_nonneg (dec_u (Z.log2 (d_size d)))). lia. }
  rewrite (proj2 (Z.ltb_lt _ _) L5). rewrite firstn_app, Nat.sub_diag, firstn_all. cbn [firstn]. rewrite app_nil_r. f_equal.
  destruct V as (l & E & Ll & F). rewrite E. rewrite <- app_assoc. rewrite !zdrop_app_exact by reflexivity. apply cstr_app_nul. intros X. rewrite Forall_forall in F. specialize (F 0 X). unfold lower in F. lia.
Qed.
Lemma named_lines ds : Forall (fun d => valid_name (d_name d) /\ valid_size (d_size d)) ds -> named (map line ds) = map (fun d => zdrop 5 (d_name d)) ds.
Proof. induction 1 as [|d ds (V & S) F IH]; [reflexivity|]. cbn [map named flat_map]. rewrite log_name_line by assumption. cbn [app]. f_equal. exact IH. Qed.
(** The names of the logs the driver has. *)
Definition log_names (s : reg) : list (list Z) := map (fun d => zdrop 5 (d_name d)) (devs (r_logs s)).
Lemma all_names_reg y pow2 l s rets : reaches pow2 l s rets -> y_logs y = Some (ulogger_show_logs s) -> all_names y = asked (log_names s).
Proof.
  intros R E. unfold all_names. rewrite E. destruct (C17_list _ _ _ _ R) as (-> & _). destruct (C17_consistent _ _ _ _ R) as (_ & F & _).
  rewrite fgets_all_lines; [now rewrite named_lines|]. apply Forall_forall. intros x H. apply in_map_iff in H. destruct H as (d & <- & Hd). rewrite Forall_forall in F. destruct (F d Hd). now apply line_split.
Qed.
Lemma log_names_short s pow2 l rets n : reaches pow2 l s rets -> In n (log_names s) -> zlen n <= 53.
Proof.
  intros R H. unfold log_names in H. apply in_map_iff in H. destruct H as (d & <- & Hd). destruct (C17_consistent _ _ _ _ R) as (_ & F & _). rewrite Forall_forall in F. destruct (F d Hd) as ((x & E & L & _) & _).
  rewrite E. rewrite zdrop_app_exact by reflexivity. lia.
Qed.
Lemma cut_short n : zlen n <= 53 -> cut n = file_of n.
Proof. intros H. unfold cut. apply ztake_all. unfold file_of. rewrite zlen_app. change (zlen (bytes_of_string "/dev/ulog_")) with 10. lia. Qed.
Lemma map_cut l : Forall (fun n => zlen n <= 53) l -> map cut l = map file_of l.
Proof. induction 1; [reflexivity|]. cbn [map]. now rewrite cut_short, IHForall. Qed.
Lemma asked_short l : Forall (fun n => zlen n <= 53) l -> Forall (fun n => zlen n <= 53) (asked l).
Proof. intros F. rewrite Forall_forall in *. intros x H. apply filter_In in H. apply F, H. Qed.

(** ** C94 *)

(** With names, the devices of these names are opened, in order, then the kernel log if it is wanted. *)
Theorem C94_named_partial : forall y t0 o names t c, ulogcat3_open y t0 o names = (t, Some c) -> asked names <> [] -> Forall (fun n => zlen n <= 53) names ->
  exists u ks, t = t0 ++ u /\ Forall2 (from u) (k_devs c) (map file_of (asked names) ++ ks) /\ kernel_file (has (o_flags o) FLAG_KLOG) ks.
Proof.
  intros y t0 o names t c E HA HL. destruct (open_spec _ _ _ _ _ _ E) as (ps & I & (ks & -> & K) & _). destruct I as [(u & l & Et & _ & _ & F) _ _ _]. exists u, ks. split; [exact Et|]. split; [|exact K].
  rewrite <- map_cut by now apply asked_short. destruct (asked names); [congruence|exact F].
Qed.
(** Without names but with the flag for the logs, all the logs of the driver. *)
Theorem C94_all : forall y t0 o t c pow2 l s rets, reaches pow2 l s rets -> y_logs y = Some (ulogger_show_logs s) ->
  ulogcat3_open y t0 o [] = (t, Some c) -> has (o_flags o) FLAG_ULOG = true ->
  exists u ks, t = t0 ++ u /\ Forall2 (from u) (k_devs c) (map file_of (asked (log_names s)) ++ ks) /\ kernel_file (has (o_flags o) FLAG_KLOG) ks.
Proof.
  intros y t0 o t c pow2 l s rets R EL E HU. destruct (open_spec _ _ _ _ _ _ E) as (ps & I & (ks & -> & K) & _). destruct I as [(u & l' & Et & _ & _ & F) _ _ _]. exists u, ks. split; [exact Et|]. split; [|exact K].
  cbn [asked filter] in F. rewrite HU, (all_names_reg y _ _ _ _ R EL) in F. rewrite <- map_cut; [exact F|]. apply asked_short. apply Forall_forall. intros x. eapply log_names_short. exact R.
Qed.
(** Each device has its place in the array given to poll, and the pool has the frames of C42. *)
Theorem C94_places : forall y t0 o names t c, ulogcat3_open y t0 o names = (t, Some c) -> numbered c /\ k_devs c <> [] /\
  (0 <= o_tail o -> o_tail o + zlen (k_devs c) + 1 < 2 ^ 31 -> k_tail c = o_tail o /\ k_frames c = o_tail o + zlen (k_devs c) + 1).
Proof.
  intros y t0 o names t c E. destruct (open_spec _ _ _ _ _ _ E) as (ps & I & _ & (_ & _ & T & _) & N & D & F & _). split; [exact N|]. split; [exact D|]. intros H0 H1.
  pose proof (zlen_nonneg (k_devs c)). rewrite F, T, (PropsUlogger.s32_nat (o_tail o)) by lia. split; [reflexivity|]. apply PropsUlogger.s32_nat. lia.
Qed.

Lemma add_ulog_ok y t c n : generous y -> exists t' c', add_ulog_device y t c n = (t', c', 0).
Proof.
  intros [G1 G2 G3 G4 G5]. unfold add_ulog_device, log_device_create. rewrite G3. set (p := ztake 63 (bytes_of_string "/dev/ulog_" ++ n)). rewrite (proj2 (Z.ltb_ge _ _) (G1 t p false)).
  rewrite (proj2 (Z.ltb_ge _ _) (G2 (t ++ [Open p false (y_open y t p false)]) (y_open y t p false))). eauto.
Qed.
Lemma add_names_ok y : generous y -> forall names t c, exists t' c', add_names y names t c = (t', c', true).
Proof.
  intros G. induction names as [|n names IH]; intros t c; cbn [add_names]; [eauto|]. destruct (bytes_eqb n KMSGD); [apply IH|]. destruct (add_ulog_ok y t c n G) as (t1 & c1 & ->). cbn [Z.eqb]. apply IH.
Qed.
Lemma add_listed_ok y : generous y -> forall bufs t c, exists t' c', add_listed y bufs t c 0 = (t', c', 0).
Proof.
  intros G. induction bufs as [|b bufs IH]; intros t c; cbn [add_listed]; [eauto|]. destruct (log_name b) as [n|]; [|apply IH]. destruct (bytes_eqb n KMSGD); [cbn [Z.eqb]; apply IH|].
  destruct (add_ulog_ok y t c n G) as (t1 & c1 & ->). cbn [Z.eqb]. apply IH.
Qed.
Lemma add_klog_ok y t c : generous y -> exists t' c', add_klog_device y t c = (t', c', 0).
Proof.
  intros [G1 G2 G3 G4 G5]. unfold add_klog_device, log_device_create. rewrite G3. set (p := bytes_of_string "/dev/kmsg"). rewrite (proj2 (Z.ltb_ge _ _) (G1 t p false)). rewrite G4. cbn [negb].
  replace (2 * y_ksize y <? 0) with false by (clear - G5; lia). eauto.
Qed.
Lemma Forall2_len A B (R : A -> B -> Prop) l l' : Forall2 R l l' -> length l = length l'.
Proof. induction 1; cbn; congruence. Qed.
Lemma Forall2_impl' A B (P Q : A -> B -> Prop) : (forall a b, P a b -> Q a b) -> forall l l', Forall2 P l l' -> Forall2 Q l l'.
Proof. induction 2; constructor; auto. Qed.
Lemma asked_len l : (length (asked l) <= length l)%nat.
Proof. induction l as [|x l IH]; [reflexivity|]. cbn [asked filter]. fold (asked l). destruct (negb _); cbn [length]; lia. Qed.
(** When nothing fails and something is asked for, the context is created. *)
Theorem C94_opens : forall y t0 o names pow2 l s rets, generous y -> reaches pow2 l s rets -> y_logs y = Some (ulogger_show_logs s) ->
  asked names <> [] \/ has (o_flags o) FLAG_ULOG = true \/ has (o_flags o) FLAG_KLOG = true -> 0 <= o_tail o -> o_tail o + zlen names + 18 < 2 ^ 31 ->
  exists t c, ulogcat3_open y t0 o names = (t, Some c).
Proof.
  intros y t0 o names pow2 l s rets G R EL HA T0 T1. pose proof (zlen_nonneg names) as ZN. unfold ulogcat3_open. rewrite (g_alloc y G). cbn [negb].
  set (fp := if (o_fd o <? 0) && (match o_fp o with None => true | Some _ => false end) then Some 1 else o_fp o). set (c0 := mkCtx (o_format o) (o_flags o) (s32 (o_tail o)) fp (o_fd o) 0 0 [] 0 0).
  assert (I0 : inv (output (o_fd o)) t0 t0 c0 []).
  { constructor; try reflexivity; [|constructor]. exists [], (output (o_fd o)). split; [now rewrite app_nil_r|]. split; [reflexivity|]. split; [reflexivity|constructor]. }
  destruct (add_names_ok y G names t0 c0) as (t1 & c1 & E1). rewrite E1. cbn [negb]. destruct (add_names_spec _ _ _ _ _ _ _ _ _ _ E1 I0) as (S1 & [(_ & I1 & U1)|(X & _)]); [|discriminate].
  change (k_ulogs c0) with 0 in U1. cbn [app] in I1. assert (Fl : k_flags c1 = o_flags o) by (destruct S1 as (_ & F & _); rewrite F; reflexivity). rewrite Fl, U1.
  assert (X2 : exists t2 c2 ps, (if (0 + zlen (asked names) =? 0) && has (o_flags o) FLAG_ULOG then add_all_ulog_devices y t1 c1 else (t1, c1, 0)) = (t2, c2, 0) /\ same c0 c2 /\ inv (output (o_fd o)) t0 t2 c2 ps /\
     zlen ps <= zlen names + 16 /\ (ps <> [] \/ has (o_flags o) FLAG_KLOG = true)).
  { destruct (asked names) as [|a r] eqn:EA.
    - change (0 + zlen (@nil (list Z)) =? 0) with true. cbn [andb]. destruct (has (o_flags o) FLAG_ULOG) eqn:EU.
      + destruct (add_all_ulog_devices y t1 c1) as ((t2 & c2) & r2) eqn:E2. destruct (add_all_spec _ _ _ _ _ _ _ _ _ E2 I1) as (S2 & [(-> & I2)|(-> & _)]).
        * exists t2, c2, (map cut (all_names y)). split; [reflexivity|]. split; [eapply same_trans; eassumption|]. split; [exact I2|]. rewrite (all_names_reg y _ _ _ _ R EL).
          destruct (C17_consistent _ _ _ _ R) as (_ & _ & L16 & _ & d & rr & Ed & En & _). split.
          -- pose proof (asked_len (log_names s)) as Y. unfold zlen in *. rewrite map_length. unfold log_names in *. rewrite map_length in Y. lia.
          -- left. unfold log_names. rewrite Ed. cbn [map]. rewrite En. change (zdrop 5 (bytes_of_string "ulog_main")) with (bytes_of_string "main"). cbn [asked filter].
             change (negb (bytes_eqb (bytes_of_string "main") (bytes_of_string "kmsgd"))) with true. cbn iota. discriminate.
        * exfalso. unfold add_all_ulog_devices in E2. rewrite EL in E2. destruct (add_listed_ok y G (fgets_all 31 30 [] (ulogger_show_logs s)) t1 c1) as (a & b & X). congruence.
      + exists t1, c1, []. split; [reflexivity|]. split; [exact S1|]. split; [exact I1|]. split; [change (zlen (@nil (list Z))) with 0; lia|]. right. destruct HA as [X|[X|X]]; congruence.
    - replace (0 + zlen (a :: r) =? 0) with false by (rewrite zlen_cons; pose proof (zlen_nonneg r); lia). cbn [andb]. exists t1, c1, (map cut (a :: r)). split; [reflexivity|]. split; [exact S1|]. split; [exact I1|].
      split; [|left; discriminate]. pose proof (asked_len names) as Y. rewrite EA in Y. unfold zlen in *. rewrite map_length. lia. }
  destruct X2 as (t2 & c2 & ps & -> & S2 & I2 & L2 & N2). cbn [Z.eqb negb]. assert (Fl2 : k_flags c2 = o_flags o) by (destruct S2 as (_ & F & _); rewrite F; reflexivity). rewrite Fl2.
  assert (X3 : exists t3 c3 ps3, (if has (o_flags o) FLAG_KLOG then let '(t3, c3, ret) := add_klog_device y t2 c2 in if ret =? 0 then (t3, c3, 0) else add_ulog_device y t3 c3 KMSGD else (t2, c2, 0)) = (t3, c3, 0) /\
     same c0 c3 /\ inv (output (o_fd o)) t0 t3 c3 ps3 /\ zlen ps3 <= zlen names + 17 /\ ps3 <> []).
  { destruct (has (o_flags o) FLAG_KLOG) eqn:EK.
    - destruct (add_klog_ok y t2 c2 G) as (t3 & c3 & E3). rewrite E3. cbn [Z.eqb]. destruct (add_klog_spec _ _ _ _ _ _ _ _ _ E3 I2) as (S3 & [(_ & I3)|(X & _)]); [|discriminate].
      exists t3, c3, (ps ++ [bytes_of_string "/dev/kmsg"]). split; [reflexivity|]. split; [eapply same_trans; eassumption|]. split; [exact I3|]. rewrite zlen_app. change (zlen [bytes_of_string "/dev/kmsg"]) with 1. split; [lia|]. destruct ps; discriminate.
    - exists t2, c2, ps. split; [reflexivity|]. split; [exact S2|]. split; [exact I2|]. split; [lia|]. destruct N2; [assumption|discriminate]. }
  destruct X3 as (t3 & c3 & ps3 & -> & S3 & I3 & L3 & N3). cbn [Z.eqb negb]. pose proof (i_count _ _ _ _ _ I3) as HC. destruct I3 as [(u & l' & _ & _ & _ & F3) _ _ _]. apply Forall2_len in F3.
  assert (HZ : zlen (k_devs c3) = zlen ps3) by (unfold zlen; lia). rewrite HC, HZ.
  replace (zlen ps3 =? 0) with false by (destruct ps3; [congruence|rewrite zlen_cons; pose proof (zlen_nonneg ps3); lia]). rewrite !(g_alloc y G). cbn [negb].
  assert (ET : k_tail c3 = o_tail o) by (destruct S3 as (_ & _ & T & _); rewrite T; apply PropsUlogger.s32_nat; lia). rewrite ET. pose proof (zlen_nonneg ps3). rewrite (PropsUlogger.s32_nat (o_tail o + zlen ps3 + 1)) by lia.
  replace (o_tail o + zlen ps3 + 1 <? 0) with false by lia. cbn [orb]. eauto.
Qed.

(** Examples: descriptors counted from 5. *)
Definition opens (t : list ev) : Z := zlen (filter (fun e => match e with Open _ _ _ => true | _ => false end) t).
Definition ex_sys (logs : option (list Z)) (kmsg : bool) : sys :=
  mkSys (fun t p _ => if negb kmsg && bytes_eqb p (bytes_of_string "/dev/kmsg") then -1 else 5 + opens t) (fun _ _ => 100) (fun _ _ => true) logs (fun _ => true) 4096 (fun _ _ => 0) (fun _ => 0).
Definition ex_list : list Z := ulogger_show_logs ex17_final.
Definition ex_o (flags : Z) : opts := mkOpts 1 flags 0 None 3.
Lemma ex_generous logs : generous (ex_sys logs true).
Proof.
  constructor; cbn [ex_sys y_open y_len y_alloc y_kread y_ksize negb andb]; intros; try lia; try reflexivity.
  unfold opens. pose proof (zlen_nonneg (filter (fun e => match e with Open _ _ _ => true | _ => false end) t)). lia.
Qed.
Definition u := bytes_of_string.
Example C94_named_ex : exists t c, ulogcat3_open (ex_sys None false) [] (ex_o 128) [u "flight"; u "kmsgd"; u "main"] = (t, Some c) /\ asked [u "flight"; u "kmsgd"; u "main"] <> [] /\
  Forall (fun n => zlen n <= 53) [u "flight"; u "kmsgd"; u "main"] /\ map d_path (k_devs c) = [u "/dev/ulog_flight"; u "/dev/ulog_main"; u "/proc/kmsg"].
Proof. do 2 eexists. split; [vm_compute; reflexivity|]. split; [discriminate|]. split; [repeat constructor; cbn; lia|vm_compute; reflexivity]. Qed.
Example C94_all_ex : exists t c, reaches 18 ex17 ex17_final [15; 18; -22; -22; -22; -12] /\ ulogcat3_open (ex_sys (Some ex_list) true) [] (ex_o 32) [] = (t, Some c) /\
  map d_path (k_devs c) = [u "/dev/ulog_main"; u "/dev/ulog_flight"; u "/dev/ulog_abcdefghij"].
Proof. do 2 eexists. split; [exact ex17_reaches|]. split; vm_compute; reflexivity. Qed.
Example C94_opens_ex : generous (ex_sys (Some ex_list) true) /\ has (o_flags (ex_o 32)) FLAG_ULOG = true /\ o_tail (ex_o 32) + zlen (@nil (list Z)) + 18 < 2 ^ 31.
Proof. split; [apply ex_generous|]. split; vm_compute; reflexivity. Qed.
Example C94_places_ex : exists t c, ulogcat3_open (ex_sys (Some ex_list) true) [] (mkOpts 1 160 10 None 3) [] = (t, Some c) /\ k_frames c = 15.
Proof. do 2 eexists. split; vm_compute; reflexivity. Qed.

(** The copy of the kernel log cannot be asked for by its name: alone, it gives all the others instead. *)
Theorem C94_kmsgd_refuted : exists y o t c, o_flags o = FLAG_ULOG /\ ulogcat3_open y [] o [u "kmsgd"] = (t, Some c) /\
  map d_path (k_devs c) = [u "/dev/ulog_main"; u "/dev/ulog_flight"; u "/dev/ulog_abcdefghij"] /\ ~ exists fd, In (Open (u "/dev/ulog_kmsgd") false fd) t.
Proof.
  exists (ex_sys (Some ex_list) true), (ex_o 32). do 2 eexists. split; [reflexivity|]. split; [vm_compute; reflexivity|]. split; [vm_compute; reflexivity|].
  intros (fd & H). vm_compute in H. repeat (destruct H as [H|H]; [discriminate|]). exact H.
Qed.
(** A name of 54 bytes or more is cut: another file is opened. *)
Theorem C94_long_refuted : forall y t0 o name t c, 53 < zlen name -> ulogcat3_open y t0 o [name] = (t, Some c) -> bytes_eqb name KMSGD = false ->
  exists d r, k_devs c = d :: r /\ exists u p, t = t0 ++ u /\ from u d p /\ zlen p = 63 /\ zlen p < zlen (file_of name).
Proof.
  intros y t0 o name t c HL E HK. destruct (open_spec _ _ _ _ _ _ E) as (ps & I & (ks & -> & K) & _). destruct I as [(v & l' & Et & _ & _ & F) _ _ _].
  cbn [asked filter] in F. change (bytes_eqb name (bytes_of_string "kmsgd")) with (bytes_eqb name KMSGD) in F. rewrite HK in F. cbn [negb map app] in F. inversion F as [|d p r r' H1 H2 E1 E2]. subst.
  exists d, r. split; [reflexivity|]. exists v, (cut name). split; [reflexivity|]. split; [exact H1|]. unfold cut, file_of. rewrite zlen_ztake, zlen_app. change (zlen (bytes_of_string "/dev/ulog_")) with 10. lia.
Qed.
Example C94_long_ex : exists t c, ulogcat3_open (ex_sys None true) [] (ex_o 0) [repeat 97 54] = (t, Some c) /\ 53 < zlen (repeat 97 54).
Proof. do 2 eexists. split; [vm_compute; reflexivity|reflexivity]. Qed.

(** ** C95 *)

(** What was opened is closed once, with the output given as a descriptor, whether the context could be
    created or not, and whether the devices were cleared or not. *)
Theorem C95_closed_partial : forall y t0 o names t c, ulogcat3_open y t0 o names = (t, Some c) ->
  exists v, t = t0 ++ v /\ held (output (o_fd o)) (v ++ ulogcat3_close c) = Some [] /\
    forall t' ret, ulogcat3_clear y t c = (t', ret) -> exists w, t' = t0 ++ w /\ held (output (o_fd o)) (w ++ ulogcat3_close c) = Some [].
Proof.
  intros y t0 o names t c E. destruct (open_spec _ _ _ _ _ _ E) as (ps & I & _ & (_ & _ & _ & T & _) & _). destruct (close_all t0 t c ps o (eq_sym T) I) as (v & -> & H). exists v. split; [reflexivity|]. split; [exact H|].
  intros t' ret EC. unfold ulogcat3_clear in EC. destruct (clear_devs_spec _ _ _ _ _ _ EC) as (w & -> & HW & _). exists (v ++ w). split; [now rewrite app_assoc|].
  rewrite held_app in H. rewrite <- app_assoc, held_app. destruct (held (output (o_fd o)) v); [|discriminate]. now rewrite held_app, HW.
Qed.
Theorem C95_failed_partial : forall y t0 o names t, ulogcat3_open y t0 o names = (t, None) -> y_alloc y t0 ACtx = true ->
  exists v, t = t0 ++ v /\ held (output (o_fd o)) v = Some [].
Proof. intros y t0 o names t E A. destruct (open_spec _ _ _ _ _ _ E) as [(X & _)|H]; [congruence|exact H]. Qed.
Example C95_ex : exists t c, ulogcat3_open (ex_sys (Some ex_list) false) [] (ex_o 160) [] = (t, Some c) /\ held [3] (t ++ ulogcat3_close c) = Some [] /\ held [3] t = Some [9; 7; 6; 5; 3] /\
  exists t2, ulogcat3_open (mkSys (fun t _ _ => if opens t =? 2 then -1 else 5 + opens t) (fun _ _ => 1) (fun _ _ => true) (Some ex_list) (fun _ => true) 1 (fun _ _ => 0) (fun _ => 0)) [] (ex_o 32) [] = (t2, None) /\
    filter (fun e => match e with Open _ _ _ => false | _ => true end) t2 = [Close 5; Close 6; Close 3].
Proof. do 2 eexists. split; [vm_compute; reflexivity|]. split; [vm_compute; reflexivity|]. split; [vm_compute; reflexivity|]. eexists. split; vm_compute; reflexivity. Qed.
(** The descriptor of the output is closed although it is not used: the tool, which prints on its standard
    output, closes its standard input. *)
Theorem C95_unused_refuted : forall y t0 o names t c f, ulogcat3_open y t0 o names = (t, Some c) -> o_fp o = Some f -> 0 <= o_fd o -> In (Close (o_fd o)) (ulogcat3_close c) /\ k_fp c = Some f.
Proof.
  intros y t0 o names t c f E HF H0. destruct (open_spec _ _ _ _ _ _ E) as (ps & I & _ & (_ & _ & _ & T & T2) & _). rewrite HF in T2. split.
  - unfold ulogcat3_close. rewrite T, (proj2 (Z.leb_le _ _) H0), !in_app_iff. right. left. now left.
  - rewrite T2. now destruct (o_fd o <? 0).
Qed.
Theorem C95_stdin_refuted : exists y t, main y 64 (fun _ => 0) [ODump] = Ok (t, 0) /\ In (Close 0) t /\ In (Fclose 1) t.
Proof. exists (ex_sys (Some ex_list) true). eexists. split; [vm_compute; reflexivity|]. split; vm_compute; tauto. Qed.
(** The descriptor of the caller is closed although no context is returned. *)
Theorem C95_failure_refuted : exists y o t, ulogcat3_open y [] o [u "main"] = (t, None) /\ In (Close (o_fd o)) t.
Proof.
  exists (mkSys (fun _ _ _ => -1) (fun _ _ => 0) (fun _ _ => true) None (fun _ => true) 0 (fun _ _ => 0) (fun _ => 0)), (ex_o 32). eexists. split; [vm_compute; reflexivity|]. vm_compute. tauto.
Qed.

(** ** C96 *)

(** When clearing succeeds, each device was emptied. *)
Theorem C96_clear_partial : forall y t0 o names t c t' ret, ulogcat3_open y t0 o names = (t, Some c) -> ulogcat3_clear y t c = (t', ret) -> 0 <= ret ->
  exists v, t' = t ++ v /\ Forall (fun d => match d_kind d with KKlog => kernel_emptied v | _ => emptied v (d_path d) end) (k_devs c).
Proof.
  intros y t0 o names t c t' ret _ EC HR. unfold ulogcat3_clear in EC. destruct (clear_devs_spec _ _ _ _ _ _ EC) as (w & -> & _ & F). exists w. split; [reflexivity|]. apply F; [lia|exact HR].
Qed.
Example C96_ex : exists t c t', ulogcat3_open (ex_sys (Some ex_list) true) [] (ex_o 160) [] = (t, Some c) /\ ulogcat3_clear (ex_sys (Some ex_list) true) t c = (t', 0) /\ zlen t' = 14.
Proof. do 3 eexists. split; [vm_compute; reflexivity|]. split; vm_compute; reflexivity. Qed.
(** The copy of the kernel log is not: another file is opened in its place. *)
Theorem C96_kmsgd_refuted : exists y o t c t' ret, ulogcat3_open y [] o [] = (t, Some c) /\ In (Open (u "/dev/ulog_kmsgd") false 6) t /\ map d_fd (k_devs c) = [6] /\
  ulogcat3_clear y t c = (t', ret) /\ t' = t ++ [Open (u "/proc/kmsg") true 7; Flush 7 0; Close 7].
Proof.
  exists (ex_sys None false), (ex_o 128). do 4 eexists. split; [vm_compute; reflexivity|]. split; [vm_compute; tauto|]. split; [vm_compute; reflexivity|]. split; vm_compute; reflexivity.
Qed.

(** ** C97 *)
Lemma eqb_sym a b : bytes_eqb a b = bytes_eqb b a.
Proof. destruct (bytes_eqb a b) eqn:E; symmetry; [apply bytes_eqb_eq in E; subst; apply bytes_eqb_refl|]. destruct (bytes_eqb b a) eqn:F; [|reflexivity]. apply bytes_eqb_eq in F. subst. now rewrite bytes_eqb_refl in E. Qed.
Lemma parse_in a : In a formats -> parse_log_format a = index_of a formats /\ 0 <= parse_log_format a.
Proof. intros H. cbn [formats map In] in H. repeat (destruct H as [<-|H]; [split; [vm_compute; reflexivity|now vm_compute]|]). destruct H. Qed.
Lemma parse_out a : ~ In a formats -> parse_log_format a = -1.
Proof.
  intros N. unfold parse_log_format, formats in *. cbn [map In] in N.
  repeat match goal with |- context [bytes_eqb a ?x] => destruct (bytes_eqb a x) eqn:?E; [exfalso; apply N; apply bytes_eqb_eq in E; subst a; tauto|clear E] end. reflexivity.
Qed.
Lemma atoi_digits W a : 32 <= W -> digits a -> dec_val a < 2 ^ 31 -> atoi W a = Ok (dec_val a).
Proof. intros HW D V. unfold atoi. rewrite PropsUlogger.strtol_int_digits by (assumption || reflexivity). reflexivity. Qed.
Definition flag_of (o : opt) : Z :=
  match o with ODump => FLAG_DUMP | OColor => FLAG_COLOR | OKlog => FLAG_KLOG | OUlog | OBuffer _ => FLAG_ULOG | OLabel => FLAG_LABEL | _ => 0 end.
Definition is_clear (o : opt) : bool := match o with OClear => true | _ => false end.
Lemma from_spec W : 32 <= W -> forall l r g, Forall (fun o => ~ stops o) l -> Forall number_ok l -> exists g', get_options_from W g (l ++ r) = get_options_from W g' r /\
  g_devices g' = g_devices g ++ names_of l /\ g_clear g' = g_clear g || existsb is_clear l /\ g_format g' = last_of format_opt (g_format g) l /\ g_tail g' = last_of tail_opt (g_tail g) l /\
  g_flags g' = fold_left (fun a o => Z.lor a (flag_of o)) l (g_flags g).
Proof.
  intros HW. induction l as [|o l IH]; intros r g F1 F2.
  - exists g. cbn. rewrite app_nil_r, orb_false_r. tauto.
  - inversion_clear F1 as [|? ? N F1']. inversion_clear F2 as [|? ? O F2'].
    destruct o; cbn [app get_options_from names_of flat_map existsb is_clear last_of format_opt tail_opt fold_left flag_of orb]; fold (names_of l); cbn [stops number_ok] in N, O.
    1-6: match goal with |- exists g', get_options_from _ ?g1 _ = _ /\ _ => destruct (IH r g1 F1' F2') as (g' & E & A & B & C & D & X) end; exists g'; rewrite E, A, B, C, D, X; unfold flag; cbn [g_devices g_clear g_format g_tail g_flags];
      rewrite ?Z.lor_0_r, ?orb_true_r; tauto.
    + match goal with |- exists g', get_options_from _ ?g1 _ = _ /\ _ => destruct (IH r g1 F1' F2') as (g' & E & A & B & C & D & X) end. exists g'. rewrite E, A, B, C, D, X. unfold flag. cbn [g_devices g_clear g_format g_tail g_flags].
      rewrite <- app_assoc. tauto.
    + destruct O as (O1 & O2). rewrite atoi_digits by assumption. cbn [bind]. match goal with |- exists g', get_options_from _ ?g1 _ = _ /\ _ => destruct (IH r g1 F1' F2') as (g' & E & A & B & C & D & X) end.
      exists g'. rewrite E, A, B, C, D, X. cbn [g_devices g_clear g_format g_tail g_flags]. rewrite Z.lor_0_r. replace (u32 (dec_val a)) with (dec_val a); [tauto|]. pose proof (dec_val_nonneg a (proj2 O1)). unfold u32. rewrite Z.mod_small; lia.
    + tauto.
    + assert (I : In a formats) by (destruct (in_dec (list_eq_dec Z.eq_dec) a formats); tauto). destruct (parse_in a I) as (P1 & P2). rewrite (proj2 (Z.ltb_ge _ _) P2).
      match goal with |- exists g', get_options_from _ ?g1 _ = _ /\ _ => destruct (IH r g1 F1' F2') as (g' & E & A & B & C & D & X) end. exists g'. rewrite E, A, B, C, D, X. cbn [g_devices g_clear g_format g_tail g_flags]. rewrite Z.lor_0_r, P1. tauto.
    + tauto.
Qed.
Lemma has_bit x k : 0 <= k -> has x (2 ^ k) = Z.testbit x k.
Proof.
  intros H. unfold has. destruct (Z.testbit x k) eqn:E.
  - destruct (Z.eqb_spec (Z.land x (2 ^ k)) 0) as [X|X]; [|reflexivity]. apply (f_equal (fun z => Z.testbit z k)) in X. rewrite Z.land_spec, E, Z.pow2_bits_true, Z.bits_0 in X by assumption. discriminate.
  - replace (Z.land x (2 ^ k)) with 0; [reflexivity|]. symmetry. apply Z.bits_inj'. intros n Hn. rewrite Z.land_spec, Z.bits_0, Z.pow2_bits_eqb by assumption. destruct (Z.eqb_spec k n) as [->|]; [now rewrite E|apply andb_false_r].
Qed.
Lemma fold_bit k : forall l x, Z.testbit (fold_left (fun a o => Z.lor a (flag_of o)) l x) k = Z.testbit x k || existsb (fun o => Z.testbit (flag_of o) k) l.
Proof. induction l as [|o l IH]; intros x; cbn [fold_left existsb]; [now rewrite orb_false_r|]. rewrite IH, Z.lor_spec, orb_assoc. reflexivity. Qed.
Lemma existsb_ext' A (f g : A -> bool) l : (forall x, f x = g x) -> existsb f l = existsb g l.
Proof. intros H. induction l; cbn; congruence. Qed.
(** The options mean what the help says: the names in order, the last format and the last number given, the
    flags; the logs are read unless only the kernel log is asked for. *)
Theorem C97_options_partial : forall W l, 32 <= W -> Forall (fun o => ~ stops o) l -> Forall number_ok l ->
  exists g, get_options W l = Ok (inr g) /\ g_devices g = names_of l /\ (g_clear g = true <-> In OClear l) /\
    g_format g = last_of format_opt 1 l /\ g_tail g = last_of tail_opt 0 l /\
    (has (g_flags g) FLAG_DUMP = true <-> In ODump l) /\ (has (g_flags g) FLAG_COLOR = true <-> In OColor l) /\ (has (g_flags g) FLAG_LABEL = true <-> In OLabel l) /\
    (has (g_flags g) FLAG_KLOG = true <-> In OKlog l) /\ (has (g_flags g) FLAG_ULOG = true <-> In OUlog l \/ names_of l <> [] \/ ~ In OKlog l).
Proof.
  intros W l HW F1 F2. destruct (from_spec W HW l [] (mkOptions 1 0 0 false []) F1 F2) as (g & E & A & B & C & D & X). rewrite app_nil_r in E. cbn [g_devices g_clear g_format g_tail g_flags app orb] in *. unfold get_options. rewrite E. cbn [get_options_from bind].
  assert (HB : forall f k, f = 2 ^ k -> 0 <= k -> has (g_flags g) f = existsb (fun o => Z.testbit (flag_of o) k) l).
  { intros f k -> Hk. rewrite has_bit by assumption. rewrite X, fold_bit, Z.bits_0. reflexivity. }
  assert (HD := HB FLAG_DUMP 2 eq_refl ltac:(lia)). assert (HC := HB FLAG_COLOR 3 eq_refl ltac:(lia)). assert (HL := HB FLAG_LABEL 4 eq_refl ltac:(lia)). assert (HU := HB FLAG_ULOG 5 eq_refl ltac:(lia)). assert (HK := HB FLAG_KLOG 7 eq_refl ltac:(lia)). clear HB.
  assert (IFF : forall f o, (forall x, f x = true <-> x = o) -> (existsb f l = true <-> In o l)).
  { intros f o H. rewrite existsb_exists. split; [intros (x & I & Y); apply H in Y; now subst|intros I; exists o; split; [assumption|now apply H]]. }
  assert (DU : has (g_flags g) FLAG_ULOG = true <-> In OUlog l \/ names_of l <> []).
  { rewrite HU, existsb_exists. split.
    - intros (x & I & Y). destruct x; try discriminate Y; [now left|]. right. intros Z0. assert (In a (names_of l)) by (unfold names_of; apply in_flat_map; exists (OBuffer a); split; [assumption|now left]). rewrite Z0 in H. destruct H.
    - intros [I|I]; [exists OUlog; now split|]. destruct (names_of l) as [|a r] eqn:EN; [congruence|]. assert (J : In a (names_of l)) by (rewrite EN; now left). unfold names_of in J. apply in_flat_map in J. destruct J as (o & J1 & J2). exists o. destruct o; cbn in J2; try (now destruct J2); now split. }
  assert (DK : has (g_flags g) FLAG_KLOG = true <-> In OKlog l) by (rewrite HK; apply IFF; intros x; destruct x; cbn; split; congruence).
  assert (HB2 : has (g_flags g) (Z.lor FLAG_ULOG FLAG_KLOG) = has (g_flags g) FLAG_ULOG || has (g_flags g) FLAG_KLOG).
  { unfold has. rewrite Z.land_lor_distr_r. destruct (Z.eqb_spec (Z.land (g_flags g) FLAG_ULOG) 0) as [->|N]; [now rewrite Z.lor_0_l|]. cbn [negb orb]. destruct (Z.eqb_spec (Z.lor (Z.land (g_flags g) FLAG_ULOG) (Z.land (g_flags g) FLAG_KLOG)) 0) as [Y|Y]; [|reflexivity]. apply Z.lor_eq_0_iff in Y. tauto. }
  rewrite HB2. assert (R : g_devices g = names_of l /\ (g_clear g = true <-> In OClear l) /\ g_format g = last_of format_opt 1 l /\ g_tail g = last_of tail_opt 0 l).
  { rewrite A, B, C, D. split; [reflexivity|]. split; [apply IFF; intros x; destruct x; cbn; split; congruence|now split]. }
  assert (RD : has (g_flags g) FLAG_DUMP = true <-> In ODump l) by (rewrite HD; apply IFF; intros x; destruct x; cbn; split; congruence).
  assert (RC : has (g_flags g) FLAG_COLOR = true <-> In OColor l) by (rewrite HC; apply IFF; intros x; destruct x; cbn; split; congruence).
  assert (RL : has (g_flags g) FLAG_LABEL = true <-> In OLabel l) by (rewrite HL; apply IFF; intros x; destruct x; cbn; split; congruence).
  destruct R as (R1 & R2 & R3 & R4). destruct (has (g_flags g) FLAG_ULOG || has (g_flags g) FLAG_KLOG) eqn:EF; eexists; (split; [reflexivity|]).
  - repeat (split; [assumption|]). rewrite DU. split; [tauto|]. intros [I|[I|I]]; [tauto|tauto|]. apply orb_prop in EF. destruct EF as [EF|EF]; [now apply DU|now apply DK in EF].
  - apply orb_false_elim in EF. destruct EF as (EU & EK). assert (O : forall f k, f = 2 ^ k -> 0 <= k -> k <> 5 -> has (g_flags (flag g FLAG_ULOG)) f = has (g_flags g) f).
    { intros f k -> Hk N. rewrite !has_bit by assumption. cbn [flag g_flags]. rewrite Z.lor_spec. change FLAG_ULOG with (2 ^ 5). rewrite Z.pow2_bits_false by (clear - N; lia). apply orb_false_r. }
    repeat (split; [assumption|]). rewrite (O FLAG_DUMP 2 eq_refl), (O FLAG_COLOR 3 eq_refl), (O FLAG_LABEL 4 eq_refl), (O FLAG_KLOG 7 eq_refl) by (clear; lia). repeat (split; [assumption|]). split.
    + intros _. right. right. intros I. apply DK in I. congruence.
    + intros _. cbn [flag g_flags]. change FLAG_ULOG with (2 ^ 5) at 2. rewrite has_bit by (clear; lia). rewrite Z.lor_spec. change (Z.testbit FLAG_ULOG 5) with true. apply orb_true_r.
Qed.
Definition ex_l : list opt := [OBuffer (u "main"); OTail (u "5"); OKlog; OFormat (u "long"); OTail (u "10"); OBuffer (u "flight")].
Example C97_options_ex : Forall (fun o => ~ stops o) ex_l /\ Forall number_ok ex_l /\ get_options 64 ex_l = Ok (inr (mkOptions 3 160 10 false [u "main"; u "flight"])).
Proof.
  split; [repeat constructor; cbn; tauto|]. split; [|vm_compute; reflexivity]. repeat constructor; try (intros X; discriminate X); try (cbn; lia).
Qed.
(** The first option that cannot be taken ends the tool before anything is opened. *)
Theorem C97_refused : forall W y process a o b, 32 <= W -> Forall (fun o => ~ stops o) a -> Forall number_ok a -> stops o ->
  main y W process (a ++ o :: b) = Ok ([], match o with OHelp => 0 | _ => 255 end).
Proof.
  intros W y process a o b HW F1 F2 S. destruct (from_spec W HW a (o :: b) (mkOptions 1 0 0 false []) F1 F2) as (g & E & _). unfold main, get_options. rewrite E.
  destruct o; cbn [stops] in S; try tauto; cbn [get_options_from]; try reflexivity. now rewrite (parse_out _ S).
Qed.
Example C97_refused_ex : Forall (fun o => ~ stops o) [OKlog; OTail (u "7")] /\ Forall number_ok [OKlog; OTail (u "7")] /\ stops (OFormat (u "shorter")).
Proof.
  split; [repeat constructor; cbn; tauto|]. split; [repeat constructor; try (intros X; discriminate X); cbn; lia|]. cbn. intros H. repeat (destruct H as [H|H]; [discriminate H|]). exact H.
Qed.
(** The number is not checked: letters are taken as 0, that is all the messages, and -1 is taken too, with
    which the reader does not end (C65). *)
Theorem C97_tail_refuted : (exists g, get_options 64 [OTail (u "all")] = Ok (inr g) /\ g_tail g = 0) /\
  exists g t c, get_options 64 [OTail (u "-1")] = Ok (inr g) /\ ulogcat3_open (ex_sys (Some ex_list) true) [] (mkOpts (g_format g) (g_flags g) (g_tail g) (Some 1) 0) (g_devices g) = (t, Some c) /\ k_tail c = -1.
Proof. split; [eexists; split; vm_compute; reflexivity|]. do 3 eexists. split; [vm_compute; reflexivity|]. split; vm_compute; reflexivity. Qed.

(** The tool opens what the options ask for, on its standard output; then it clears when asked to and
    reads the logs otherwise, never both; it closes, and its exit status is 255 when nothing could be
    opened, and otherwise what the clearing or the reading gave, modulo 256. *)
Theorem C97_main_partial : forall W y process l, 32 <= W -> Forall (fun o => ~ stops o) l -> Forall number_ok l ->
  exists o t x, ulogcat3_open y [] o (names_of l) = (t, x) /\ o_fp o = Some 1 /\
    o_format o = last_of format_opt 1 l /\ o_tail o = last_of tail_opt 0 l /\
    (has (o_flags o) FLAG_DUMP = true <-> In ODump l) /\ (has (o_flags o) FLAG_KLOG = true <-> In OKlog l) /\
    (has (o_flags o) FLAG_ULOG = true <-> In OUlog l \/ names_of l <> [] \/ ~ In OKlog l) /\
    match x with
    | None => main y W process l = Ok (t, 255)
    | Some c =>
      (~ In OClear l -> main y W process l = Ok (t ++ ulogcat3_close c, process c mod 256)) /\
      (In OClear l -> exists t' r, ulogcat3_clear y t c = (t', r) /\ main y W process l = Ok (t' ++ ulogcat3_close c, r mod 256))
    end.
Proof.
  intros W y process l HW F1 F2. destruct (C97_options_partial W l HW F1 F2) as (g & E & A & B & C & D & X1 & _ & _ & X2 & X3).
  set (o := mkOpts (g_format g) (g_flags g) (g_tail g) (Some 1) 0).
  destruct (ulogcat3_open y [] o (names_of l)) as [t x] eqn:EO. exists o, t, x.
  split; [exact EO|]. split; [reflexivity|]. split; [exact C|]. split; [exact D|]. split; [exact X1|]. split; [exact X2|]. split; [exact X3|].
  unfold main. rewrite E. cbn [bind]. fold o. rewrite A, EO. destruct x as [c|]; [|reflexivity]. split; intros H.
  - destruct (g_clear g) eqn:G; [now destruct H; apply B|reflexivity].
  - apply B in H. rewrite H. destruct (ulogcat3_clear y t c) as [t' r] eqn:EC. exists t', r. split; reflexivity.
Qed.
Example C97_main_ex : exists t t', main (ex_sys (Some ex_list) true) 64 (fun _ => -3) [OBuffer (u "main")] = Ok (t, 253) /\
  main (mkSys (fun _ _ _ => -1) (fun _ _ => 1) (fun _ _ => true) None (fun _ => true) 1 (fun _ _ => 0) (fun _ => 0)) 64 (fun _ => 0) [OUlog] = Ok (t', 255).
Proof. do 2 eexists. split; vm_compute; reflexivity. Qed.

(** The tool closes what it opened. *)
Theorem C95_tool_partial : forall y W process l t e, main y W process l = Ok (t, e) -> y_alloc y [] ACtx = true -> t <> [] -> held [0] t = Some [].
Proof.
  intros y W process l t e E A N. unfold main in E. destruct (get_options W l) as [[e'|g]|]; cbn [bind] in E; try discriminate; [injection E as <- _; now destruct N|].
  set (o := mkOpts (g_format g) (g_flags g) (g_tail g) (Some 1) 0) in *. destruct (ulogcat3_open y [] o (g_devices g)) as (t1 & [c|]) eqn:EO.
  - destruct (C95_closed_partial _ _ _ _ _ _ EO) as (v & E1 & H1 & H2). cbn [app] in E1. subst t1. destruct (g_clear g).
    + destruct (ulogcat3_clear y v c) as (t2 & ret) eqn:EC. injection E as <- _. destruct (H2 _ _ eq_refl) as (w & E2 & H3). cbn [app] in E2. subst t2. exact H3.
    + injection E as <- _. exact H1.
  - injection E as <- _. destruct (C95_failed_partial _ _ _ _ _ EO A) as (v & -> & H). exact H.
Qed.
Example C95_tool_ex : exists t, main (ex_sys (Some ex_list) true) 64 (fun _ => 0) [OClear; OBuffer (u "main")] = Ok (t, 0) /\ zlen t = 7.
Proof. eexists. split; vm_compute; reflexivity. Qed.

(** ** C98 *)

(** The old interface: what it does not do is refused; the devices added before the first use are those
    opened, all the logs if none was; then they are emptied, or processed without opening anything more. *)
Definition add_all (names : list (list Z)) (v : v1) : v1 := fold_left (fun v n => fst (ulogcat_add_device v n)) names v.
Lemma add_all_spec' names : forall v, add_all names v = mkV1 (v_ctx v) (v_opts v) (v_clear v) (v_devices v ++ names).
Proof. induction names as [|n names IH]; intros v; [cbn; rewrite app_nil_r; now destruct v|]. cbn [add_all fold_left]. fold (add_all names (fst (ulogcat_add_device v n))). rewrite IH. cbn. now rewrite <- app_assoc. Qed.
Theorem C98_create : forall p, ulogcat_create p = None <-> p_binary p = true \/ p_getsize p = true \/ p_rotate p = true.
Proof. intros p. unfold ulogcat_create. destruct (p_binary p), (p_getsize p), (p_rotate p); cbn; split; intros; try tauto; try discriminate; decompose [or] H; discriminate. Qed.
Theorem C98_first_partial : forall y process t0 p v0 names t v ret, ulogcat_create p = Some v0 -> Forall (fun n => zlen n <= 53) names -> asked names <> [] ->
  ulogcat_process_logs y process t0 (add_all names v0) = (t, v, ret) -> 0 <= ret ->
  exists c w, v_ctx v = Some c /\ t = t0 ++ w /\ Forall2 (from w) (k_devs c) (map file_of (asked names)) /\ k_format c = p_format p /\ k_fd c = p_fd p /\
    (has (k_flags c) FLAG_COLOR = p_color p) /\ (has (k_flags c) FLAG_DUMP = p_dump p) /\ (0 <= p_tail p < 2 ^ 31 -> k_tail c = p_tail p) /\
    (if p_clear p then Forall (fun d => match d_kind d with KKlog => kernel_emptied w | _ => emptied w (d_path d) end) (k_devs c) else ret = process c).
Proof.
  intros y process t0 p v0 names t v ret EC HL HA E HR. unfold ulogcat_create in EC. destruct (p_binary p || p_getsize p || p_rotate p); [discriminate|]. injection EC as <-. rewrite add_all_spec' in E. unfold ulogcat_process_logs in E. cbn [v_ctx v_opts v_clear v_devices app] in E.
  set (o := mkOpts _ _ _ _ _) in E. destruct (ulogcat3_open y t0 o names) as (t1 & [c|]) eqn:EO.
  2: { injection E as _ _ <-. lia. }
  destruct (C94_named_partial _ _ _ _ _ _ EO HA HL) as (w & ks & Et & F & K). assert (FK : has (o_flags o) FLAG_KLOG = false) by (cbn [o o_flags]; now destruct (p_color p), (p_dump p)). rewrite FK in K. cbn [kernel_file] in K. subst ks. rewrite app_nil_r in F.
  destruct (open_spec _ _ _ _ _ _ EO) as (ps & _ & _ & (T1 & T2 & T3 & T4 & _) & _).
  assert (G1 : k_format c = p_format p) by now rewrite T1. assert (G2 : k_fd c = p_fd p) by now rewrite T4.
  assert (G3 : has (k_flags c) FLAG_COLOR = p_color p) by (rewrite T2; cbn [o o_flags]; now destruct (p_color p), (p_dump p)). assert (G4 : has (k_flags c) FLAG_DUMP = p_dump p) by (rewrite T2; cbn [o o_flags]; now destruct (p_color p), (p_dump p)).
  assert (G5 : 0 <= p_tail p < 2 ^ 31 -> k_tail c = p_tail p). { intros H. rewrite T3. cbn [o o_tail]. unfold u32. rewrite Z.mod_small by (clear - H; lia). now apply PropsUlogger.s32_nat. }
  destruct (p_clear p).
  - destruct (ulogcat3_clear y t1 c) as (t2 & r) eqn:EC. injection E as <- <- <-. destruct (C96_clear_partial _ _ _ _ _ _ _ _ EO EC HR) as (x & -> & FX). exists c, (w ++ x). cbn [v_ctx]. rewrite Et, app_assoc. split; [reflexivity|]. split; [reflexivity|].
    split; [revert F; apply Forall2_impl'; intros d q Y; unfold from in *; apply in_app_iff; now left|]. repeat (split; [assumption|]).
    revert FX. apply Forall_impl. intros d Y. destruct (d_kind d); [| |destruct Y as (r0 & Y1 & Y2); exists r0; split; [apply in_app_iff; now right|assumption]];
      destruct Y as (fd & r0 & Y1 & Y2 & Y3); exists fd, r0; rewrite !in_app_iff; tauto.
  - injection E as <- <- <-. exists c, w. cbn [v_ctx]. tauto.
Qed.
Theorem C98_next : forall y process t0 v c, v_ctx v = Some c -> v_clear v = false -> ulogcat_process_logs y process t0 v = (t0, v, process c).
Proof. intros y process t0 v c E1 E2. unfold ulogcat_process_logs. rewrite E1, E2. destruct v as [x o cl d]. cbn in *. subst. reflexivity. Qed.
Definition ex_p : opts1 := mkOpts1 1 false false 0 false false true true 3.
Definition ex_v : v1 := match ulogcat_create ex_p with Some v => v | None => mkV1 None (ex_o 0) false [] end.
Example C98_ex : ulogcat_create ex_p = Some ex_v /\ exists t v c, ulogcat_process_logs (ex_sys None true) (fun _ => 7) [] (add_all [u "main"; u "flight"] ex_v) = (t, v, 7) /\ v_ctx v = Some c /\ v_clear v = false /\ asked [u "main"; u "flight"] <> [] /\
  held [3] (t ++ ulogcat_destroy v) = Some [].
Proof. split; [reflexivity|]. do 3 eexists. split; [vm_compute; reflexivity|]. split; [vm_compute; reflexivity|]. split; [reflexivity|]. split; [discriminate|]. vm_compute. reflexivity. Qed.
(** Uses of the old interface: devices added, logs processed, every time with the devices open. *)
Inductive used (y : sys) (process : ctx -> Z) : list ev -> v1 -> list ev -> v1 -> Prop :=
  | used_none : forall t v, used y process t v t v
  | used_add : forall t v name t' v', used y process t (fst (ulogcat_add_device v name)) t' v' -> used y process t v t' v'
  | used_process : forall t v t1 v1 ret t' v', ulogcat_process_logs y process t v = (t1, v1, ret) -> v_ctx v1 <> None ->
      used y process t1 v1 t' v' -> used y process t v t' v'.
Lemma used_inv y process o : forall t v t' v', used y process t v t' v' -> o_fd (v_opts v) = o ->
  match v_ctx v with Some c => held (output o) (t ++ ulogcat3_close c) = Some [] | None => t = [] end ->
  match v_ctx v' with Some c => held (output o) (t' ++ ulogcat3_close c) = Some [] | None => t' = [] end.
Proof.
  induction 1 as [t v|t v name t' v' H IH|t v t1 v1 ret t' v' E N H IH]; intros Ho HI; [exact HI|apply IH; assumption|].
  unfold ulogcat_process_logs in E. destruct v as [[c|] op cl dv]; cbn [v_ctx v_opts v_clear v_devices] in *.
  - destruct cl.
    + destruct (ulogcat3_clear y t c) as (t2 & r) eqn:EC. injection E as <- <- <-. apply IH; [exact Ho|]. cbn [v_ctx].
      unfold ulogcat3_clear in EC. destruct (clear_devs_spec _ _ _ _ _ _ EC) as (w & -> & HW & _).
      rewrite held_app in HI. rewrite <- app_assoc, held_app. destruct (held (output o) t); [|discriminate]. now rewrite held_app, HW.
    + injection E as <- <- <-. apply IH; assumption.
  - subst t. destruct (ulogcat3_open y [] op dv) as (t2 & [c|]) eqn:EO.
    2: { injection E as <- <- <-. now destruct N. }
    destruct (C95_closed_partial _ _ _ _ _ _ EO) as (w & E1 & H1 & H2). cbn [app] in E1. subst w. destruct cl.
    + destruct (ulogcat3_clear y t2 c) as (t3 & r) eqn:EC. injection E as <- <- <-. apply IH; [exact Ho|]. cbn [v_ctx].
      destruct (H2 _ _ eq_refl) as (w & E2 & H3). cbn [app] in E2. subst w o. exact H3.
    + injection E as <- <- <-. apply IH; [exact Ho|]. cbn [v_ctx]. subst o. exact H1.
Qed.
(** ulogcat_destroy closes what the uses have opened, with the output; nothing was opened before the first. *)
Theorem C98_destroy_partial : forall y process p v0 t v, ulogcat_create p = Some v0 -> used y process [] v0 t v ->
  (v_ctx v <> None -> held (output (p_fd p)) (t ++ ulogcat_destroy v) = Some []) /\ (v_ctx v = None -> t ++ ulogcat_destroy v = []).
Proof.
  intros y process p v0 t v EC H. unfold ulogcat_create in EC. destruct (p_binary p || p_getsize p || p_rotate p); [discriminate|]. injection EC as <-.
  pose proof (used_inv y process (p_fd p) _ _ _ _ H eq_refl eq_refl) as I. unfold ulogcat_destroy. destruct (v_ctx v).
  - split; [intros _; exact I|discriminate].
  - split; [now intros []|intros _]. subst t. reflexivity.
Qed.
Example C98_destroy_ex : exists t v, used (ex_sys None true) (fun _ => 7) [] ex_v t v /\ v_ctx v <> None /\ held [3] t <> Some [].
Proof.
  do 2 eexists. split; [eapply (used_add _ _ _ _ (u "main")); eapply used_process; [vm_compute; reflexivity|discriminate|apply used_none]|].
  split; [discriminate|]. vm_compute. discriminate.
Qed.
(** A device added after the first use is said to be added, but is never read. *)
Theorem C98_late_refuted : forall y process t0 v c name, v_ctx v = Some c -> v_clear v = false ->
  snd (ulogcat_add_device v name) = 0 /\ exists v', ulogcat_process_logs y process t0 (fst (ulogcat_add_device v name)) = (t0, v', process c) /\ v_ctx v' = Some c.
Proof.
  intros y process t0 v c name E1 E2. split; [reflexivity|]. exists (fst (ulogcat_add_device v name)). split; [|exact E1]. apply C98_next; assumption.
Qed.
(** When the devices cannot be opened, the descriptor of the caller is closed; a second try uses it again,
    and closes it again. *)
Theorem C98_retry_refuted : exists y v t v' t' v'' , v_opts v = mkOpts 1 44 0 None 3 /\ ulogcat_process_logs y (fun _ => 0) [] v = (t, v', -1) /\ ulogcat_process_logs y (fun _ => 0) t v' = (t', v'', -1) /\ held [3] t' = None.
Proof.
  exists (mkSys (fun _ _ _ => -1) (fun _ _ => 0) (fun _ _ => true) None (fun _ => true) 0 (fun _ _ => 0) (fun _ => 0)), (add_all [u "main"] ex_v). do 4 eexists. split; [reflexivity|]. split; [vm_compute; reflexivity|]. split; vm_compute; reflexivity.
Qed.

Print Assumptions C94_named_partial.
Print Assumptions C94_all.
Print Assumptions C94_places.
Print Assumptions C94_opens.
Print Assumptions C94_kmsgd_refuted.
Print Assumptions C94_long_refuted.
Print Assumptions C95_closed_partial.
Print Assumptions C95_failed_partial.
Print Assumptions C95_unused_refuted.
Print Assumptions C95_stdin_refuted.
Print Assumptions C95_failure_refuted.
Print Assumptions C96_clear_partial.
Print Assumptions C96_kmsgd_refuted.
Print Assumptions C97_options_partial.
Print Assumptions C97_refused.
Print Assumptions C97_main_partial.
Print Assumptions C97_tail_refuted.
Print Assumptions C95_tool_partial.
Print Assumptions C98_create.
Print Assumptions C98_destroy_partial.
Print Assumptions C98_first_partial.
Print Assumptions C98_next.
Print Assumptions C98_late_refuted.
Print Assumptions C98_retry_refuted.
