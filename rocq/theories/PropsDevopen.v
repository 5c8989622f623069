(** The interfaces for raw and binary logging: properties C109 and C110. *)
From Coq Require Import ZArith String List Bool Lia ZifyBool ZifyNat Arith.
From Verif Require Import Bytes BytesProofs Parse Iov Devopen.
From Verif Require Registry PropsRegistry.
Import ListNotations.
Open Scope Z_scope.

(** ** Specification *)

(** The descriptors that are open after some events, the latest first. *)
Fixpoint remove1 (x : Z) (l : list Z) : list Z :=
  match l with [] => [] | y :: r => if y =? x then r else y :: remove1 x r end.
Definition effect (h : list Z) (e : ev) : list Z :=
  match e with
  | Open _ fd => if fd <? 0 then h else fd :: h
  | Close fd => remove1 fd h
  | _ => h
  end.
Definition held (t : list ev) : list Z := fold_left effect t [].
(** The paths opened. *)
Definition opened (t : list ev) : list (list Z) := flat_map (fun e => match e with Open p _ => [p] | _ => [] end) t.
(** What the caller has: the descriptors it was given and has not closed. *)
Definition given (h : list Z) (p : call * option Z) : list Z :=
  match p with
  | (RawOpen _, Some fd) | (BinOpen _, Some fd) => if fd <? 0 then h else fd :: h
  | (RawClose fd, _) | (BinClose fd, _) => if fd <? 0 then h else remove1 fd h
  | _ => h
  end.
Definition has (l : list call) (rets : list (option Z)) : list Z := fold_left given (combine l rets) [].

(** The device asked for: by its path; by its name in the environment; or the default one. *)
Inductive asks (y : sys) (default var : string) : option (list Z) -> list Z -> Prop :=
  | ask_path : forall p, asks y default var (Some p) p
  | ask_name : forall n, y_env y (bytes_of_string var) = Some n -> zlen n <= 21 -> asks y default var None (bytes_of_string "/dev/ulog_" ++ n)
  | ask_default : y_env y (bytes_of_string var) = None -> asks y default var None (bytes_of_string "/dev/" ++ bytes_of_string default).

(** The function set last. *)
Definition in_force (l : list call) : option Z :=
  fold_left (fun f c => match c with SetFunc g => g | _ => f end) l None.

(** The vector [v] is sent to [fd] until the answer is not EINTR. *)
Inductive sent (fd : Z) (v : list (list Z)) : list ev -> Z -> Prop :=
  | sent_now : forall ret, ret <> - EINTR -> sent fd v [Wrote fd v ret] ret
  | sent_again : forall evs ret, sent fd v evs ret -> sent fd v (Wrote fd v (- EINTR) :: evs) ret.

(** ** C109 *)
Lemma held_app t u : held (t ++ u) = fold_left effect u (held t).
Proof. apply fold_left_app. Qed.

(** The name in the environment is cut after 21 bytes. *)
Lemma device_asks y dev default var : (forall n, y_env y (bytes_of_string var) = Some n -> zlen n <= 21) ->
  asks y default var dev (device y dev (bytes_of_string default) (bytes_of_string var)).
Proof.
  intros H. unfold device. destruct dev as [p|]; [constructor|]. destruct (y_env y (bytes_of_string var)) as [n|] eqn:E.
  - rewrite ztake_all; [apply ask_name; auto|]. rewrite zlen_app. specialize (H n eq_refl). change (zlen (bytes_of_string "/dev/ulog_")) with 10. lia.
  - now constructor.
Qed.

(** Opening for raw writing: the device that is asked for is opened, once. Either the result is a
    descriptor of a character device, still open, on which raw mode was set; or it is an error and
    nothing is left open. *)
Theorem C109_raw_open : forall y t dev t' ret, ulog_raw_open y t dev = (t', ret) ->
  (forall n, y_env y (bytes_of_string "ULOG_DEVICE") = Some n -> zlen n <= 21) ->
  exists evs path, t' = t ++ evs /\ asks y "ulog_main" "ULOG_DEVICE" dev path /\ opened evs = [path] /\
  (0 <= ret -> held evs = [ret] /\ (exists t1, y_stat y t1 ret = Some true) /\ exists r, 0 <= r /\ In (RawMode ret 1 r) evs) /\
  (ret < 0 -> held evs = [] /\
    (In (Open path ret) evs \/
     (ret = - EINVAL /\ exists fd t1, In (Open path fd) evs /\ y_stat y t1 fd <> Some true) \/
     (ret = - ENOSYS /\ exists fd r, r < 0 /\ In (RawMode fd 1 r) evs))).
Proof.
  intros y t dev t' ret H Hn. pose proof (device_asks y dev "ulog_main" "ULOG_DEVICE" Hn) as Ha. unfold ulog_raw_open in H. revert H.
  set (path := device y dev _ _) in *. set (fd := y_open y t path). unfold fail.
  destruct (Z.ltb_spec fd 0) as [L|L].
  { destruct (Z.leb_spec 0 fd); [lia|]. intros [= <- <-]. exists [Open path fd], path. split; [reflexivity|]. split; [exact Ha|]. split; [reflexivity|].
    split; [lia|]. intros _. unfold held. cbn. destruct (Z.ltb_spec fd 0); [|lia]. auto. }
  destruct (Z.leb_spec 0 fd); [|lia].
  set (s := y_stat y (t ++ [Open path fd]) fd). destruct (chr s) eqn:Es; cbn [negb].
  2:{ intros [= <- <-]. exists [Open path fd; Stat fd; Close fd], path. rewrite <- !app_assoc. split; [reflexivity|]. split; [exact Ha|]. split; [reflexivity|].
      split; [unfold EINVAL; lia|]. intros _. unfold held. cbn. destruct (Z.ltb_spec fd 0); [lia|]. cbn. rewrite Z.eqb_refl. split; [reflexivity|].
      right; left. split; [reflexivity|]. exists fd, (t ++ [Open path fd]). split; [auto|]. fold s. intros X. rewrite X in Es. discriminate. }
  set (r := y_mode y _ fd 1). destruct (Z.ltb_spec r 0) as [Lr|Lr].
  - intros [= <- <-]. exists [Open path fd; Stat fd; RawMode fd 1 r; Close fd], path. rewrite <- !app_assoc. split; [reflexivity|]. split; [exact Ha|]. split; [reflexivity|].
    split; [unfold ENOSYS; lia|]. intros _. unfold held. cbn. destruct (Z.ltb_spec fd 0); [lia|]. cbn. rewrite Z.eqb_refl. split; [reflexivity|].
    right; right. split; [reflexivity|]. exists fd, r. split; [exact Lr|]. auto.
  - intros [= <- <-]. exists [Open path fd; Stat fd; RawMode fd 1 r], path. rewrite <- !app_assoc. split; [reflexivity|]. split; [exact Ha|]. split; [reflexivity|].
    split; [|lia]. intros _. unfold held. cbn. destruct (Z.ltb_spec fd 0); [lia|]. split; [reflexivity|]. split; [|exists r; auto].
    exists (t ++ [Open path fd]). fold s. destruct s as [[]|]; cbn in Es; congruence.
Qed.

(** The same for binary writing, without raw mode. *)
Theorem C109_bin_open : forall y t dev t' ret, ulog_bin_open false y t dev = (t', ret) ->
  (forall n, y_env y (bytes_of_string "ULOG_DEVICE_BIN") = Some n -> zlen n <= 21) ->
  exists evs path, t' = t ++ evs /\ asks y "ulog_mainbin" "ULOG_DEVICE_BIN" dev path /\ opened evs = [path] /\
  (0 <= ret -> held evs = [ret] /\ (exists t1, y_stat y t1 ret = Some true) /\ forall m r, ~ In (RawMode ret m r) evs) /\
  (ret < 0 -> held evs = [] /\
    (In (Open path ret) evs \/ (ret = - EINVAL /\ exists fd t1, In (Open path fd) evs /\ y_stat y t1 fd <> Some true))).
Proof.
  intros y t dev t' ret H Hn. pose proof (device_asks y dev "ulog_mainbin" "ULOG_DEVICE_BIN" Hn) as Ha. unfold ulog_bin_open in H. revert H.
  set (path := device y dev _ _) in *. set (fd := y_open y t path). unfold fail.
  destruct (Z.ltb_spec fd 0) as [L|L].
  { destruct (Z.leb_spec 0 fd); [lia|]. intros [= <- <-]. exists [Open path fd], path. split; [reflexivity|]. split; [exact Ha|]. split; [reflexivity|].
    split; [lia|]. intros _. unfold held. cbn. destruct (Z.ltb_spec fd 0); [|lia]. auto. }
  destruct (Z.leb_spec 0 fd); [|lia].
  set (s := y_stat y (t ++ [Open path fd]) fd). destruct (chr s) eqn:Es; cbn [negb].
  - intros [= <- <-]. exists [Open path fd; Stat fd], path. rewrite <- !app_assoc. split; [reflexivity|]. split; [exact Ha|]. split; [reflexivity|].
    split; [|lia]. intros _. unfold held. cbn. destruct (Z.ltb_spec fd 0); [lia|]. split; [reflexivity|]. split.
    + exists (t ++ [Open path fd]). fold s. destruct s as [[]|]; cbn in Es; congruence.
    + intros m r [X|[X|[]]]; discriminate.
  - intros [= <- <-]. exists [Open path fd; Stat fd; Close fd], path. rewrite <- !app_assoc. split; [reflexivity|]. split; [exact Ha|]. split; [reflexivity|].
    split; [unfold EINVAL; lia|]. intros _. unfold held. cbn. destruct (Z.ltb_spec fd 0); [lia|]. cbn. rewrite Z.eqb_refl. split; [reflexivity|].
    right. split; [reflexivity|]. exists fd, (t ++ [Open path fd]). split; [auto|]. fold s. intros X. rewrite X in Es. discriminate.
Qed.

(** For names of any length: the variable selects a device of the driver exactly if it has its name. *)
Theorem C109_named : forall pow2 l s rets d y n default var,
  PropsRegistry.reaches pow2 l s rets -> In d (PropsRegistry.devs (Registry.r_logs s)) ->
  y_env y (bytes_of_string var) = Some n ->
  device y None (bytes_of_string default) (bytes_of_string var) = bytes_of_string "/dev/" ++ Registry.d_name d <->
  bytes_of_string "ulog_" ++ n = Registry.d_name d.
Proof.
  intros pow2 l s rets d y n default var R Hd En. unfold device. rewrite En.
  destruct (PropsRegistry.C17_consistent _ _ _ _ R) as (_ & F & _). rewrite Forall_forall in F. destruct (F d Hd) as ((k & Ek & Lk & _) & _).
  assert (P : bytes_of_string "/dev/ulog_" ++ n = bytes_of_string "/dev/" ++ bytes_of_string "ulog_" ++ n) by reflexivity.
  assert (Lp : zlen (bytes_of_string "/dev/ulog_" ++ n) = 10 + zlen n) by (rewrite zlen_app; reflexivity).
  assert (Ld : zlen (Registry.d_name d) <= 15) by (rewrite Ek, zlen_app; change (zlen (bytes_of_string "ulog_")) with 5; lia).
  split.
  - intros E. destruct (Z.le_gt_cases (zlen n) 21) as [L|L].
    + rewrite ztake_all in E by lia. rewrite P in E. now apply app_inv_head in E.
    + exfalso. apply (f_equal (@zlen Z)) in E. rewrite zlen_ztake, Lp, zlen_app in E. change (zlen (bytes_of_string "/dev/")) with 5 in E. lia.
  - intros E. rewrite ztake_all; [now rewrite P, E|]. rewrite Lp. rewrite <- E, zlen_app in Ld. change (zlen (bytes_of_string "ulog_")) with 5 in Ld. lia.
Qed.

(** Whatever calls a program makes, the descriptors that are open are those that it was given and
    has not closed. *)
Lemma writes_held fuel y fd v : forall t, held (fst (writev_loop fuel y t fd v)) = held t.
Proof.
  induction fuel as [|f IH]; intros t; [reflexivity|]. cbn [writev_loop].
  assert (E : held (t ++ [Wrote fd v (y_writev y t fd v)]) = held t) by (rewrite held_app; reflexivity).
  destruct (_ =? _); cbn [fst]; [now rewrite IH|exact E].
Qed.
Lemma send_held fuel y t fd p : held (fst (raw_send fuel y t fd p)) = held t.
Proof.
  destruct p as [r|v]; [reflexivity|]. cbn [raw_send]. pose proof (writes_held fuel y fd v t) as H. destruct (writev_loop fuel y t fd v). exact H.
Qed.
Lemma bin_held fuel ext y f t fd tag iov : held (fst (ulog_bin_writev fuel ext y f t fd tag iov)) = held t.
Proof.
  unfold ulog_bin_writev. destruct f; [cbn [fst]; rewrite held_app; reflexivity|]. destruct ext; [reflexivity|].
  pose proof (writes_held fuel y fd (bin_iov tag iov) t) as H. destruct (writev_loop _ _ _ _ _). exact H.
Qed.
Lemma fail_held t fd ret h : held t = fd :: h -> 0 <= fd -> held (fst (fail t fd ret)) = h.
Proof. intros E H. unfold fail. destruct (Z.leb_spec 0 fd); [|lia]. cbn [fst]. rewrite held_app, E. cbn. now rewrite Z.eqb_refl. Qed.
Lemma step_held fuel ext y s c : (ext = false \/ forall dev, c <> BinOpen dev) -> (forall fd, c = BinClose fd -> ext = false) ->
  held (s_tr (fst (step fuel ext y s c))) = given (held (s_tr s)) (c, snd (step fuel ext y s c)).
Proof.
  intros He Hc. destruct c as [dev|fd|fd raw|fd raw iov|dev|fd|fd tag buf|fd tag iov|f]; cbn [step fst snd s_tr given].
  - unfold ulog_raw_open. set (path := device y dev _ _). set (fd := y_open y (s_tr s) path).
    destruct (Z.ltb_spec fd 0) as [L|L].
    { unfold fail. destruct (Z.leb_spec 0 fd); [lia|]. cbn [fst snd]. rewrite held_app. cbn. destruct (Z.ltb_spec fd 0); [reflexivity|lia]. }
    destruct (chr _); cbn [negb].
    + set (r := y_mode y _ fd 1). destruct (r <? 0).
      * unfold fail at 1. destruct (Z.leb_spec 0 fd); [|lia]. cbn [fst snd given]. rewrite !held_app. cbn. destruct (Z.ltb_spec fd 0); [lia|]. cbn. now rewrite Z.eqb_refl.
      * cbn [fst snd given]. rewrite !held_app. cbn. destruct (Z.ltb_spec fd 0); [lia|reflexivity].
    + unfold fail at 1. destruct (Z.leb_spec 0 fd); [|lia]. cbn [fst snd given]. rewrite !held_app. cbn. destruct (Z.ltb_spec fd 0); [lia|]. cbn. now rewrite Z.eqb_refl.
  - unfold ulog_raw_close. destruct (Z.leb_spec 0 fd); destruct (Z.ltb_spec fd 0); try lia; [|reflexivity]. now rewrite held_app.
  - apply send_held.
  - apply send_held.
  - destruct He as [->|He]; [|now destruct (He dev)]. unfold ulog_bin_open. set (path := device y dev _ _). set (fd := y_open y (s_tr s) path).
    destruct (Z.ltb_spec fd 0) as [L|L].
    { unfold fail. destruct (Z.leb_spec 0 fd); [lia|]. cbn [fst snd]. rewrite held_app. cbn. destruct (Z.ltb_spec fd 0); [reflexivity|lia]. }
    destruct (chr _); cbn [negb].
    + cbn [fst snd given]. rewrite !held_app. cbn. destruct (Z.ltb_spec fd 0); [lia|reflexivity].
    + unfold fail at 1. destruct (Z.leb_spec 0 fd); [|lia]. cbn [fst snd given]. rewrite !held_app. cbn. destruct (Z.ltb_spec fd 0); [lia|]. cbn. now rewrite Z.eqb_refl.
  - rewrite (Hc fd eq_refl). unfold ulog_bin_close. destruct (Z.leb_spec 0 fd); destruct (Z.ltb_spec fd 0); try lia; [|reflexivity]. now rewrite held_app.
  - apply bin_held.
  - apply bin_held.
  - reflexivity.
Qed.
Theorem C109_no_leak : forall fuel y l s rets, run fuel false y init l = (s, rets) -> held (s_tr s) = has l rets.
Proof.
  intros fuel y l s rets. unfold has. change (@nil Z) with (held (s_tr init)). generalize init as s0. revert s rets.
  induction l as [|c l IH]; intros s rets s0; cbn [run].
  - intros [= <- <-]. reflexivity.
  - destruct (step fuel false y s0 c) as [s1 r] eqn:E. destruct (run fuel false y s1 l) as [s2 rs] eqn:E2. intros [= <- <-].
    cbn [combine fold_left]. rewrite (IH _ _ _ E2). f_equal.
    pose proof (step_held fuel false y s0 c (or_introl eq_refl) (fun _ _ => eq_refl)) as H. rewrite E in H. exact H.
Qed.

(** ** C110 *)
Lemma loop_sent fuel y fd v : forall t t' ret, writev_loop fuel y t fd v = (t', Some ret) -> exists evs, t' = t ++ evs /\ sent fd v evs ret.
Proof.
  induction fuel as [|f IH]; intros t t' ret; cbn [writev_loop]; [discriminate|].
  destruct (Z.eqb_spec (y_writev y t fd v) (- EINTR)) as [E|E].
  - intros H. destruct (IH _ _ _ H) as (evs & -> & S). rewrite <- app_assoc, E. exists (Wrote fd v (- EINTR) :: evs). split; [reflexivity|now constructor].
  - intros [= <- <-]. exists [Wrote fd v (y_writev y t fd v)]. split; [reflexivity|now constructor].
Qed.
Lemma run_func fuel ext y : forall l s s' rets, run fuel ext y s l = (s', rets) ->
  s_func s' = fold_left (fun f c => match c with SetFunc g => g | _ => f end) l (s_func s).
Proof.
  induction l as [|c l IH]; intros s s' rets; cbn [run].
  - intros [= <- <-]. reflexivity.
  - destruct (step fuel ext y s c) as [s1 r] eqn:E. destruct (run fuel ext y s1 l) as [s2 rs] eqn:E2. intros [= <- <-]. cbn [fold_left].
    rewrite (IH _ _ _ E2). f_equal. destruct c; cbn [step] in E; inversion E; reflexivity.
Qed.

(** A binary write that returns, after any calls: if a custom function was set it gets the tag and
    the data, and nothing else happens. Otherwise, without devices (not on Linux), the result is
    ENOSYS; with devices one vector is sent to the descriptor, until the answer is not EINTR: its
    bytes are the level with the binary flag, the tag and the data. The result is that of the last
    attempt, 0 if something was written. *)
Theorem C110_bin_write : forall fuel ext y l s rets fd tag iov s' r, run fuel ext y init l = (s, rets) ->
  step fuel ext y s (BinWritev fd tag iov) = (s', Some r) ->
  exists evs, s_tr s' = s_tr s ++ evs /\
  match in_force l with
  | Some f => evs = [Custom f tag iov] /\ r = 0
  | None =>
    if ext then evs = [] /\ r = - 38
    else exists v ret, sent fd v evs ret /\ concat v = [6 + 128; 0; 0; 0] ++ tag ++ concat iov /\
           (0 < ret -> r = 0) /\ (ret < 0 -> r = ret)
  end.
Proof.
  intros fuel ext y l s rets fd tag iov s' r HR. pose proof (run_func _ _ _ _ _ _ _ HR) as Hf. cbn [s_func init] in Hf. fold (in_force l) in Hf.
  cbn [step]. unfold ulog_bin_writev. rewrite Hf. destruct (in_force l) as [f|].
  { intros [= <- <-]. exists [Custom f tag iov]. auto. }
  destruct ext. { intros [= <- <-]. exists []. cbn [s_tr]. rewrite app_nil_r. auto. }
  destruct (writev_loop fuel y (s_tr s) fd (bin_iov tag iov)) as [t' [ret|]] eqn:E; cbn [fst snd]; [|discriminate].
  destruct (loop_sent _ _ _ _ _ _ _ E) as (evs & -> & S). intros [= <- <-]. exists evs. split; [reflexivity|].
  exists (bin_iov tag iov), ret. split; [exact S|]. split; [reflexivity|]. split; intros L.
  - destruct (Z.ltb_spec 0 ret); [reflexivity|lia].
  - destruct (Z.ltb_spec 0 ret); [lia|]. destruct (Z.eqb_spec ret 0); [lia|reflexivity].
Qed.
(** A write of one block is a write of a vector of one. *)
Theorem C110_bin_write_one : forall fuel ext y s fd tag buf,
  step fuel ext y s (BinWrite fd tag buf) = step fuel ext y s (BinWritev fd tag [buf]).
Proof. reflexivity. Qed.
(** A raw write never depends on the custom function: it is refused and nothing happens, or one
    vector is sent until the answer is not EINTR, and the result is that of the last attempt. *)
Theorem C110_raw_write : forall fuel ext y s fd raw s' r, step fuel ext y s (RawLog fd raw) = (s', Some r) ->
  exists evs, s_tr s' = s_tr s ++ evs /\ s_func s' = s_func s /\
  ((evs = [] /\ r = - 22 /\ (fd < 0 \/ raw = None \/ exists e, raw = Some e /\ rw_pid e = -1 /\ rw_tid e = -1)) \/
   (0 <= fd /\ exists e v ret, raw = Some e /\ sent fd v evs ret /\
      concat v = le 4 (rw_pid e) ++ le 4 (rw_tid e) ++ le 4 (rw_sec e) ++ le 4 (rw_nsec e) ++ le 4 (rw_euid e) ++
                 rw_pname e ++ (if rw_pid e =? rw_tid e then [] else rw_tname e) ++ le 4 (rw_prio e) ++ rw_tag e ++
                 match rw_message e with Some m => m | None => [] end /\
      r = (if ret <? 0 then ret else 0))).
Proof.
  intros fuel ext y s fd raw s' r. cbn [step]. unfold ulog_raw_log. destruct raw as [e|].
  2:{ intros [= <- <-]. exists []. cbn [s_tr s_func]. rewrite app_nil_r. split; [reflexivity|]. split; [reflexivity|]. left. auto. }
  unfold ulog_raw_logv. cbn [rw_message rw_pid rw_tid rw_sec rw_nsec rw_euid rw_prio rw_pname rw_tname rw_tag].
  destruct (Z.ltb_spec fd 0) as [L|L]; cbn [orb].
  { intros [= <- <-]. exists []. cbn [s_tr s_func fst]. rewrite app_nil_r. split; [reflexivity|]. split; [reflexivity|]. left. auto. }
  destruct ((rw_pid e =? -1) && (rw_tid e =? -1)) eqn:Ep.
  { intros [= <- <-]. exists []. cbn [s_tr s_func fst]. rewrite app_nil_r. split; [reflexivity|]. split; [reflexivity|]. left.
    split; [reflexivity|]. split; [reflexivity|]. right; right. exists e. split; [reflexivity|]. lia. }
  cbn [raw_send]. set (v := _ ++ _ : list (list Z)).
  destruct (writev_loop fuel y (s_tr s) fd v) as [t' [ret|]] eqn:E; cbn [fst snd]; [|discriminate].
  destruct (loop_sent _ _ _ _ _ _ _ E) as (evs & -> & S). intros [= <- <-]. exists evs. split; [reflexivity|]. split; [reflexivity|]. right. split; [exact L|].
  exists e, v, ret. split; [reflexivity|]. split; [exact S|]. split; [|reflexivity]. unfold v. rewrite !concat_app. cbn [concat]. rewrite !app_nil_r.
  destruct (rw_pid e =? rw_tid e); cbn [concat]; rewrite ?app_nil_r, <- ?app_assoc; reflexivity.
Qed.

(** ** Examples *)
(** Opening succeeds once with descriptor 5 and is refused the second time by the driver; then a
    binary write interrupted once. *)
Definition ex_y : sys := mkSys (fun v => if bytes_eqb v (bytes_of_string "ULOG_DEVICE") then Some (bytes_of_string "flight") else None)
  (fun t _ => 5 + zlen (opened t)) (fun _ _ => Some true) (fun _ fd _ => if fd =? 5 then 0 else -25)
  (fun t _ _ => match rev t with Wrote _ _ _ :: _ => 12 | _ => -4 end) (fun _ => 0).
Definition ex_calls : list call :=
  [RawOpen None; RawOpen (Some (bytes_of_string "/dev/ulog_old")); BinOpen None; BinWrite 7 [116; 0] [1; 2]; SetFunc (Some 1); BinWrite 7 [116; 0] [3];
   RawClose 5].
Example C109_ex : run 2 false ex_y init ex_calls =
  (mkSt [Open (bytes_of_string "/dev/ulog_flight") 5; Stat 5; RawMode 5 1 0;
         Open (bytes_of_string "/dev/ulog_old") 6; Stat 6; RawMode 6 1 (-25); Close 6;
         Open (bytes_of_string "/dev/ulog_mainbin") 7; Stat 7;
         Wrote 7 [[134; 0; 0; 0]; [116; 0]; [1; 2]] (-4); Wrote 7 [[134; 0; 0; 0]; [116; 0]; [1; 2]] 12;
         Custom 1 [116; 0] [[3]]; Close 5] (Some 1),
   [Some 5; Some (-38); Some 7; Some 0; Some 0; Some 0; Some 0]).
Proof. vm_compute. reflexivity. Qed.
Example C109_ex_held : held (s_tr (fst (run 2 false ex_y init ex_calls))) = [7].
Proof. vm_compute. reflexivity. Qed.
Example C109_ex_name : forall n, y_env ex_y (bytes_of_string "ULOG_DEVICE") = Some n -> zlen n <= 21.
Proof. cbn. intros n [= <-]. vm_compute. discriminate. Qed.
Example C110_ex : exists s, step 2 false ex_y init (RawLog 5 (Some (mkRaw 7 8 1 2 0 6 [112; 0] [113; 0] [116; 0] (Some [109; 0])))) = (s, Some 0) /\
  length (s_tr s) = 2%nat.
Proof. eexists. split; [reflexivity|vm_compute; reflexivity]. Qed.

Print Assumptions C109_raw_open.
Print Assumptions C109_bin_open.
Print Assumptions C109_named.
Print Assumptions C109_no_leak.
Print Assumptions C110_bin_write.
Print Assumptions C110_bin_write_one.
Print Assumptions C110_raw_write.
