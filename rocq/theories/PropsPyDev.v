(** Properties C157 to C159: ULogDeviceHandler of the python binding.

    Vocabulary: PyDevSpec.v; PropsDevopen.v ([held], [opened]), PropsRegistry.v ([reaches], [devs],
    [valid_name]), PySpec.v, ParseSpec.v. *)
From Coq Require Import ZArith String List Bool Lia ZifyBool ZifyNat Arith.
From Verif Require Import Bytes BytesProofs Parse Iov Devopen PropsDevopen Registry PropsRegistry.
From Verif Require Import PropsParse Ring RingSpec RingHistory PropsRing ParseSpec ParseProofs ParseE2E Py PySpec PyProofs PropsPy PyDev PyDevSpec.
Import ListNotations.
Open Scope Z_scope.

(** ** C157 *)
Lemma resolve_named name : named name (fst (resolve name)) /\ snd (resolve name) = bytes_of_string "/dev/ulog_" ++ fst (resolve name).
Proof.
  unfold resolve, startswith. destruct (bytes_eqb _ _) eqn:E.
  - apply bytes_eqb_eq in E. cbn [fst snd]. assert (X : name = bytes_of_string "/dev/ulog_" ++ zdrop 10 name).
    { rewrite <- (firstn_skipn 10 name) at 1. f_equal. exact E. }
    split; [|exact X]. rewrite X at 1. constructor.
  - cbn [fst snd]. split; [|reflexivity]. constructor. intros m ->. rewrite firstn_app, firstn_all, Nat.sub_diag, firstn_O, app_nil_r in E.
    assert (bytes_eqb (bytes_of_string "/dev/ulog_") (bytes_of_string "/dev/ulog_") = true) by reflexivity. congruence.
Qed.
Lemma exists_path_ok s n : exists_path s (bytes_of_string "/dev/ulog_" ++ n) = true <-> In (bytes_of_string "ulog_" ++ n) (map Registry.d_name (devs (r_logs s))).
Proof.
  unfold exists_path. induction (r_logs s) as [|o l IH]; cbn [existsb]; [split; [discriminate|intros []]|]. destruct o as [d|]; cbn [devs flat_map app map].
  - rewrite orb_true_iff. fold (devs l). cbn [In]. rewrite <- IH. apply or_iff_compat_r. split.
    + intros E. apply bytes_eqb_eq in E. change (bytes_of_string "/dev/ulog_") with (bytes_of_string "/dev/" ++ bytes_of_string "ulog_") in E. rewrite <- app_assoc in E. apply app_inv_head in E. now symmetry.
    + intros ->. apply bytes_eqb_eq. reflexivity.
  - exact IH.
Qed.
Lemma raw_opened y path t fd : ulog_raw_open y [] (Some path) = (t, fd) -> Forall (eq path) (opened t) /\
  (0 <= fd -> held t = [fd] /\ exists r, 0 <= r /\ In (RawMode fd 1 r) t) /\ (fd < 0 -> held t = [] /\ forall f r, In (RawMode f 1 r) t -> r < 0).
Proof.
  unfold ulog_raw_open. cbn [device]. cbv zeta. set (f := y_open y [] path). unfold fail. cbn [app]. destruct (Z.ltb_spec f 0) as [L|L].
  - destruct (Z.leb_spec 0 f); [lia|]. intros [= <- <-]. cbn [opened flat_map app]. split; [repeat constructor|]. split; [lia|]. intros _. unfold held. cbn [fold_left effect].
    destruct (Z.ltb_spec f 0); [|lia]. split; [reflexivity|]. intros f0 r [X|[]]; discriminate.
  - destruct (Z.leb_spec 0 f); [|lia]. destruct (chr _); cbn [negb].
    + destruct (Z.ltb_spec (y_mode y [Open path f; Stat f] f 1) 0) as [M|M]; intros [= <- <-]; cbn [opened flat_map app]; (split; [repeat constructor|]); unfold held; cbn [fold_left effect PropsDevopen.remove1 app];
      destruct (Z.ltb_spec f 0); try lia; cbn [fold_left effect PropsDevopen.remove1]; rewrite ?Z.eqb_refl.
      * split; [unfold ENOSYS; lia|]. intros _. split; [reflexivity|]. intros f0 r [X|[X|[X|[X|[]]]]]; try discriminate. injection X as <- <-. exact M.
      * split; [|lia]. intros _. split; [reflexivity|]. eexists. split; [exact M|]. right; right; left; reflexivity.
    + intros [= <- <-]. cbn [opened flat_map app]. split; [repeat constructor|]. split; [unfold EINVAL; lia|]. intros _. unfold held. cbn [fold_left effect PropsDevopen.remove1 app].
      destruct (Z.ltb_spec f 0); [lia|]. cbn [fold_left effect PropsDevopen.remove1]. rewrite Z.eqb_refl. split; [reflexivity|]. intros f0 r [X|[X|[X|[]]]]; discriminate.
Qed.

(** A handler opens the device it is named for, in raw mode or, if that fails, in the usual mode; one file
    is open then, and none if the constructor raises. Devices that exist are left alone. *)
Theorem C157_open : forall p name raw pid pow2 l s rets s' t r, reaches pow2 l s rets -> init p name raw pid s = Ok (s', t, r) ->
  exists n, named name n /\ Forall (eq (bytes_of_string "/dev/ulog_" ++ n)) (opened t) /\
    (In (bytes_of_string "ulog_" ++ n) (map Registry.d_name (devs (r_logs s))) -> s' = s) /\
    match r with
    | Some st => 0 <= x_fd st /\ held t = [x_fd st] /\ held (close st t) = [] /\
        In (bytes_of_string "ulog_" ++ n) (map Registry.d_name (devs (r_logs s'))) /\
        (x_raw st = true <-> exists m, 0 <= m /\ In (RawMode (x_fd st) 1 m) t) /\ (raw = false -> x_raw st = false)
    | None => held t = []
    end.
Proof.
  intros p name raw pid pow2 l s rets s' t r R E. unfold init in E. destruct (resolve_named name) as [N P]. destruct (resolve name) as [n path]. cbn [fst snd] in *. subst path.
  exists n. split; [exact N|]. destruct (ensure p s n (bytes_of_string "/dev/ulog_" ++ n)) as [[s1 ok]|] eqn:EN; [|discriminate]. cbn [bind] in E.
  assert (K : (In (bytes_of_string "ulog_" ++ n) (map Registry.d_name (devs (r_logs s))) -> s1 = s) /\
              (ok = true -> In (bytes_of_string "ulog_" ++ n) (map Registry.d_name (devs (r_logs s1))))).
  { unfold ensure in EN. destruct (exists_path s (bytes_of_string "/dev/ulog_" ++ n)) eqn:X.
    - assert (s1 = s) by congruence. subst s1. apply exists_path_ok in X. auto.
    - split; [intros I; apply exists_path_ok in I; congruence|]. intros ->. destruct (negb (p_attr p)); [congruence|]. cbv zeta in EN.
      destruct (ulogger_add_log _ _ _ _) as [[s2 ret]|]; [|discriminate]. cbn [bind] in EN. assert (s2 = s1) by congruence. subst s2.
      assert (Y : negb (ret <? 0) && exists_path s1 (bytes_of_string "/dev/ulog_" ++ n) = true) by congruence. apply andb_true_iff in Y. now apply exists_path_ok. }
  destruct K as [K1 K2]. destruct ok; cbn [negb] in E.
  2: { assert (s1 = s' /\ t = [] /\ r = None) as (-> & -> & ->) by (repeat split; congruence). split; [constructor|]. auto. }
  set (path := bytes_of_string "/dev/ulog_" ++ n) in *.
  assert (PL : forall t0 pn, Forall (eq path) (opened t0) -> held t0 = [] -> (forall f m, In (RawMode f 1 m) t0 -> m < 0) ->
    (let (t, fd) := open_plain p t0 path in Ok (s1, t, match fd with Some fd => Some (mkDh false pid pn None None fd) | None => None end)) = Ok (s', t, r) ->
    Forall (eq path) (opened t) /\ (In (bytes_of_string "ulog_" ++ n) (map Registry.d_name (devs (r_logs s))) -> s' = s) /\
    match r with
    | Some st => 0 <= x_fd st /\ held t = [x_fd st] /\ held (close st t) = [] /\ In (bytes_of_string "ulog_" ++ n) (map Registry.d_name (devs (r_logs s'))) /\
        (x_raw st = true <-> exists m, 0 <= m /\ In (RawMode (x_fd st) 1 m) t) /\ (raw = false -> x_raw st = false)
    | None => held t = [] end).
  { intros t0 pn F H M X. unfold open_plain in X. set (fd := y_open (p_sys p) t0 path) in *. clearbody fd.
    assert (s1 = s' /\ t = t0 ++ [Open path fd] /\ r = match (if fd <? 0 then None else Some fd) with Some fd => Some (mkDh false pid pn None None fd) | None => None end) as (-> & -> & ->) by (repeat split; congruence).
    split; [unfold opened in *; rewrite flat_map_app; apply Forall_app; split; [exact F|repeat constructor]|]. split; [exact K1|].
    destruct (Z.ltb_spec fd 0).
    - rewrite held_app, H. cbn [fold_left effect]. destruct (Z.ltb_spec fd 0); [reflexivity|lia].
    - cbn [x_fd x_raw close]. assert (HT : held (t0 ++ [Open path fd]) = [fd]) by (rewrite held_app, H; cbn [fold_left effect]; destruct (Z.ltb_spec fd 0); [lia|reflexivity]).
      split; [lia|]. split; [exact HT|]. split; [rewrite held_app, HT; cbn [fold_left effect PropsDevopen.remove1]; now rewrite Z.eqb_refl|]. split; [now apply K2|]. split; [|auto]. split; [discriminate|].
      intros (m & M0 & I). apply in_app_or in I. destruct I as [I|[I|[]]]; [apply M in I; lia|discriminate]. }
  destruct raw; [|exact (PL [] None (Forall_nil _) eq_refl (fun _ _ x => match x with end) E)].
  unfold open_raw in E. destruct (p_comm p) as [c|]; [|exact (PL [] None (Forall_nil _) eq_refl (fun _ _ x => match x with end) E)].
  destruct (ulog_raw_open (p_sys p) [] (Some path)) as [t0 fd] eqn:RO. destruct (raw_opened _ _ _ _ RO) as (F & A & B). destruct (Z.ltb_spec fd 0) as [L|L].
  - destruct (B L) as [B1 B2]. exact (PL t0 _ F B1 B2 E).
  - assert (s1 = s' /\ t = t0 /\ r = Some (mkDh true pid (Some (strip_white c)) None None fd)) as (-> & -> & ->) by (repeat split; congruence). destruct (A L) as [A1 A2].
    split; [exact F|]. split; [exact K1|]. cbn [x_fd x_raw close]. split; [exact L|]. split; [exact A1|]. split; [unfold ulog_raw_close; destruct (Z.leb_spec 0 fd); [|lia]; rewrite held_app, A1; cbn [fold_left effect PropsDevopen.remove1]; now rewrite Z.eqb_refl|].
    split; [now apply K2|]. split; [|discriminate]. split; auto.
Qed.

(** A system where descriptors count from 3 and everything works. *)
Definition ex_sys : sys := mkSys (fun _ => None) (fun t _ => 3 + zlen t) (fun _ _ => Some true) (fun _ _ _ => 0) (fun _ _ _ => 0) (fun _ => 0).
Definition ex_py : pysys := mkPs ex_sys true (mkA true true true true) (Some (bytes_of_string "python3" ++ [10])).
Definition ex_reg : reg := mkReg (Some (Registry.mkDev (bytes_of_string "ulog_main") (2 ^ 18) true [0]) :: repeat None 15) [0] 1.
Lemma ex_reg_reached : reaches 18 [] ex_reg [].
Proof. exists ex_reg. split; reflexivity. Qed.
Example C157_open_ex : reaches 18 [] ex_reg [] /\
  init ex_py (bytes_of_string "main") true 77 ex_reg = Ok (ex_reg, [Open (bytes_of_string "/dev/ulog_main") 3; Stat 3; RawMode 3 1 0], Some (mkDh true 77 (Some (bytes_of_string "python3")) None None 3)).
Proof. split; [exact ex_reg_reached|]. vm_compute. reflexivity. Qed.

Lemma named_resolve name n : named name n -> resolve name = (n, bytes_of_string "/dev/ulog_" ++ n).
Proof.
  intros H. unfold resolve, startswith. destruct H as [n|n N].
  - rewrite firstn_app, firstn_all, Nat.sub_diag, firstn_O, app_nil_r. rewrite (proj2 (bytes_eqb_eq _ _) eq_refl). reflexivity.
  - destruct (bytes_eqb _ _) eqn:E; [|reflexivity]. apply bytes_eqb_eq in E. exfalso. apply (N (zdrop 10 n)). rewrite <- (firstn_skipn 10 n) at 1. f_equal. exact E.
Qed.
Lemma scan_17 n e : valid_name n -> (e = [] \/ e = [10]) -> sscanf_spec (n ++ 32 :: 49 :: 55 :: e ++ [0]) = Some (n, 17).
Proof.
  intros Vn He. unfold sscanf_spec. pose proof (valid_no_space n Vn) as F.
  assert (C : cstr (n ++ 32 :: 49 :: 55 :: e ++ [0]) = n ++ 32 :: 49 :: 55 :: e).
  { replace (n ++ 32 :: 49 :: 55 :: e ++ [0]) with ((n ++ 32 :: 49 :: 55 :: e) ++ 0 :: []) by (rewrite <- app_assoc; reflexivity).
    apply cstr_app_nul. rewrite in_app_iff. intros [Hi|Hi].
    - rewrite Forall_forall in F. destruct (F 0 Hi) as (_ & X). congruence.
    - destruct He as [-> | ->]; cbn in Hi; intuition discriminate. }
  rewrite C. destruct Vn as (l' & En & Ll & Fl).
  assert (Sk : skip_spaces (n ++ 32 :: 49 :: 55 :: e) = n ++ 32 :: 49 :: 55 :: e) by (rewrite En; reflexivity).
  assert (Cons : exists c t, n ++ 32 :: 49 :: 55 :: e = c :: t) by (rewrite En; cbn; eauto). destruct Cons as (c & t & Ec). rewrite Ec. rewrite <- Ec.
  rewrite Sk, scan_word_stop.
  - destruct He as [-> | ->]; reflexivity.
  - rewrite En, app_length. unfold zlen in Ll. change (List.length (bytes_of_string "ulog_")) with 5%nat. lia.
  - apply Forall_forall. intros x Hx. rewrite Forall_forall in F. apply (F x Hx).
Qed.
(** A device that is missing is created, with 128 kB, and opened. *)
Theorem C157_creates : forall p name n raw pid pow2 l s rets, reaches pow2 l s rets -> named name n -> valid_name (bytes_of_string "ulog_" ++ n) ->
  ~ In (bytes_of_string "ulog_" ++ n) (map Registry.d_name (devs (r_logs s))) -> zlen (devs (r_logs s)) < 16 -> p_attr p = true -> p_mem p = mkA true true true true ->
  exists s' t r d, init p name raw pid s = Ok (s', t, r) /\ devs (r_logs s') = devs (r_logs s) ++ [d] /\ Registry.d_name d = bytes_of_string "ulog_" ++ n /\ Registry.d_size d = 131072 /\
    In (bytes_of_string "/dev/ulog_" ++ n) (opened t).
Proof.
  intros p name n raw pid pow2 l s rets R N V NI L A M. unfold init. rewrite (named_resolve _ _ N).
  assert (X : exists_path s (bytes_of_string "/dev/ulog_" ++ n) = false) by (destruct (exists_path _ _) eqn:X; [apply exists_path_ok in X; contradiction|reflexivity]).
  destruct (C17_accepts pow2 l s rets (bytes_of_string "ulog_" ++ n) 17 (zlen (bytes_of_string "ulog_" ++ n ++ bytes_of_string " 17")) R V ltac:(lia) NI L) as (s' & d & E & D & D1 & D2).
  assert (EN : ensure p s n (bytes_of_string "/dev/ulog_" ++ n) = Ok (s', true)).
  { unfold ensure. rewrite X, A, M. cbn [negb]. cbv zeta.
    assert (Q : forall t, ulogger_add_log s ((bytes_of_string "ulog_" ++ n ++ bytes_of_string " 17") ++ [0]) t (mkA true true true true) =
                ulogger_add_log s ((bytes_of_string "ulog_" ++ n) ++ [32] ++ dec_u 17 ++ [10; 0]) t (mkA true true true true)).
    { intros t. unfold ulogger_add_log. replace ((bytes_of_string "ulog_" ++ n ++ bytes_of_string " 17") ++ [0]) with ((bytes_of_string "ulog_" ++ n) ++ 32 :: 49 :: 55 :: [] ++ [0]) by (rewrite <- !app_assoc; reflexivity).
      replace ((bytes_of_string "ulog_" ++ n) ++ [32] ++ dec_u 17 ++ [10; 0]) with ((bytes_of_string "ulog_" ++ n) ++ 32 :: 49 :: 55 :: [10] ++ [0]) by reflexivity.
      rewrite !scan_17 by auto. reflexivity. }
    rewrite Q, E. cbn [bind]. f_equal. f_equal. apply andb_true_iff. split.
    - match goal with |- negb (zlen ?l <? 0) = true => pose proof (zlen_nonneg l) end. lia.
    - apply exists_path_ok. rewrite D, map_app, in_app_iff. right. left. exact D1. }
  rewrite EN. cbn [bind negb]. set (path := bytes_of_string "/dev/ulog_" ++ n).
  assert (PL : forall t0 pn, exists t r, (let (t, fd) := open_plain p t0 path in Ok (s', t, match fd with Some fd => Some (mkDh false pid pn None None fd) | None => None end)) = Ok (s', t, r) /\ In path (opened t)).
  { intros t0 pn. unfold open_plain. do 2 eexists. split; [reflexivity|]. unfold opened. rewrite flat_map_app, in_app_iff. right. left. reflexivity. }
  assert (G : exists t r, (let '(t, pname, fd) := if raw then open_raw p path else ([], None, None) in
    match fd with
    | Some fd => Ok (s', t, Some (mkDh true pid pname None None fd))
    | None => let (t, fd) := open_plain p t path in Ok (s', t, match fd with Some fd => Some (mkDh false pid pname None None fd) | None => None end)
    end) = Ok (s', t, r) /\ In path (opened t)).
  { destruct raw; [|apply PL]. unfold open_raw. destruct (p_comm p) as [c|]; [|apply PL]. destruct (ulog_raw_open (p_sys p) [] (Some path)) as [t0 fd] eqn:RO.
    destruct (Z.ltb_spec fd 0); [apply PL|]. do 2 eexists. split; [reflexivity|]. unfold ulog_raw_open in RO. cbn [device] in RO. cbv zeta in RO. unfold fail in RO. cbn [app] in RO.
    repeat match type of RO with context[if ?b then _ else _] => destruct b end; injection RO as <- <-; cbn [opened flat_map app In]; auto. }
  destruct G as (t & r & G1 & G2). exists s', t, r, d. split; [exact G1|]. split; [exact D|]. split; [exact D1|]. split; [exact D2|exact G2].
Qed.
Example C157_creates_ex : named (bytes_of_string "/dev/ulog_cam") (bytes_of_string "cam") /\ valid_name (bytes_of_string "ulog_" ++ bytes_of_string "cam") /\
  exists s' t r, init ex_py (bytes_of_string "/dev/ulog_cam") false 77 ex_reg = Ok (s', t, r) /\ map Registry.d_name (devs (r_logs s')) = [bytes_of_string "ulog_main"; bytes_of_string "ulog_cam"].
Proof.
  split; [change (bytes_of_string "/dev/ulog_cam") with (bytes_of_string "/dev/ulog_" ++ bytes_of_string "cam"); constructor|].
  split; [exists (bytes_of_string "cam"); split; [reflexivity|]; split; [vm_compute; discriminate|]; change (bytes_of_string "cam") with [99; 97; 109]; apply Forall_forall; intros c Hc; cbn in Hc; unfold lower; lia|].
  do 3 eexists. split; [vm_compute; reflexivity|]. vm_compute. reflexivity.
Qed.
(** A constructor that raises may have created a device all the same, another one: the digits after 10
    letters are taken for the size. *)
Theorem C157_other_device_refuted : exists p name pid pow2 l s rets s' t, reaches pow2 l s rets /\ init p name true pid s = Ok (s', t, None) /\
  devs (r_logs s') = devs (r_logs s) ++ [Registry.mkDev (bytes_of_string "ulog_navigation") 131072 false [1; 2; 3]] /\ name = bytes_of_string "navigation17".
Proof.
  exists ex_py, (bytes_of_string "navigation17"), 77, 18, [], ex_reg, []. do 2 eexists. split; [exact ex_reg_reached|]. split; [vm_compute; reflexivity|]. split; vm_compute; reflexivity.
Qed.

(** ** C158 *)
Lemma strip_name c : (forall a r, c = a :: r -> white a = false) -> (forall a r, c = r ++ [a] -> white a = false) -> strip_white (c ++ [10]) = c.
Proof.
  intros H1 H2. unfold strip_white.
  assert (X : forall l, (forall a r, l = a :: r -> white a = false) -> lstrip_white l = l) by (intros [|a r] H; [reflexivity|]; cbn [lstrip_white]; now rewrite (H a r eq_refl)).
  destruct c as [|a c0] eqn:E; [reflexivity|]. rewrite (X ((a :: c0) ++ [10])) by (intros b r Hb; cbn [app] in Hb; injection Hb as <- _; eapply H1; reflexivity). rewrite rev_app_distr. cbn [rev app lstrip_white].
  change (white 10) with true. cbn [lstrip_white]. change (rev c0 ++ [a]) with (rev (a :: c0)). rewrite X; [apply rev_involutive|].
  intros b r Hr. apply (f_equal (@rev Z)) in Hr. rewrite rev_involutive in Hr. cbn [rev] in Hr. eapply H2. exact Hr.
Qed.
Lemma init_raw p name raw pid s s' t st : init p name raw pid s = Ok (s', t, Some st) -> x_raw st = true -> raw = true /\ x_pid st = pid /\ x_tid st = None /\ x_tname st = None /\ exists c, p_comm p = Some c /\ x_pname st = Some (strip_white c).
Proof.
  unfold init. destruct (resolve name) as [n path]. destruct (ensure _ _ _ _) as [[s1 ok]|]; [|discriminate]. cbn [bind]. destruct ok; cbn [negb]; [|discriminate].
  assert (PL : forall t0 pn, (let (t, fd) := open_plain p t0 path in Ok (s1, t, match fd with Some fd => Some (mkDh false pid pn None None fd) | None => None end)) = Ok (s', t, Some st) -> x_raw st = false).
  { intros t0 pn. unfold open_plain. destruct (_ <? 0); [discriminate|]. intros E. assert (Some st = Some (mkDh false pid pn None None (y_open (p_sys p) t0 path))) as E1 by congruence. injection E1 as ->. reflexivity. }
  destruct raw; [|intros E; apply PL in E; congruence]. unfold open_raw. destruct (p_comm p) as [c|]; [|intros E; apply PL in E; congruence].
  destruct (ulog_raw_open _ _ _) as [t0 fd]. destruct (fd <? 0); [intros E; apply PL in E; congruence|]. intros E _.
  assert (Some st = Some (mkDh true pid (Some (strip_white c)) None None fd)) as E1 by congruence. injection E1 as ->. cbn. eauto 10.
Qed.
Lemma hset_last l : forall st w f, Forall meant l -> x_tid st <> Some 0 -> x_tname st <> Some [] ->
  let st' := fold_left hset l st in
  x_raw st' = x_raw st /\ x_pid st' = last_pid (x_pid st) l /\ thread_id f st' w = last_tid (thread_id f st w) l /\
  match x_pname st' with Some b => b | None => [] end = last_pname match x_pname st with Some b => b | None => [] end l /\
  match thread_name st' w with Bytes_name b => b | Text_name b => b end = last_tname (match thread_name st w with Bytes_name b => b | Text_name b => b end) l /\
  (forall b, thread_name st' w = Text_name b -> b = i_name w).
Proof.
  induction l as [|o l IH]; intros st w f FM T1 T2; cbn [fold_left].
  - cbv zeta. repeat split. intros b. unfold thread_name. destruct (x_tname st) as [[|c r]|]; congruence.
  - inversion FM as [|? ? Ho Fl]; subst. specialize (IH (hset st o) w f Fl). destruct o; cbn [hset x_raw x_pid x_tid x_tname x_pname meant] in *; cbv zeta in *.
    + destruct (IH T1 T2) as (A & B & C & D & E & G). auto 10.
    + destruct (IH ltac:(congruence) T2) as (A & B & C & D & E & G). repeat split; auto. rewrite C. unfold last_tid. cbn [fold_left]. f_equal. unfold thread_id. cbn [x_tid]. destruct (Z.eqb_spec v 0); [contradiction|reflexivity].
    + destruct (IH T1 ltac:(congruence)) as (A & B & C & D & E & G). repeat split; auto. rewrite E. unfold last_tname. cbn [fold_left]. f_equal. unfold thread_name. cbn [x_tname]. destruct b; [congruence|reflexivity].
    + destruct (IH T1 T2) as (A & B & C & D & E & G). auto 10.
Qed.
(** In raw mode readers get the process, the thread and their names set last, or those of who logs: in the
    process that made the handler, on a machine where system call 186 is gettid, for a thread whose name is
    ASCII, and unless the id 0 or an empty name was set for the thread. *)
Theorem C158_identity_partial : forall p dname s s' t0 st ops w sys186 comm l name text tag message prio lines line d fid t ksec knsec d' x f sec nsec v,
  init p dname true (i_pid w) s = Ok (s', t0, Some st) -> x_raw st = true -> Forall meant ops -> sys186 w = i_tid w ->
  p_comm p = Some (comm ++ [10]) -> (forall a r, comm = a :: r -> white a = false) -> (forall a r, comm = r ++ [a] -> white a = false) ->
  logging_prio l = Some prio -> encoding name tag -> encoding text message -> Forall scalar name -> Forall scalar text ->
  lines_of message lines -> In line lines -> device_line (handler_for sys186 (fold_left hset ops st) w) sec nsec prio tag line = inr (Writev v) ->
  reachable d -> lookup fid (d_files d) = Some f -> f_write f = true -> f_raw f = true ->
  let pid := last_pid (i_pid w) ops in let tid := last_tid (i_tid w) ops in let pn := last_pname comm ops in let tn := last_tname (i_name w) ops in
  Forall (fun c => 0 < c < 128) (i_name w) -> c_string pn -> c_string tn -> int32 pid -> int32 tid -> int32 sec -> int32 nsec -> zlen pn + zlen tn + zlen tag + zlen line <= 4068 ->
  step d (OpWrite fid t ksec knsec (iovec v)) = Ok (d', x) ->
  exists e, delivers d d' e /\ parsed_as (enc 2 e) (mkView sec nsec pid tid prio 0 false pn (if pid =? tid then pn else tn) tag line).
Proof.
  intros p dname s s' t0 st ops w sys186 comm l name text tag message prio lines line d fid t ksec knsec d' x f sec nsec v I R M G PC W1 W2 EL En Et Hn Ht HO HI HV Hr Hl Hw Hraw pid tid pn tn A CP CN H1 H2 H3 H4 HF HS.
  destruct (init_raw _ _ _ _ _ _ _ _ I R) as (_ & P1 & P2 & P3 & c & P4 & P5). rewrite PC in P4. assert (c = comm ++ [10]) by congruence. subst c. rewrite strip_name in P5 by assumption.
  destruct (hset_last ops st w sys186 M ltac:(congruence) ltac:(congruence)) as (Q1 & Q2 & Q3 & Q4 & Q5 & Q6).
  unfold thread_id at 2 in Q3. unfold thread_name at 2 in Q5. rewrite P2, G in Q3. rewrite P1 in Q2. rewrite P5 in Q4. rewrite P3 in Q5. rewrite R in Q1.
  set (h := handler_for sys186 (fold_left hset ops st) w) in *.
  assert (K1 : h_raw h = true) by exact Q1. assert (K2 : h_pid h = pid) by exact Q2. assert (K3 : h_tid h = tid) by exact Q3. assert (K4 : h_pname h = pn) by exact Q4.
  assert (K5 : h_tname h = Bytes_name tn \/ h_tname h = Text_name tn /\ Forall (fun c => 0 < c < 128) tn).
  { change (h_tname h) with (thread_name (fold_left hset ops st) w). fold tn in Q5. destruct (thread_name (fold_left hset ops st) w) as [b|b]; [left; congruence|]. specialize (Q6 b eq_refl). right. split; congruence. }
  clearbody h pid tid pn tn. subst pid tid pn. eapply C89_raw_partial; eauto.
Qed.
Example C158_identity_ex : exists st v d', init ex_py (bytes_of_string "main") true 77 ex_reg = Ok (ex_reg, [Open (bytes_of_string "/dev/ulog_main") 3; Stat 3; RawMode 3 1 0], Some st) /\ x_raw st = true /\
  device_line (handler_for i_tid (fold_left hset [SetTname (bytes_of_string "rx"); SetTid 9; SetTname (bytes_of_string "tx")] st) (mkWho 77 78 (bytes_of_string "MainThread"))) 1 2 6 (u "net") (u "up") = inr (Writev v) /\
  reachable (ex_state ex_raw_ops) /\ step (ex_state ex_raw_ops) (OpWrite 1 ex_thread 12 34 (iovec v)) = Ok (d', OutVal 42).
Proof.
  do 3 eexists. split; [vm_compute; reflexivity|]. split; [reflexivity|]. split; [vm_compute; reflexivity|]. split. { apply ex_reach; [repeat constructor|]. vm_compute. reflexivity. }
  apply ex_step. vm_compute. reflexivity.
Qed.
(** The process that made the handler is named, not the one that logs, if that is a child made by fork. *)
Theorem C158_fork_refuted : exists p s s' t st w, init p (bytes_of_string "main") true 77 s = Ok (s', t, Some st) /\ i_pid w = 99 /\ i_tid w = 99 /\
  match device_line (handler_for i_tid st w) 1 2 6 (u "net") (u "up") with inr (Writev v) => ztake 20 (concat v) = meta 77 99 1 2 0 | _ => False end.
Proof.
  exists ex_py, ex_reg. do 3 eexists. exists (mkWho 99 99 (bytes_of_string "MainThread")). split; [vm_compute; reflexivity|]. repeat split; vm_compute; reflexivity.
Qed.
(** Where system call 186 is another one or none, so is the thread: the result is -1 for one that fails. *)
Theorem C158_machine_refuted : exists p s s' t st w sys186, init p (bytes_of_string "main") true 77 s = Ok (s', t, Some st) /\ sys186 w = -1 /\ i_tid w = 78 /\
  match device_line (handler_for sys186 st w) 1 2 6 (u "net") (u "up") with inr (Writev v) => ztake 20 (concat v) = meta 77 (-1) 1 2 0 | _ => False end.
Proof.
  exists ex_py, ex_reg. do 3 eexists. exists (mkWho 77 78 (bytes_of_string "MainThread")), (fun _ => -1). split; [vm_compute; reflexivity|]. repeat split; vm_compute; reflexivity.
Qed.
(** The id 0 and the empty name cannot be set. *)
Theorem C158_zero_refuted : exists p s s' t st w, init p (bytes_of_string "main") true 77 s = Ok (s', t, Some st) /\ i_tid w = 78 /\ i_name w = bytes_of_string "MainThread" /\
  let h := handler_for i_tid (fold_left hset [SetTid 0; SetTname []] st) w in h_tid h = 78 /\ h_tname h = Text_name (bytes_of_string "MainThread").
Proof.
  exists ex_py, ex_reg. do 3 eexists. exists (mkWho 77 78 (bytes_of_string "MainThread")). split; [vm_compute; reflexivity|]. repeat split; vm_compute; reflexivity.
Qed.

(** ** C159 *)
Lemma pow_split a b : 0 <= a -> 0 <= b -> 2 ^ (a + b) = 2 ^ a * 2 ^ b. Proof. apply Z.pow_add_r. Qed.
Lemma rnd_cases z : 0 < z -> let e := Z.max 0 (Z.log2 z - 52) in 0 <= e /\ 0 < 2 ^ e /\
  exists q, rnd z = q * 2 ^ e /\ 2 * Z.abs (q * 2 ^ e - z) <= 2 ^ e /\ 2 ^ (Z.log2 z) <= rnd z <= 2 ^ (Z.log2 z + 1).
Proof.
  intros Hz e. assert (E : 0 <= e) by (unfold e; lia). assert (P : 0 < 2 ^ e) by (apply Z.pow_pos_nonneg; lia). split; [exact E|]. split; [exact P|].
  pose proof (Z.div_mod z (2 ^ e) ltac:(lia)) as D. pose proof (Z.mod_pos_bound z (2 ^ e) P) as M. destruct (Z.log2_spec z Hz) as [L1 L2]. pose proof (Z.log2_nonneg z) as L0.
  assert (EL : e <= Z.log2 z) by (unfold e; lia).
  assert (W1 : 2 ^ Z.log2 z = 2 ^ (Z.log2 z - e) * 2 ^ e) by (rewrite <- Z.pow_add_r by lia; f_equal; lia).
  assert (W2 : 2 ^ (Z.log2 z + 1) = 2 ^ (Z.log2 z + 1 - e) * 2 ^ e) by (rewrite <- Z.pow_add_r by lia; f_equal; lia).
  unfold Z.succ in L2. assert (Q1 : 2 ^ (Z.log2 z - e) <= z / 2 ^ e) by (apply Z.div_le_lower_bound; lia). assert (Q2 : z / 2 ^ e < 2 ^ (Z.log2 z + 1 - e)) by (apply Z.div_lt_upper_bound; lia).
  unfold rnd. fold e. cbv zeta. set (q := z / 2 ^ e) in *. set (r := z mod 2 ^ e) in *. set (w := 2 ^ e) in *. rewrite W1, W2. clearbody q r w. clear W1 W2 L1 L2.
  destruct ((2 * r <? w) || ((2 * r =? w) && Z.even q)) eqn:B; eexists; (split; [reflexivity|]); (split; [|split; nia]).
  - assert (2 * r <= w) by lia. replace (q * w - z) with (- r) by lia. lia.
  - assert (w <= 2 * r) by lia. replace ((q + 1) * w - z) with (w - r) by lia. lia.
Qed.
Lemma rnd_0 : rnd 0 = 0. Proof. reflexivity. Qed.
Lemma rnd_small z : 0 <= z < 2 ^ 53 -> rnd z = z.
Proof.
  intros H. destruct (Z.eq_dec z 0) as [->|N]; [reflexivity|]. unfold rnd. assert (Z.log2 z < 53) by (apply Z.log2_lt_pow2; lia). replace (Z.max 0 (Z.log2 z - 52)) with 0 by lia.
  change (2 ^ 0) with 1. rewrite Z.div_1_r, Z.mod_1_r. change (2 * 0 <? 1) with true. cbn [orb]. lia.
Qed.
Lemma rnd_nonneg z : 0 <= z -> 0 <= rnd z.
Proof. intros H. destruct (Z.eq_dec z 0) as [->|N]; [reflexivity|]. destruct (rnd_cases z ltac:(lia)) as (_ & _ & q & _ & _ & A & _). pose proof (Z.pow_nonneg 2 (Z.log2 z)). lia. Qed.
Lemma rnd_mono z1 z2 : 0 <= z1 <= z2 -> rnd z1 <= rnd z2.
Proof.
  intros H. destruct (Z.eq_dec z1 0) as [->|N1]; [rewrite rnd_0; apply rnd_nonneg; lia|].
  destruct (rnd_cases z1 ltac:(lia)) as (E1 & P1 & q1 & R1 & N & A1 & B1). destruct (rnd_cases z2 ltac:(lia)) as (E2 & P2 & q2 & R2 & M & A2 & B2).
  pose proof (Z.log2_le_mono z1 z2 ltac:(lia)) as L. destruct (Z.eq_dec (Z.log2 z1) (Z.log2 z2)) as [EQ|NE].
  - unfold rnd. rewrite EQ. cbv zeta. set (w := 2 ^ Z.max 0 (Z.log2 z2 - 52)) in *.
    pose proof (Z.div_mod z1 w ltac:(lia)) as D1. pose proof (Z.mod_pos_bound z1 w P2) as M1. pose proof (Z.div_mod z2 w ltac:(lia)) as D2. pose proof (Z.mod_pos_bound z2 w P2) as M2.
    pose proof (Z.div_le_mono z1 z2 w P2 ltac:(lia)) as QL. set (a := z1 / w) in *. set (b := z2 / w) in *. set (r1 := z1 mod w) in *. set (r2 := z2 mod w) in *. clearbody a b r1 r2 w.
    apply Z.mul_le_mono_nonneg_r; [lia|]. destruct (Z.eq_dec a b) as [->|NB].
    + assert (r1 <= r2) by lia. destruct ((2 * r1 <? w) || ((2 * r1 =? w) && Z.even b)) eqn:X1, ((2 * r2 <? w) || ((2 * r2 =? w) && Z.even b)) eqn:X2; try lia.
    + destruct (_ || _), (_ || _); lia.
  - apply Z.le_trans with (2 ^ (Z.log2 z1 + 1)); [exact B1|]. apply Z.le_trans with (2 ^ Z.log2 z2); [|exact A2]. apply Z.pow_le_mono_r; lia.
Qed.
(** The product: bounds. *)
Lemma product k f : 0 <= k -> 0 <= f < 2 ^ k -> f < 2 ^ 53 -> let p := rnd (f * 1000000000) in 0 <= p < 2 ^ k * 1000000000 /\ Z.abs (p - f * 1000000000) * 2 ^ 24 <= 2 ^ k /\ (k <= 22 -> p = f * 1000000000).
Proof.
  intros Hk Hf F53 p. pose proof (Z.pow_pos_nonneg 2 k ltac:(lia) Hk) as PK.
  assert (SM : k <= 22 -> p = f * 1000000000). { intros K22. apply rnd_small. assert (2 ^ k <= 2 ^ 22) by (apply Z.pow_le_mono_r; lia). change (2 ^ 22) with 4194304 in *. change (2 ^ 53) with 9007199254740992 in *. lia. }
  destruct (Z.le_gt_cases k 22) as [K22|K22]; [rewrite SM by exact K22; split; [lia|]; split; [rewrite Z.sub_diag; change (Z.abs 0 * 2 ^ 24) with 0; lia|auto]|].
  destruct (Z.eq_dec f 0) as [->|Nf]; [change p with 0; split; [lia|]; split; [change (Z.abs (0 - 0 * 1000000000) * 2 ^ 24) with 0; lia|auto]|].
  assert (LK : Z.log2 (f * 1000000000) < k + 30). { apply Z.log2_lt_pow2; [lia|]. rewrite Z.pow_add_r by lia. change (2 ^ 30) with 1073741824. nia. }
  assert (L83 : Z.log2 (f * 1000000000) < 83). { apply Z.log2_lt_pow2; [lia|]. change (2 ^ 83) with (2 ^ 53 * 1073741824). nia. }
  destruct (rnd_cases (f * 1000000000) ltac:(lia)) as (E & P & q & R & N & _). fold p in R. rewrite <- R in N. set (e := Z.max 0 (Z.log2 (f * 1000000000) - 52)) in *.
  assert (EK : 2 ^ e * 2 ^ 23 <= 2 ^ k). { rewrite <- Z.pow_add_r by lia. apply Z.pow_le_mono_r; lia. }
  assert (E30 : 2 ^ e <= 2 ^ 30) by (apply Z.pow_le_mono_r; lia).
  change (2 ^ 23) with 8388608 in *. change (2 ^ 24) with 16777216. change (2 ^ 30) with 1073741824 in *.
  split; [|split; [lia|lia]]. split; [apply rnd_nonneg; lia|]. lia.
Qed.
Lemma stamp_eq k m : reading k m -> stamp k m = (m / 2 ^ k, rnd (m mod 2 ^ k * 1000000000) / 2 ^ k) /\ 0 <= m / 2 ^ k < 2 ^ 31 /\ 0 <= m mod 2 ^ k < 2 ^ k /\ m mod 2 ^ k < 2 ^ 53 /\
  0 <= rnd (m mod 2 ^ k * 1000000000) / 2 ^ k < 1000000000.
Proof.
  intros (Hk & Hm & H31). pose proof (Z.pow_pos_nonneg 2 k ltac:(lia) Hk) as PK. rewrite Z.pow_add_r in H31 by lia.
  assert (S1 : forall z, 0 <= z < 2147483648 -> s32 z = z) by (intros z Hz; unfold s32; cbv zeta; rewrite (Z.mod_small z 4294967296) by lia; destruct (Z.ltb_spec z 2147483648); [reflexivity|lia]).
  assert (D1 : 0 <= m / 2 ^ k < 2 ^ 31) by (split; [apply Z.div_pos; lia|apply Z.div_lt_upper_bound; lia]).
  pose proof (Z.mod_pos_bound m (2 ^ k) PK) as MB. pose proof (Z.mod_le m (2 ^ k) ltac:(lia) PK) as ML.
  destruct (product k (m mod 2 ^ k) Hk MB ltac:(lia)) as (PB & _).
  assert (D2 : 0 <= rnd (m mod 2 ^ k * 1000000000) / 2 ^ k < 1000000000) by (split; [apply Z.div_pos; lia|apply Z.div_lt_upper_bound; lia]).
  split; [|split; [exact D1|split; [exact MB|split; [lia|exact D2]]]].
  unfold stamp. rewrite (Z.quot_div_nonneg m) by lia. rewrite (S1 (m / 2 ^ k)) by lia. cbv zeta.
  replace (m - m / 2 ^ k * 2 ^ k) with (m mod 2 ^ k) by (rewrite Z.mod_eq by lia; lia). rewrite (rnd_small (m mod 2 ^ k)) by lia.
  rewrite Z.quot_div_nonneg by lia. rewrite S1 by lia. reflexivity.
Qed.
(** For a clock of between 2^30 and 2^31 seconds the time of an entry is at most 239 ns from it. *)
Theorem C159_near : forall m c, 2 ^ 52 <= m < 2 ^ 53 -> near 22 m c -> exists sec nsec, stamp 22 m = (sec, nsec) /\ int32 sec /\ 0 <= nsec < 1000000000 /\
  Z.abs (nanos (sec, nsec) - nanos c) <= 239.
Proof.
  intros m c H N. assert (R : reading 22 m) by (unfold reading; change (31 + 22) with 53; lia). destruct (stamp_eq 22 m R) as (E & A & B & B53 & C).
  do 2 eexists. split; [exact E|]. split; [unfold int32; lia|]. split; [exact C|]. destruct (product 22 (m mod 2 ^ 22) ltac:(lia) B B53) as (_ & _ & X). rewrite (X ltac:(lia)). clear X.
  unfold near in N. unfold nanos at 1. cbn [fst snd].
  generalize dependent (nanos c). intros z N. change (2 ^ 22) with 4194304 in *. clear E A B B53 C H R. Z.to_euclidean_division_equations. lia.
Qed.
Example C159_near_ex : near 22 (1700000000 * 2 ^ 22 + 1) (1700000000, 238) /\ stamp 22 (1700000000 * 2 ^ 22 + 1) = (1700000000, 238).
Proof. split; vm_compute; [discriminate|reflexivity]. Qed.
(** For any clock below 2^31 seconds it is off by the precision of the clock and 2 ns at most. *)
Theorem C159_any_clock : forall k m c, reading k m -> near k m c -> exists sec nsec, stamp k m = (sec, nsec) /\ int32 sec /\ 0 <= nsec < 1000000000 /\
  2 ^ k * (Z.abs (nanos (sec, nsec) - nanos c) - 2) < 1000000000.
Proof.
  intros k m c R N. destruct (stamp_eq k m R) as (E & A & B & B53 & C). destruct R as (Hk & Hm & _).
  do 2 eexists. split; [exact E|]. split; [unfold int32; lia|]. split; [exact C|]. destruct (product k (m mod 2 ^ k) Hk B B53) as (PB & PE & _).
  unfold near in N. unfold nanos at 1. cbn [fst snd]. pose proof (Z.pow_pos_nonneg 2 k ltac:(lia) Hk) as PK. pose proof (Z.div_mod m (2 ^ k) ltac:(lia)) as DM.
  set (p := rnd (m mod 2 ^ k * 1000000000)) in *. pose proof (Z.div_mod p (2 ^ k) ltac:(lia)) as DP. pose proof (Z.mod_pos_bound p (2 ^ k) PK) as MP. change (2 ^ 24) with 16777216 in PE.
  set (w := 2 ^ k) in *. set (f := m mod w) in *. set (s := m / w) in *. set (n := p / w) in *. set (r := p mod w) in *. generalize dependent (nanos c). intros z N. clearbody p w f s n r. clear E A B B53 C.
  assert (X : w * (s * 1000000000 + n - z) = (m * 1000000000 - z * w) + (p - f * 1000000000) - r) by nia. assert (Y : Z.abs (w * (s * 1000000000 + n - z)) < 1000000000 + 2 * w) by lia.
  rewrite Z.abs_mul, (Z.abs_eq w) in Y by lia. nia.
Qed.
Example C159_any_ex : reading 52 (2 ^ 53 - 1) /\ near 52 (2 ^ 53 - 1) (2, 0) /\ stamp 52 (2 ^ 53 - 1) = (1, 999999999).
Proof. split; [unfold reading; cbn; lia|]. split; vm_compute; [discriminate|reflexivity]. Qed.
(** The times of entries do not go back. *)
Theorem C159_monotone : forall k m1 m2, reading k m1 -> reading k m2 -> m1 <= m2 -> nanos (stamp k m1) <= nanos (stamp k m2).
Proof.
  intros k m1 m2 R1 R2 H. destruct (stamp_eq k m1 R1) as (-> & A1 & B1 & C1 & D1). destruct (stamp_eq k m2 R2) as (-> & A2 & B2 & C2 & D2). destruct R1 as (Hk & _). unfold nanos. cbn [fst snd].
  pose proof (Z.pow_pos_nonneg 2 k ltac:(lia) Hk) as PK. pose proof (Z.div_le_mono m1 m2 (2 ^ k) PK H) as Q. destruct (Z.eq_dec (m1 / 2 ^ k) (m2 / 2 ^ k)) as [EQ|NE]; [|lia].
  rewrite EQ. apply Zplus_le_compat_l. apply Z.div_le_mono; [exact PK|]. apply rnd_mono. pose proof (Z.div_mod m1 (2 ^ k) ltac:(lia)). pose proof (Z.div_mod m2 (2 ^ k) ltac:(lia)). rewrite EQ in *. lia.
Qed.
Example C159_monotone_ex : reading 22 (1700000000 * 2 ^ 22 - 1) /\ nanos (stamp 22 (1700000000 * 2 ^ 22 - 1)) = 1699999999999999761 /\ nanos (stamp 22 (1700000000 * 2 ^ 22)) = 1700000000000000000.
Proof. split; [unfold reading; cbn; lia|]. split; vm_compute; reflexivity. Qed.
(** Most times of the clock are lost: no reading gives 1 ns after a full second. *)
Theorem C159_exact_refuted : exists c, 2 ^ 30 <= fst c < 2 ^ 31 /\ 0 <= snd c < 1000000000 /\ forall m, 2 ^ 52 <= m < 2 ^ 53 -> stamp 22 m <> c.
Proof.
  exists (1700000000, 1). cbn [fst snd]. split; [lia|]. split; [lia|]. intros m H. assert (R : reading 22 m) by (unfold reading; change (31 + 22) with 53; lia). destruct (stamp_eq 22 m R) as (-> & _ & B & B53 & _).
  destruct (product 22 (m mod 2 ^ 22) ltac:(lia) B B53) as (_ & _ & X). rewrite (X ltac:(lia)). intros E. injection E as E1 E2. clear X E1 H R B53.
  change (2 ^ 22) with 4194304 in *. set (k := m mod 4194304) in *. clearbody k. Z.to_euclidean_division_equations. lia.
Qed.
(** From 2^31 seconds on the time is that of more than a century before. *)
Theorem C159_late_refuted : stamp 21 (2 ^ 52) = (- 2 ^ 31, 0) /\ near 21 (2 ^ 52) (2 ^ 31, 0).
Proof. split; vm_compute; [reflexivity|discriminate]. Qed.
Print Assumptions C157_open.
Print Assumptions C157_creates.
Print Assumptions C157_other_device_refuted.
Print Assumptions C158_identity_partial.
Print Assumptions C158_fork_refuted.
Print Assumptions C158_machine_refuted.
Print Assumptions C158_zero_refuted.
Print Assumptions C159_near.
Print Assumptions C159_any_clock.
Print Assumptions C159_monotone.
Print Assumptions C159_exact_refuted.
Print Assumptions C159_late_refuted.
