(** Properties C153 to C156: libulog/ulog_api.sh.

    Vocabulary: ShellSpec.v, ProgramSpec.v ([block], [notice]). *)
From Coq Require Import ZArith String List Bool Permutation Sorted Lia ZifyBool ZifyNat Arith.
From Verif Require Import Bytes BytesProofs Ring RingSpec RingHistory RingRefine RingLemmas RingObs Parse ParseSpec ParseProofs ParseE2E Iov
  Cat CatSpec Render Live LiveSpec PropsRing Program ProgramSpec PropsProgram ScreenProofs.
From Verif Require Import Shell ShellSpec.
Import ListNotations.
Open Scope Z_scope.

(** ** printf *)
Lemma pieces_one lb size out : forall acc, out <> [] -> zlen acc + zlen out <= size -> (lb = true -> ~ In 10 (removelast out)) ->
  pieces lb size acc out = [rev acc ++ out].
Proof.
  induction out as [|c out IH]; intros acc N L H; [congruence|]. cbn [pieces]. destruct out as [|d out].
  - destruct ((lb && (c =? 10)) || (size <=? zlen (c :: acc))); cbn [pieces rev]; reflexivity.
  - rewrite !zlen_cons in *. pose proof (zlen_nonneg out). pose proof (zlen_nonneg acc).
    replace ((lb && (c =? 10)) || (size <=? 1 + zlen acc)) with false.
    + rewrite IH; [cbn [rev]; now rewrite <- app_assoc|discriminate|rewrite !zlen_cons; lia|].
      intros E. specialize (H E). cbn [removelast] in *. intros X. apply H. now right.
    + symmetry. apply orb_false_iff. split; [|lia]. destruct lb; [|reflexivity]. cbn. apply Z.eqb_neq. intros ->. apply H; [reflexivity|]. now left.
Qed.
Lemma pieces_line lb size m : zlen m + 1 <= size -> (lb = true -> ~ In 10 m) -> pieces lb size [] (m ++ [10]) = [m ++ [10]].
Proof.
  intros L H. rewrite pieces_one; [reflexivity| | |].
  - intros E. apply app_eq_nil in E. destruct E; discriminate.
  - rewrite zlen_app. unfold zlen in *. cbn [length]. lia.
  - rewrite removelast_last. exact H.
Qed.
Lemma entry_printed v tag m : 48 <= v <= 57 -> printf entry_format [[v]; tag; m] = Some ([v; 0; 0; 0] ++ tag ++ [0] ++ m ++ [10]).
Proof.
  intros H. assert (D : decimal [v] = true) by (unfold decimal; cbn [forallb]; change (zlen [v]) with 1; change (1 =? 0) with false; change (1 =? 1) with true; lia).
  unfold entry_format. let l := eval vm_compute in (bytes_of_string "%d\0\0\0%s\0%s\n") in change (bytes_of_string "%d\0\0\0%s\0%s\n") with l.
  cbn -[decimal before]. rewrite D. cbn [before option_map app tl hd]. reflexivity.
Qed.
Lemma smooth_printed m r args : smooth m -> printf (m ++ r) args = before m (printf r args).
Proof.
  intros [H1 H2]. induction m as [|c m IH]; cbn [app]; [destruct (printf r args); reflexivity|].
  cbn [printf]. destruct (Z.eqb_spec c 92) as [->|_]; [exfalso; apply H2; now left|]. destruct (Z.eqb_spec c 37) as [->|_]; [exfalso; apply H1; now left|].
  rewrite IH by (intros ?; first [apply H1; now right | apply H2; now right]). destruct (printf r args); reflexivity.
Qed.

(** ** Entries *)
Definition tail_payload (t : task) (body : list Z) : list Z := names t ++ body.
Lemma plain_shows t sec nsec m x : ~ In 0 m -> x <> 0 ->
  let pay := names t ++ m ++ [x] in
  exists mem e, parse_payload pay 0 (zlen pay) sec nsec (t_tgid t) (t_pid t) = Ok (mem, e) /\ zlen mem = zlen pay /\
    shows mem e (mkView sec nsec (t_tgid t) (t_pid t) 6 0 false [] [] [] m).
Proof.
  intros H Hx pay. set (body := m ++ [x]). assert (NB : ~ In 0 body) by (unfold body; rewrite in_app_iff; cbn; intros [?|[?|[]]]; congruence).
  assert (HP : exists a b, parse_payload pay 0 (zlen pay) sec nsec (t_tgid t) (t_pid t)
    = parse_tail pay a b (zlen (names t)) (zlen body) sec nsec (t_tgid t) (t_pid t)).
  { subst pay. unfold names. destruct (Z.eqb_spec (t_tgid t) (t_pid t)) as [E|Hne].
    - exists 0, 0. rewrite E. rewrite app_nil_r. rewrite <- app_assoc. cbn [app]. apply parse_names_same, comm_no_nul.
    - exists 0, (zlen (comm_str (t_pcomm t) ++ [0])).
      replace ((comm_str (t_pcomm t) ++ [0] ++ comm_str (t_tcomm t) ++ [0]) ++ m ++ [x]) with
        (comm_str (t_pcomm t) ++ 0 :: comm_str (t_tcomm t) ++ 0 :: body) by (unfold body; lists).
      apply parse_names_diff; auto using comm_no_nul. }
  destruct HP as (a & b & ->).
  assert (U : parse_tail pay a b (zlen (names t)) (zlen body) sec nsec (t_tgid t) (t_pid t) =
              parse_unformatted pay (zlen (names t)) (zlen body) sec nsec (t_tgid t) (t_pid t)).
  { unfold parse_tail. destruct (Z.ltb_spec (zlen body) 4) as [L|L]; [reflexivity|].
    destruct body as [|b0 [|b1 [|b2 [|b3 r]]]] eqn:EB; rewrite ?zlen_cons in L; change (zlen (@nil Z)) with 0 in L; try lia.
    assert (EP : pay = names t ++ b0 :: b1 :: b2 :: b3 :: r) by (subst pay; rewrite <- EB; reflexivity).
    rewrite EP. rewrite (load_app_at _ _ (names t) b0 (b1 :: b2 :: b3 :: r)) by (reflexivity || lia). cbn [bind].
    rewrite (load_app_at _ _ (names t ++ [b0]) b1 (b2 :: b3 :: r)) by (rewrite ?zlen_app; change (zlen [b0]) with 1; lists || lia). cbn [bind].
    rewrite (load_app_at _ _ (names t ++ [b0; b1]) b2 (b3 :: r)) by (rewrite ?zlen_app; change (zlen [b0; b1]) with 2; lists || lia). cbn [bind].
    rewrite (load_app_at _ _ (names t ++ [b0; b1; b2]) b3 r) by (rewrite ?zlen_app; change (zlen [b0; b1; b2]) with 3; lists || lia). cbn [bind].
    pose proof (get_token_none (names t ++ [b0; b1; b2; b3]) r) as G. rewrite <- app_assoc in G. cbn [app] in G.
    rewrite zlen_app in G. change (zlen [b0; b1; b2; b3]) with 4 in G.
    replace (zlen (b0 :: b1 :: b2 :: b3 :: r) - 4) with (zlen r) by (rewrite !zlen_cons; lia). rewrite G by (intros X; apply NB; cbn; tauto). cbn [bind].
    f_equal; rewrite ?zlen_cons; lia. }
  rewrite U. subst pay. fold body. unfold body. rewrite unformatted_cut by assumption.
  do 2 eexists. split; [reflexivity|]. split; [rewrite !zlen_app; reflexivity|].
  unfold shows. cbn. repeat split; auto; try (intros []).
  exists (names t), []. auto.
Qed.

Definition timed : Type := (Z * Z) * item.
Definition bytes_of (i : item) : list Z :=
  match i with Said v g m => [48 + v; 0; 0; 0] ++ g ++ [0] ++ m ++ [10] | Plain m => m ++ [10] end.
Definition ent_of (t : task) (x : timed) : RingSpec.entry :=
  mkEntry (meta (t_tgid t) (t_pid t) (fst (fst x)) (snd (fst x)) (t_euid t)) (ztake 4076 (names t ++ bytes_of (snd x))).
Definition view_of (t : task) (x : timed) : uentry :=
  match snd x with
  | Said v g m => mkU (fst (fst x)) (snd (fst x)) v (t_tgid t) (comm_str (t_pcomm t)) (t_pid t)
                    (if t_tgid t =? t_pid t then comm_str (t_pcomm t) else comm_str (t_tcomm t)) g (fitted t (snd x)) false 0
  | Plain m => mkU (fst (fst x)) (snd (fst x)) 6 (t_tgid t) [] (t_pid t) [] [] (fitted t (snd x)) false 0
  end.
Record good (t : task) (x : timed) : Prop := {
  gd_ids : int32 (t_tgid t) /\ int32 (t_pid t);
  gd_time : 0 <= fst (fst x) < 2 ^ 31 /\ 0 <= snd (fst x) < 2 ^ 31;
  gd_tag : ~ In 0 (tag_of (snd x)) /\ zlen (tag_of (snd x)) <= 4000;
  gd_text : ~ In 0 (text_of (snd x));
  gd_level : match snd x with Said v _ _ => 0 <= v < 8 | Plain _ => True end;
  gd_room : zlen (screen_of t (snd x)) < 5248 }.
Lemma small_level v : 0 <= v < 8 -> ParseSpec.level_of (48 + v) = v /\ color_of (48 + v) = 0 /\ binary_of (48 + v) = false /\ uint32 (48 + v) /\ le 4 (48 + v) = [48 + v; 0; 0; 0].
Proof.
  intros H. assert (C : v = 0 \/ v = 1 \/ v = 2 \/ v = 3 \/ v = 4 \/ v = 5 \/ v = 6 \/ v = 7) by lia.
  repeat (destruct C as [C|C]; [subst v; unfold uint32; repeat split; try reflexivity; lia|]). subst v; unfold uint32; repeat split; try reflexivity; lia.
Qed.
Lemma line_body m k : ~ In 0 m -> 1 <= k -> exists x, x <> 0 /\ ztake k (m ++ [10]) = ztake (k - 1) m ++ [x] /\ ~ In 0 (ztake (k - 1) m).
Proof.
  intros H Hk. assert (N : ~ In 0 (ztake (k - 1) m)) by (intros X; apply H, (ztake_in _ _ _ X)).
  destruct (Z.leb_spec (zlen m + 1) k) as [L|L].
  - exists 10. split; [lia|]. rewrite ztake_all by (rewrite zlen_app; change (zlen [10]) with 1; lia). split; [|exact N]. rewrite ztake_all by lia. reflexivity.
  - rewrite ztake_app_le by lia. destruct (exists_last_dec (ztake k m)) as [E|(s & x & E)].
    { apply (f_equal zlen) in E. rewrite zlen_ztake in E. change (zlen (@nil Z)) with 0 in E. lia. }
    assert (Hs : s = ztake (k - 1) m).
    { replace (k - 1) with (Z.min (k - 1) k) by lia. rewrite <- ztake_ztake, E.
      symmetry. apply ztake_app_exact. apply (f_equal zlen) in E. rewrite zlen_app, zlen_ztake in E. change (zlen [x]) with 1 in E. lia. }
    exists x. split; [|split; [now rewrite <- Hs|exact N]]. intros ->. apply H. apply (ztake_in k). rewrite E. apply in_or_app. right. now left.
Qed.
Lemma fitted_take t i : fitted t i = ztake (4076 - zlen (names t) - extra i - 1) (text_of i).
Proof. reflexivity. Qed.
Lemma good_looks t x : good t x -> looks (ent_of t) (view_of t) (fun _ => t_euid t) x.
Proof.
  intros [[I1 I2] [T1 T2] [G1 G2] N V R]. destruct x as [[s n] i]. cbn [fst snd] in *. pose proof (zlen_names t) as ZN.
  unfold ProgramSpec.int32 in *. destruct i as [v g m|m]; cbn [tag_of text_of] in *.
  - destruct (small_level v V) as (P1 & P2 & P3 & P4 & P5). pose proof (zlen_nonneg g). pose proof (zlen_nonneg m).
    assert (E : ztake 4076 (names t ++ bytes_of (Said v g m)) =
      payload (t_tgid t) (t_pid t) (comm_str (t_pcomm t)) (comm_str (t_tcomm t)) (48 + v) g (ztake (4076 - zlen (names t) - (4 + (zlen g + 1))) (m ++ [10]))).
    { unfold bytes_of. rewrite <- P5. replace (g ++ [0] ++ m ++ [10]) with ((g ++ [0]) ++ m ++ [10]) by lists. rewrite names_payload, payload_cut.
      - f_equal. f_equal. rewrite <- names_payload. rewrite !zlen_app, zlen_le. change (zlen [0]) with 1. change (zlen (@nil Z)) with 0. lia.
      - rewrite <- names_payload. rewrite !zlen_app, zlen_le. change (zlen [0]) with 1. change (zlen (@nil Z)) with 0. lia. }
    constructor; unfold view_of; cbn [fst snd u_sec u_nsec u_prio u_tag u_msg u_bin]; auto; [eexists _, _, _; reflexivity|].
    eexists. split.
    + unfold ent_of. cbn [fst snd]. rewrite E. destruct (line_body m (4076 - zlen (names t) - (4 + (zlen g + 1))) N ltac:(lia)) as (x & X0 & -> & XN).
      apply enc_parsed; try (unfold ParseSpec.int32; lia).
      * rewrite <- names_payload, !zlen_app, zlen_le, zlen_ztake. change (zlen [0]) with 1. change (zlen [x]) with 1. lia.
      * apply payload_shows; auto using comm_no_nul. rewrite P3. split; [exact XN|]. right. exists x. auto.
    + unfold LiveSpec.entry_of. cbn [v_sec v_nsec v_level v_pid v_pname v_tid v_tname v_tag v_message v_binary v_color]. rewrite P1, P2, P3, fitted_take. reflexivity.
  - pose proof (zlen_nonneg m).
    constructor; unfold view_of; cbn [fst snd u_sec u_nsec u_prio u_tag u_msg u_bin]; auto; [eexists _, _, _; reflexivity| |lia].
    eexists. split.
    + unfold ent_of. cbn [fst snd bytes_of]. rewrite ztake_app, ztake_all by lia.
      destruct (line_body m (4076 - zlen (names t)) N ltac:(lia)) as (x & X0 & -> & XN).
      apply enc_parsed; try (unfold ParseSpec.int32; lia).
      * rewrite !zlen_app, zlen_ztake. change (zlen [x]) with 1. lia.
      * apply plain_shows; assumption.
    + unfold LiveSpec.entry_of. cbn [v_sec v_nsec v_level v_pid v_pname v_tid v_tname v_tag v_message v_binary v_color]. rewrite fitted_take.
      cbn [extra text_of]. replace (4076 - zlen (names t) - 0 - 1) with (4076 - zlen (names t) - 1) by lia. reflexivity.
Qed.
Lemma costs_total t l : Forall (good t) l -> RingSpec.total (map (ent_of t) l) = costs_of t (map snd l).
Proof.
  induction 1 as [|x l G _ IH]; cbn [map]; [reflexivity|]. rewrite total_cons, IH. cbn [costs_of fold_right]. fold (costs_of t (map snd l)). f_equal.
  unfold esize, ent_of. cbn [e_payload]. destruct G as [_ _ [_ G2] _ _ _]. destruct x as [c i]. cbn [snd] in *. unfold cost_of. rewrite fitted_take, !zlen_ztake, zlen_app. pose proof (zlen_names t) as ZN.
  destruct i as [v g m|m]; cbn [bytes_of extra text_of tag_of] in *; rewrite !zlen_app; change (zlen [10]) with 1; pose proof (zlen_nonneg m); [|lia].
  change (zlen [0]) with 1. change (zlen [48 + v; 0; 0; 0]) with 4. pose proof (zlen_nonneg g). lia.
Qed.

(** ** What the shell does *)
Definition same (s s' : shell) (x : string) : Prop := s_env s' x = s_env s x.
Definition ready (s : shell) : Prop :=
  getv s "ULOG_CRIT" = [50] /\ getv s "ULOG_ERR" = [51] /\ getv s "ULOG_WARN" = [52] /\ getv s "ULOG_NOTICE" = [53] /\
  getv s "ULOG_INFO" = [54] /\ getv s "ULOG_DEBUG" = [55] /\ getv s "ULOG_LEVEL_LETTERS" = bytes_of_string "  CEWNID" /\
  (is_y s "ULOG_STDERR" = true -> s_main s = false).
Lemma ready_same s s' : s_main s' = s_main s -> (forall x, ~ own x -> s_env s' x = s_env s x) -> ready s -> ready s'.
Proof.
  intros M E R. assert (G : forall x, ~ own x -> getv s' x = getv s x) by (intros x Hx; unfold getv; now rewrite E).
  unfold ready, is_y in *. rewrite M. rewrite !G; [exact R|..]; unfold own; intros X; apply X; cbn; tauto.
Qed.
Lemma setv_env s x v y : s_env (setv s x v) y = if String.eqb x y then Some v else s_env s y. Proof. reflexivity. Qed.
Lemma setv_own s x v : own x -> ready s -> ready (setv s x v).
Proof.
  intros O. apply ready_same; [reflexivity|]. intros y Hy. rewrite setv_env. destruct (String.eqb_spec x y) as [->|]; [contradiction|reflexivity].
Qed.
Lemma unsetv_own s x : own x -> ready s -> ready (unsetv s x).
Proof.
  intros O. apply ready_same; [reflexivity|]. intros y Hy. cbn. destruct (String.eqb_spec x y) as [->|]; [contradiction|reflexivity].
Qed.
Lemma level_read s f : ready s -> getv s (level_var f) = [48 + level_of f].
Proof. intros (H1 & H2 & H3 & H4 & H5 & H6 & _). destruct f; assumption. Qed.
Ltac not_own := unfold own; cbn; intuition discriminate.
Lemma eqb_byte_refl : bytes_eqb (bytes_of_string "y") (bytes_of_string "y") = true. Proof. reflexivity. Qed.
Lemma is_y_yes s x : is_y s x = true <-> yes s x.
Proof.
  unfold is_y, yes, getv. split.
  - destruct (s_env s x) as [v|]; [|discriminate]. intros E. f_equal. apply bytes_eqb_eq. exact E.
  - intros ->. reflexivity.
Qed.
Lemma sourced_ready s : s_main s = false -> let s1 := fst (sourced s) in
  ready s1 /\ s_env s1 "ulog_tag" = s_env s "ulog_tag" /\ is_y s1 "ULOG_STDERR" = is_y s "ULOG_STDERR" /\
  snd (sourced s) = (if s_main s1 then [OpenDev STD] else []) /\
  s_main s1 = negb (is_y s "ULOG_STDERR") && negb (is_y s "ULOG_NO_REDIRECT_STD").
Proof.
  intros M. unfold sourced. destruct (is_y s "ULOG_STDERR") eqn:E.
  - assert (E2 : is_y (setv s "ULOG_NO_REDIRECT_STD" (bytes_of_string "y")) "ULOG_NO_REDIRECT_STD" = true) by reflexivity. rewrite E2. cbn [negb fst snd].
    unfold ready. repeat split; try reflexivity; try exact E; try (intros; exact M). cbn [setv s_main]. now rewrite M.
  - destruct (is_y s "ULOG_NO_REDIRECT_STD") eqn:E2; cbn [negb fst snd andb]; unfold ready; repeat split; try reflexivity; try exact E; try (intros; exact M).
    { cbn [setv s_main]. now rewrite M. }
    intros X. change (is_y s "ULOG_STDERR" = true) in X. congruence.
Qed.
Definition quiet (evs : list event) : Prop := Forall (fun e => match e with Tty _ => True | _ => False end) evs.
Lemma dev_calls_quiet t clock n evs r : quiet evs -> dev_calls t clock n (evs ++ r) = dev_calls t clock n r.
Proof. induction 1 as [|e evs H _ IH]; cbn [app]; [reflexivity|]. destruct e; try contradiction. exact IH. Qed.
Lemma put_quiet lb size s out : s_main s = false -> quiet (put_std lb size s out).
Proof. intros M. unfold put_std, quiet. rewrite M, Forall_map. apply Forall_forall. intros; exact Logic.I. Qed.
Definition tag_now (s : shell) : list Z := match s_env s "ulog_tag" with Some t => t | None => default_tag end.
(** The shell after a call. *)
Definition called (s : shell) (level m : list Z) : shell :=
  let s := setv (setv s "level" level) "message" m in
  match s_env s "ulog_tag" with None => setv s "ulog_tag" default_tag | Some _ => s end.
Lemma called_env s level m : getv (called s level m) "level" = level /\ getv (called s level m) "message" = m /\ s_env (called s level m) "ulog_tag" = Some (tag_now s) /\
  s_main (called s level m) = s_main s /\ (forall x, x <> "level"%string -> x <> "message"%string -> x <> "ulog_tag"%string -> s_env (called s level m) x = s_env s x).
Proof.
  unfold called, tag_now. cbv zeta. change (s_env (setv (setv s "level" level) "message" m) "ulog_tag") with (s_env s "ulog_tag").
  destruct (s_env s "ulog_tag") as [g|] eqn:E.
  - repeat split; try reflexivity; [exact E|]. intros x H1 H2 H3. rewrite !setv_env.
    destruct (String.eqb_spec "message" x); [congruence|]. destruct (String.eqb_spec "level" x); [congruence|reflexivity].
  - repeat split; try reflexivity. intros x H1 H2 H3. rewrite !setv_env. destruct (String.eqb_spec "ulog_tag" x); [congruence|].
    destruct (String.eqb_spec "message" x); [congruence|]. destruct (String.eqb_spec "level" x); [congruence|reflexivity].
Qed.
Lemma called_ready s level m : ready s -> ready (called s level m).
Proof.
  intros R. unfold called. cbv zeta. assert (R1 : ready (setv (setv s "level" level) "message" m)) by (apply setv_own; [not_own|]; apply setv_own; [not_own|exact R]).
  destruct (s_env _ _); [exact R1|]. apply setv_own; [not_own|exact R1].
Qed.
(** The copy on the console. *)
Definition copied (s : shell) (v : Z) (m : list Z) : option (list Z) :=
  printf (ztake 1 (zdrop v (bytes_of_string "  CEWNID")) ++ [32] ++ m ++ bytes_of_string "\n") [].
Lemma call_does lb size s f m r : ready s -> exec lb size s (Call f m) = r ->
  r = match (if is_y s "ULOG_STDERR" then option_map (put_std lb size s) (copied s (level_of f) m) else Some []) with
      | Some evs => Some (called s [48 + level_of f] m, evs ++ [OpenDev TMP] ++ map (WriteDev TMP) (pieces lb size [] (bytes_of (Said (level_of f) (tag_now s) m))) ++ [CloseDev TMP])
      | None => None end.
Proof.
  intros R <-. cbn [exec]. rewrite (level_read s f R). unfold ulog. cbv zeta. fold default_tag. fold (called s [48 + level_of f] m).
  set (s' := called s [48 + level_of f] m). destruct (called_env s [48 + level_of f] m) as (E1 & E2 & E3 & E4 & E5). fold s' in E1, E2, E3, E4, E5.
  pose proof (called_ready s [48 + level_of f] m R) as (_ & _ & _ & _ & _ & _ & EL & _). fold s' in EL.
  assert (EY : is_y s' "ULOG_STDERR" = is_y s "ULOG_STDERR") by (unfold is_y, getv; rewrite E5 by discriminate; reflexivity).
  assert (ET : getv s' "ulog_tag" = tag_now s) by (unfold getv; now rewrite E3). rewrite EY, E1, E2, EL, ET.
  assert (NV : number [48 + level_of f] = level_of f) by (destruct f; reflexivity). rewrite NV.
  rewrite entry_printed by (destruct f; cbn; lia). unfold copied.
  assert (P : put_std lb size s' = put_std lb size s) by (unfold put_std; now rewrite E4). rewrite P. destruct (is_y s "ULOG_STDERR"); [|reflexivity].
  destruct (printf _ _); reflexivity.
Qed.

Fixpoint item_ops (t : task) (clock : nat -> Z * Z) (n : nat) (l : list item) : list op :=
  match l with
  | [] => []
  | Said v g m :: r =>
      [OpOpen TMP false true false false; OpWrite TMP t (fst (clock n)) (snd (clock n)) (iovec [bytes_of (Said v g m)]); OpClose TMP] ++ item_ops t clock (S n) r
  | Plain m :: r => OpWrite STD t (fst (clock n)) (snd (clock n)) (iovec [bytes_of (Plain m)]) :: item_ops t clock (S n) r
  end.
Fixpoint times (clock : nat -> Z * Z) (n : nat) (l : list item) : list timed :=
  match l with [] => [] | i :: r => (clock n, i) :: times clock (S n) r end.
Lemma times_snd clock l : forall n, map snd (times clock n l) = l.
Proof. induction l as [|i l IH]; intros n; cbn [times map snd]; [reflexivity|]. now rewrite IH. Qed.
Lemma said_piece lb size v g m : (lb = true -> ~ In 10 g /\ ~ In 10 m) -> 0 <= v <= 9 -> 6 + zlen g + zlen m <= size ->
  pieces lb size [] (bytes_of (Said v g m)) = [bytes_of (Said v g m)].
Proof.
  intros H V L. cbn [bytes_of]. replace ([48 + v; 0; 0; 0] ++ g ++ [0] ++ m ++ [10]) with (([48 + v; 0; 0; 0] ++ g ++ [0] ++ m) ++ [10]) by lists. apply pieces_line.
  - rewrite !zlen_app. change (zlen [0]) with 1. change (zlen [48 + v; 0; 0; 0]) with 4. lia.
  - intros E. destruct (H E) as [H1 H2]. rewrite !in_app_iff. cbn [In]. intros X. decompose [or] X; try lia; auto.
Qed.
Lemma dev_calls_app_none t clock n r : dev_calls t clock n ([] ++ r) = dev_calls t clock n r. Proof. reflexivity. Qed.
Definition tag_is (o : option (list Z)) : list Z := match o with Some g => g | None => default_tag end.
Lemma execs_dev t lb size clock l : Forall stmt_ok l -> forall s o n s' evs, ready s -> tag_now s = tag_is o ->
  Forall (item_ok t lb size) (items (s_main s) o l) -> execs lb size s l = Some (s', evs) ->
  dev_calls t clock n evs = item_ops t clock n (items (s_main s) o l).
Proof.
  induction 1 as [|c l C _ IH]; intros s o n s' evs R T I E; cbn [execs] in E.
  - assert (evs = []) by congruence. now subst.
  - destruct (exec lb size s c) as [[s1 e1]|] eqn:E1; [|discriminate]. destruct (execs lb size s1 l) as [[s2 e2]|] eqn:E2; [|discriminate].
    assert (evs = e1 ++ e2) by congruence. assert (s2 = s') by congruence. subst evs s2. clear E. destruct c as [f m|b|x v|x]; cbn [items stmt_ok] in *.
    + pose proof (call_does lb size s f m _ R E1) as X. fold (tag_is o) in I |- *. rewrite <- T in I |- *. inversion I as [|? ? I1 I2]; subst.
      destruct (if is_y s "ULOG_STDERR" then _ else _) as [cp|] eqn:EC; [|discriminate]. apply (f_equal (fun z => match z with Some p => p | None => (s1, e1) end)) in X. cbv beta iota in X.
      pose proof (f_equal fst X) as X1. pose proof (f_equal snd X) as X2. cbn [fst snd] in X1, X2. subst s1 e1. clear X.
      assert (Q : quiet cp).
      { destruct (is_y s "ULOG_STDERR") eqn:EY; [|injection EC as <-; constructor]. destruct (copied s (level_of f) m); [|discriminate]. injection EC as <-.
        apply put_quiet. destruct R as (_ & _ & _ & _ & _ & _ & _ & R). auto. }
      destruct I1 as (I1 & I3 & I4 & I5 & I6 & I7). cbn [tag_of text_of] in *. rewrite said_piece by (auto; destruct f; cbn; lia).
      rewrite <- !app_assoc. rewrite dev_calls_quiet by exact Q. cbn [map app dev_calls item_ops]. do 3 f_equal.
      destruct (called_env s [48 + level_of f] m) as (_ & _ & A & B & _). rewrite <- B. apply (IH _ o (S n) s' e2).
      * now apply called_ready.
      * unfold tag_now at 1. now rewrite A.
      * now rewrite B.
      * congruence.
    + cbn [exec] in E1. injection E1 as <- <-. destruct C as [m ->]. unfold put_std. destruct (s_main s) eqn:M.
      * rewrite removelast_last in *. inversion I as [|? ? I1 I2]; subst. destruct I1 as (I1 & I3 & I4 & I5 & I6 & I7). cbn [tag_of text_of] in *. change (zlen (@nil Z)) with 0 in *.
        rewrite pieces_line; [|lia|apply I4]. cbn [map app dev_calls item_ops bytes_of]. f_equal. rewrite <- M. apply (IH s o (S n) s' e2); auto; now rewrite M.
      * assert (Q : quiet (map Tty (pieces lb size [] (m ++ [10])))) by (unfold quiet; rewrite Forall_map; apply Forall_forall; intros; exact Logic.I).
        rewrite dev_calls_quiet by exact Q. rewrite <- M. apply (IH s o n s' e2); auto; now rewrite M.
    + cbn [exec] in E1. injection E1 as <- <-. rewrite dev_calls_app_none. change (s_main s) with (s_main (setv s x v)) in I |- *. apply (IH (setv s x v) _ n s' e2); auto.
      * now apply setv_own.
      * unfold tag_now in *. rewrite setv_env. destruct (String.eqb x "ulog_tag"); [reflexivity|exact T].
    + cbn [exec] in E1. injection E1 as <- <-. rewrite dev_calls_app_none. change (s_main s) with (s_main (unsetv s x)) in I |- *. apply (IH (unsetv s x) _ n s' e2); auto.
      * now apply unsetv_own.
      * unfold tag_now in *. cbn [unsetv s_env]. destruct (String.eqb x "ulog_tag"); [reflexivity|exact T].
Qed.

(** ** The device *)
Lemma write_step d procs fid t sec nsec b : reachable d -> d_files d = wfiles procs -> In fid procs ->
  exists d' v, step d (OpWrite fid t sec nsec (iovec [b])) = Ok (d', OutVal v) /\ reachable d' /\ d_files d' = wfiles procs.
Proof.
  intros R F HI. assert (U : user_op (OpWrite fid t sec nsec (iovec [b]))) by (apply readable_user, iovec_readable).
  destruct (reachable_R d R) as (a0 & m0 & HR0 & Hv0 & _). destruct (step_R d a0 _ U HR0 Hv0) as (d1 & E & _).
  match type of E with _ = Ok (_, ?y) => set (x := y) in *; clearbody x end.
  assert (L : lookup fid (d_files d) = Some wfile) by (rewrite F, lookup_wfiles; destruct (in_dec Z.eq_dec fid procs); [reflexivity|contradiction]).
  destruct (C12_write_succeeds _ _ _ _ _ _ _ _ _ R (iovec_readable _) L eq_refl ltac:(discriminate) E) as (v & -> & _).
  exists d1, v. split; [exact E|]. split; [exact (reachable_step _ _ _ _ R U E)|exact (write_files _ _ _ _ _ _ _ _ _ F E)].
Qed.
Lemma open_step d procs fid : reachable d -> d_files d = wfiles procs -> NoDup (procs ++ [fid]) ->
  exists d', step d (OpOpen fid false true false false) = Ok (d', OutVal 0) /\ reachable d' /\ d_files d' = wfiles (procs ++ [fid]).
Proof.
  intros R F N. destruct d as [lg fs]. cbn [d_files] in F. subst fs. pose proof (run_opens lg procs [fid] N) as E. cbn [opens map run] in E.
  destruct (step _ _) as [[d' x]|] eqn:ES; cbn [bind] in E; [|discriminate]. exists d'. assert (x = OutVal 0) by congruence. assert (d' = Ring.mkDev lg (wfiles (procs ++ [fid]))) by congruence. subst.
  split; [reflexivity|]. split; [|reflexivity]. eapply reachable_step; [exact R| |exact ES]. exact Logic.I.
Qed.
Lemma close_step d procs fid : reachable d -> d_files d = wfiles (procs ++ [fid]) -> ~ In fid procs ->
  exists d', step d (OpClose fid) = Ok (d', OutVal 0) /\ reachable d' /\ d_files d' = wfiles procs.
Proof.
  intros R F N. exists (Ring.mkDev (d_log d) (wfiles procs)).
  assert (E : step d (OpClose fid) = Ok (Ring.mkDev (d_log d) (wfiles procs), OutVal 0)).
  { cbn [step]. rewrite F, lookup_wfiles. destruct (in_dec Z.eq_dec fid (procs ++ [fid])) as [_|X]; [|exfalso; apply X, in_or_app; right; now left].
    cbn [wfile f_reader]. do 3 f_equal. clear - N. induction procs as [|p procs IH]; cbn [app wfiles map remove].
    - now rewrite Z.eqb_refl.
    - destruct (Z.eqb_spec p fid) as [->|]; [exfalso; apply N; now left|]. f_equal. apply IH. intros X. apply N. now right. }
  split; [exact E|]. split; [|reflexivity]. eapply reachable_step; [exact R| |exact E]. exact Logic.I.
Qed.

Definition leaves (ops : list op) (outs : list out) (es : list RingSpec.entry) : Prop :=
  forall h, map fst h = ops -> map (fun ev => RingSpec.render (snd ev)) h = outs -> forall m, m_raw m STD = false ->
    m_acc (fold_left record h m) = m_acc m ++ es /\ m_raw (fold_left record h m) STD = false.
Lemma val_of y v : RingSpec.render y = OutVal v -> y = AVal v.
Proof. destruct y; cbn; congruence. Qed.
Lemma record_write t m fid sec nsec b v : m_raw m fid = false ->
  record m (OpWrite fid t sec nsec (iovec [b]), AVal v) =
  mkLedger (m_acc m ++ [mkEntry (meta_of t sec nsec) (ztake 4076 (names t ++ b))]) (m_raw m) (m_all m) (m_seen m) (m_got m).
Proof.
  intros H. cbn [record]. rewrite H. unfold requested. rewrite iovec_bytes. cbn [concat e_payload]. rewrite app_nil_r.
  destruct (Z.eqb_spec (zlen (ztake 4076 (names t ++ b))) 0) as [E|_]; [|reflexivity].
  rewrite zlen_ztake, zlen_app in E. pose proof (zlen_names t). pose proof (zlen_nonneg b). lia.
Qed.
Definition spoken (i : item) : Prop := match i with Said _ _ _ => True | Plain _ => False end.
Lemma items_run t clock l : forall n d (std : bool), (std = false -> Forall spoken l) -> reachable d -> d_files d = wfiles (if std then [STD] else []) ->
  exists d' outs, run d (item_ops t clock n l) = Ok (d', outs) /\ reachable d' /\ d_files d' = wfiles (if std then [STD] else []) /\
    leaves (item_ops t clock n l) outs (map (ent_of t) (times clock n l)) /\ Forall user_op (item_ops t clock n l).
Proof.
  induction l as [|i l IH]; intros n d std SP R F.
  - exists d, []. cbn [item_ops run times map]. repeat (split; [solve [auto]|]). split; [|constructor]. intros h E _ m Hm. destruct h; [|discriminate]. cbn. now rewrite app_nil_r.
  - assert (SP' : std = false -> Forall spoken l) by (intros E; specialize (SP E); now inversion SP).
    destruct i as [v g x|x].
    + set (procs := if std then [STD] else []) in *.
      assert (ND : NoDup (procs ++ [TMP])) by (unfold procs; destruct std; repeat constructor; cbn; intuition discriminate).
      assert (NI : ~ In TMP procs) by (unfold procs; destruct std; cbn; intuition discriminate).
      destruct (open_step d procs TMP R F ND) as (d1 & E1 & R1 & F1). set (b := bytes_of (Said v g x)).
      destruct (write_step d1 (procs ++ [TMP]) TMP t (fst (clock n)) (snd (clock n)) b R1 F1 ltac:(apply in_or_app; right; now left)) as (d2 & w & E2 & R2 & F2).
      destruct (close_step d2 procs TMP R2 F2 NI) as (d3 & E3 & R3 & F3).
      destruct (IH (S n) d3 std SP' R3 F3) as (d' & outs & E & R' & F' & LV & U). exists d', (OutVal 0 :: OutVal w :: OutVal 0 :: outs).
      cbn [item_ops app]. fold b. cbn [run]. rewrite E1. cbn [bind]. rewrite E2. cbn [bind]. rewrite E3. cbn [bind]. rewrite E. cbn [bind].
      split; [reflexivity|]. split; [exact R'|]. split; [exact F'|]. split.
      * intros h H1 H2 m Hm. destruct h as [|[o1 y1] [|[o2 y2] [|[o3 y3] h]]]; try discriminate. cbn [map fst snd] in H1, H2.
        injection H1 as -> -> -> H1. injection H2 as Y1 Y2 Y3 H2. apply val_of in Y1, Y2, Y3. subst y1 y2 y3. cbn [fold_left].
        rewrite record_write by (cbn [record m_raw]; unfold RingHistory.set; now rewrite Z.eqb_refl). cbn [record m_acc m_raw m_all m_seen m_got].
        destruct (LV h H1 H2 (mkLedger (m_acc m ++ [mkEntry (meta_of t (fst (clock n)) (snd (clock n))) (ztake 4076 (names t ++ b))]) (RingHistory.set (m_raw m) TMP false)
                   (RingHistory.set (m_all m) TMP false) (RingHistory.set (m_seen m) TMP 0) (RingHistory.set (m_got m) TMP []))) as [A B].
        { cbn [m_raw]. unfold RingHistory.set. change (STD =? TMP) with false. exact Hm. }
        split; [|exact B]. rewrite A. cbn [m_acc times map]. rewrite <- app_assoc. reflexivity.
      * repeat (apply Forall_cons; [first [exact Logic.I|apply readable_user, iovec_readable]|]). exact U.
    + destruct std; [|specialize (SP eq_refl); inversion SP; contradiction]. set (b := bytes_of (Plain x)).
      destruct (write_step d [STD] STD t (fst (clock n)) (snd (clock n)) b R F ltac:(now left)) as (d2 & w & E2 & R2 & F2).
      destruct (IH (S n) d2 true SP' R2 F2) as (d' & outs & E & R' & F' & LV & U). exists d', (OutVal w :: outs).
      cbn [item_ops app]. fold b. cbn [run]. rewrite E2. cbn [bind]. rewrite E. cbn [bind].
      split; [reflexivity|]. split; [exact R'|]. split; [exact F'|]. split.
      * intros h H1 H2 m Hm. destruct h as [|[o2 y2] h]; try discriminate. cbn [map fst snd] in H1, H2.
        injection H1 as -> H1. injection H2 as Y2 H2. apply val_of in Y2. subst y2. cbn [fold_left]. rewrite record_write by exact Hm.
        destruct (LV h H1 H2 (mkLedger (m_acc m ++ [mkEntry (meta_of t (fst (clock n)) (snd (clock n))) (ztake 4076 (names t ++ b))]) (m_raw m) (m_all m) (m_seen m) (m_got m)) Hm) as [A B].
        split; [|exact B]. rewrite A. cbn [m_acc times map]. rewrite <- app_assoc. reflexivity.
      * apply Forall_cons; [apply readable_user, iovec_readable|exact U].
Qed.
Lemma items_spoken l : forall o, Forall spoken (items false o l).
Proof. induction l as [|c l IH]; intros o; cbn [items]; [constructor|]. destruct c; auto. constructor; [exact Logic.I|auto]. Qed.
Lemma items_levels std l : forall o, Forall (fun i => match i with Said v _ _ => 0 <= v < 8 | Plain _ => True end) (items std o l).
Proof.
  induction l as [|c l IH]; intros o; cbn [items]; [constructor|]. destruct c as [f m|b|x v|x]; auto.
  - constructor; [destruct f; cbn; lia|auto].
  - destruct std; auto.
Qed.
Lemma times_good t lb size clock l : int32 (t_tgid t) /\ int32 (t_pid t) -> (forall j, 0 <= fst (clock j) < 2 ^ 31 /\ 0 <= snd (clock j) < 2 ^ 31) ->
  Forall (item_ok t lb size) l -> Forall (fun i => match i with Said v _ _ => 0 <= v < 8 | Plain _ => True end) l -> forall n, Forall (good t) (times clock n l).
Proof.
  intros HI HC F. induction F as [|i l H _ IH]; intros V n; cbn [times]; [constructor|]. inversion V as [|? ? V1 V2]; subst. constructor; [|now apply IH].
  destruct H as (H1 & H2 & H3 & H4 & H5 & H6). constructor; cbn [fst snd]; auto.
Qed.

(** ** C153 *)

(** A script sources ulog_api.sh, calls its functions, prints and sets variables, on a new device, which is
    then dumped: the messages are on the screen, in order, with the letter of the function and the tag set
    at that time, ordinary output (unless it was asked to stay on the console) as lines of level I without
    a tag. If the buffer was too small, the oldest are missing and a line says how many. *)
Theorem C153_screen : forall lb size s l evs t clock nm mem pow2 rfid all uid paths std,
  init_ok nm mem pow2 -> ~ In 0 nm -> s_main s = false -> int32 (t_tgid t) /\ int32 (t_pid t) ->
  (forall j, 0 <= fst (clock j) < 2 ^ 31 /\ 0 <= snd (clock j) < 2 ^ 31) -> rfid <> STD ->
  (std = true <-> ~ yes s "ULOG_STDERR" /\ ~ yes s "ULOG_NO_REDIRECT_STD") ->
  Forall stmt_ok l -> Forall (item_ok t lb size) (items std (s_env s "ulog_tag") l) ->
  script lb size s l = Some evs ->
  exists d outs, run (init_dev nm mem pow2) (dev_calls t clock 0 evs) = Ok (d, outs) /\
  exists node mark, add_ulog_device d rfid all uid = Ok (Some (node, mark)) /\
  exists lost kept, items std (s_env s "ulog_tag") l = lost ++ kept /\ (lost = [] \/ 2 ^ pow2 - 12300 < costs_of t kept) /\
    let mine := if all || (t_euid t mod 2 ^ 32 =? uid mod 2 ^ 32) then kept else [] in
  exists note, ((lost = [] \/ mine = []) /\ note = [] \/ lost <> [] /\ mine <> [] /\ notice nm (zlen lost) note) /\
    forall fuel, (2 * (length mine + 1) < fuel)%nat ->
      exists ns' c', process_logs fuel (live_env false uid) true 0 [node] (open_ctx 0 [mark]) 0 = Ok (Some (ns', c', 0)) /\
        output (mkO FShort false [] false []) paths (c_out c') = Ok (map Some (note ++ concat (map (screen_of t) mine))).
Proof.
  intros lb size s l evs t clock nm mem pow2 rfid all uid paths std HI HN HM IDS HC HF HS SO IO E.
  unfold script in E. destruct (sourced_ready s HM) as (R & ET & EY & EE & EM). destruct (sourced s) as [s1 e0]. cbn [fst snd] in *.
  destruct (execs lb size s1 l) as [[s2 e1]|] eqn:EX; [|discriminate]. assert (evs = e0 ++ e1) by congruence. subst evs. clear E.
  assert (SM : s_main s1 = std).
  { rewrite EM. rewrite <- !is_y_yes in HS. destruct (is_y s "ULOG_STDERR"), (is_y s "ULOG_NO_REDIRECT_STD"), std; cbn; try reflexivity; exfalso; destruct HS as [A B];
      try (destruct (A eq_refl) as [C D]; congruence); discriminate B; split; congruence. }
  set (its := items std (s_env s "ulog_tag") l) in *.
  assert (DC : forall n, dev_calls t clock n e1 = item_ops t clock n its).
  { intros n. subst its. rewrite <- SM. apply (execs_dev t lb size clock l SO s1 (s_env s "ulog_tag") n s2 e1 R); auto; [|now rewrite SM].
    unfold tag_now, tag_is. now rewrite ET. }
  assert (R0 : reachable (init_dev nm mem pow2)) by (exists nm, mem, pow2, [], []; split; [exact HI|]; split; [constructor|reflexivity]).
  assert (RUN : exists d outs, run (init_dev nm mem pow2) (dev_calls t clock 0 (e0 ++ e1)) = Ok (d, outs) /\ reachable d /\
    d_files d = wfiles (if std then [STD] else []) /\ leaves (dev_calls t clock 0 (e0 ++ e1)) outs (map (ent_of t) (times clock 0 its)) /\ Forall user_op (dev_calls t clock 0 (e0 ++ e1))).
  { rewrite EE, SM. destruct std.
    - cbn [app dev_calls]. destruct (open_step (init_dev nm mem pow2) [] STD R0 eq_refl ltac:(repeat constructor; intros [])) as (d1 & E1 & R1 & F1).
      destruct (items_run t clock its 0 d1 true ltac:(discriminate) R1 F1) as (d' & outs & E & R' & F' & LV & U). exists d', (OutVal 0 :: outs).
      rewrite DC. cbn [run]. rewrite E1. cbn [bind]. rewrite E. cbn [bind]. split; [reflexivity|]. split; [exact R'|]. split; [exact F'|]. split; [|constructor; [exact Logic.I|exact U]].
      intros h H1 H2 m Hm. destruct h as [|[o1 y1] h]; [discriminate|]. cbn [map fst snd] in H1, H2. injection H1 as -> H1. injection H2 as Y H2. apply val_of in Y. subst y1.
      cbn [fold_left]. match goal with |- m_acc (fold_left record h ?mm) = _ /\ _ => destruct (LV h H1 H2 mm) as [A B]; [|split; [rewrite A|exact B]; reflexivity] end.
      cbn [record m_raw]. unfold RingHistory.set. now rewrite Z.eqb_refl.
    - cbn [app]. rewrite DC. destruct (items_run t clock its 0 _ false ltac:(intros _; apply items_spoken) R0 eq_refl) as (d' & outs & X). exists d', outs. exact X. }
  destruct RUN as (d & outs & E & RD & FD & LV & U). exists d, outs. split; [exact E|].
  destruct (add_ok d (if std then [STD] else []) rfid all uid RD FD ltac:(destruct std; cbn; intuition)) as (node & mark & A). exists node, mark. split; [exact A|].
  assert (GD : Forall (good t) (times clock 0 its)) by (apply (times_good t lb size); auto; apply items_levels).
  destruct (entries_screen (ent_of t) (view_of t) (fun _ => t_euid t) nm mem pow2 _ d outs rfid all uid node mark paths (times clock 0 its) HI HN U E A) as (lost & kept & EL & RT & X).
  { intros h E1 E2. apply (LV h E1 E2 ledger0). reflexivity. }
  { eapply Forall_impl; [|exact GD]. apply good_looks. }
  exists (map snd lost), (map snd kept). assert (GK : Forall (good t) kept) by (rewrite EL in GD; now apply Forall_app in GD).
  split. { apply (f_equal (map snd)) in EL. rewrite times_snd, map_app in EL. exact EL. }
  split. { rewrite <- (costs_total t kept GK). destruct RT as [->|RT]; auto. }
  cbv zeta in *.
  assert (MI : (if all then kept else filter (fun _ : timed => t_euid t mod 2 ^ 32 =? uid mod 2 ^ 32) kept) = if all || (t_euid t mod 2 ^ 32 =? uid mod 2 ^ 32) then kept else []).
  { destruct all; [reflexivity|]. cbn [orb]. destruct (t_euid t mod 2 ^ 32 =? uid mod 2 ^ 32); clear; induction kept; cbn; auto. now f_equal. }
  rewrite MI in X. clear MI. destruct X as (note & N & D). exists note.
  assert (MM : (if all || (t_euid t mod 2 ^ 32 =? uid mod 2 ^ 32) then map snd kept else []) = map snd (if all || (t_euid t mod 2 ^ 32 =? uid mod 2 ^ 32) then kept else [])) by (destruct (all || _); reflexivity).
  rewrite MM. set (mine := if all || _ then kept else []) in *. split.
  - rewrite zlen_map. destruct N as [[[N|N] N2]|(N1 & N2 & N3)].
    + left. split; [left; now rewrite N|exact N2].
    + left. split; [right; exact (f_equal (map snd) N)|exact N2].
    + right. split; [intros Z0; apply map_eq_nil in Z0; contradiction|]. split; [intros Z0; apply map_eq_nil in Z0; contradiction|exact N3].
  - rewrite map_length. intros fuel HFU. destruct (D fuel HFU) as (ns' & c' & PL & O). exists ns', c'. split; [exact PL|]. rewrite O. do 3 f_equal. rewrite map_map. f_equal. apply map_ext.
    intros [c i]. unfold shows_as, view_of, screen_of. cbn [snd]. destruct i; reflexivity.
Qed.

(** Such a script runs, whatever its texts if no copy is asked for. *)
Lemma smooth_copied s f m : smooth m -> copied s (level_of f) m = Some ([letter_of f; 32] ++ m ++ [10]).
Proof.
  intros H. unfold copied. assert (L : ztake 1 (zdrop (level_of f) (bytes_of_string "  CEWNID")) = [letter_of f]) by (destruct f; reflexivity). rewrite L.
  rewrite (smooth_printed [letter_of f]) by (destruct f; split; cbn; intuition discriminate). rewrite (smooth_printed [32]) by (split; cbn; intuition discriminate).
  rewrite (smooth_printed m) by exact H. reflexivity.
Qed.
Lemma execs_runs lb size l : Forall stmt_ok l -> forall s, ready s -> is_y s "ULOG_STDERR" = false \/ Forall smooth_stmt l -> exists s' evs, execs lb size s l = Some (s', evs).
Proof.
  induction 1 as [|c l C _ IH]; intros s R H; cbn [execs]; [eauto|].
  assert (X : exists s1 e1, exec lb size s c = Some (s1, e1) /\ ready s1 /\ is_y s1 "ULOG_STDERR" = is_y s "ULOG_STDERR").
  { destruct c as [f m|b|x v|x]; cbn [stmt_ok] in C.
    - rewrite (call_does lb size s f m _ R eq_refl). destruct (called_env s [48 + level_of f] m) as (_ & _ & _ & _ & A).
      assert (Y : is_y (called s [48 + level_of f] m) "ULOG_STDERR" = is_y s "ULOG_STDERR") by (unfold is_y, getv; now rewrite A by discriminate).
      destruct (is_y s "ULOG_STDERR") eqn:EY; [|do 2 eexists; split; [reflexivity|]; split; [now apply called_ready|exact Y]].
      destruct H as [H|H]; [discriminate|]. inversion H as [|? ? H1 H2]; subst. rewrite smooth_copied by exact H1. cbn [option_map].
      do 2 eexists; split; [reflexivity|]; split; [now apply called_ready|exact Y].
    - do 2 eexists. split; [reflexivity|]. auto.
    - do 2 eexists. split; [reflexivity|]. split; [now apply setv_own|]. unfold is_y, getv. rewrite setv_env. destruct (String.eqb_spec x "ULOG_STDERR") as [->|]; [exfalso; apply C; now left|reflexivity].
    - do 2 eexists. split; [reflexivity|]. split; [now apply unsetv_own|]. unfold is_y, getv. cbn [unsetv s_env]. destruct (String.eqb_spec x "ULOG_STDERR") as [->|]; [exfalso; apply C; now left|reflexivity]. }
  destruct X as (s1 & e1 & -> & R1 & Y1). destruct (IH s1 R1) as (s' & e2 & ->); [|eauto]. rewrite Y1. destruct H as [H|H]; [auto|]. right. now inversion H.
Qed.
Theorem C153_runs : forall lb size s l, s_main s = false -> Forall stmt_ok l -> ~ yes s "ULOG_STDERR" \/ Forall smooth_stmt l ->
  exists evs, script lb size s l = Some evs.
Proof.
  intros lb size s l HM SO H. unfold script. destruct (sourced_ready s HM) as (R & _ & EY & _). destruct (sourced s) as [s1 e0]. cbn [fst snd] in *.
  destruct (execs_runs lb size l SO s1 R) as (s' & evs & ->); [|eauto]. rewrite EY. destruct H as [H|H]; [left|now right].
  rewrite <- is_y_yes in H. destruct (is_y s "ULOG_STDERR"); congruence.
Qed.

(** A script without settings: a message with the default tag, a line of output, two messages with a tag. *)
Definition ex_sh : shell := mkSh (fun _ => None) false.
Definition ex_task : task := mkTask 7 7 (bytes_of_string "sh") (bytes_of_string "sh") 0.
Definition ex_l : list stmt :=
  [Call Ulogi (bytes_of_string "up"); Output (bytes_of_string "50% free" ++ [10]); Assign "ulog_tag" (bytes_of_string "net");
   Call Uloge (bytes_of_string "no link"); Call Ulogd []].
Example C153_ex : init_ok (bytes_of_string "ulog_main") (zrepeat 170 16384) 14 /\ Forall stmt_ok ex_l /\
  (true = true <-> ~ yes ex_sh "ULOG_STDERR" /\ ~ yes ex_sh "ULOG_NO_REDIRECT_STD") /\
  Forall (item_ok ex_task true 1024) (items true (s_env ex_sh "ulog_tag") ex_l) /\
  concat (map (screen_of ex_task) (items true (s_env ex_sh "ulog_tag") ex_l)) =
    bytes_of_string "I (shell script): up" ++ [10] ++ bytes_of_string "I             : 50% free" ++ [10] ++
    bytes_of_string "E net         : no link" ++ [10] ++ bytes_of_string "D net         : " ++ [10].
Proof.
  split. { split; [lia|]. split; [rewrite zlen_zrepeat; reflexivity|vm_compute; discriminate]. }
  split. { do 2 (apply Forall_cons; [first [exact Logic.I|exists (bytes_of_string "50% free"); reflexivity]|]). apply Forall_cons; [cbn [stmt_ok]; not_own|].
           repeat (apply Forall_cons; [exact Logic.I|]). constructor. }
  split. { split; [|reflexivity]. intros _. split; discriminate. }
  split; [|vm_compute; reflexivity].
  repeat constructor; try (vm_compute; congruence); try (intros; split); vm_compute; intuition discriminate.
Qed.

(** ** C154 *)

(** Each call and each output makes one write, hence one entry, if texts have one line or the shell does not
    write line by line. Missing: texts of several lines in shells that do; ordinary output that does not end
    with an end of line (its last byte is not shown). *)
Definition data_of (o : op) : list (list Z) := match o with OpWrite _ _ _ _ it => [iter_bytes it] | _ => [] end.
Lemma written_ops t clock evs : forall n, written evs = flat_map data_of (dev_calls t clock n evs).
Proof.
  induction evs as [|e evs IH]; intros n; [reflexivity|]. cbn [written flat_map dev_calls]. fold (written evs). destruct e; cbn [app flat_map data_of]; rewrite ?iovec_bytes; cbn [concat]; rewrite ?app_nil_r;
    first [apply IH|rewrite (IH (S n)); reflexivity].
Qed.
Lemma item_written t clock its : forall n, flat_map data_of (item_ops t clock n its) = map bytes_of its.
Proof.
  induction its as [|i its IH]; intros n; [reflexivity|]. destruct i; cbn [item_ops app flat_map data_of map]; rewrite iovec_bytes; cbn [concat]; rewrite app_nil_r, IH; reflexivity.
Qed.
Theorem C154_once_partial : forall lb size s l evs t std, s_main s = false -> (std = true <-> ~ yes s "ULOG_STDERR" /\ ~ yes s "ULOG_NO_REDIRECT_STD") ->
  Forall stmt_ok l -> Forall (item_ok t lb size) (items std (s_env s "ulog_tag") l) -> script lb size s l = Some evs ->
  length (written evs) = length (items std (s_env s "ulog_tag") l).
Proof.
  intros lb size s l evs t std HM HS SO IO E. unfold script in E. destruct (sourced_ready s HM) as (R & ET & EY & EE & EM). destruct (sourced s) as [s1 e0]. cbn [fst snd] in *.
  destruct (execs lb size s1 l) as [[s2 e1]|] eqn:EX; [|discriminate]. assert (evs = e0 ++ e1) by congruence. subst evs. clear E.
  assert (SM : s_main s1 = std).
  { rewrite EM. rewrite <- !is_y_yes in HS. destruct (is_y s "ULOG_STDERR"), (is_y s "ULOG_NO_REDIRECT_STD"), std; cbn; try reflexivity; exfalso; destruct HS as [A B];
      try (destruct (A eq_refl) as [C D]; congruence); discriminate B; split; congruence. }
  assert (W : written (e0 ++ e1) = written e1) by (rewrite EE; destruct (s_main s1); reflexivity). rewrite W.
  rewrite (written_ops t (fun _ => (0, 0)) e1 O).
  rewrite (execs_dev t lb size (fun _ => (0, 0)) l SO s1 (s_env s "ulog_tag") O s2 e1 R); [rewrite SM, item_written; apply map_length| |now rewrite SM|exact EX].
  unfold tag_now, tag_is. now rewrite ET.
Qed.
Example C154_ex : exists evs, script true 1024 ex_sh ex_l = Some evs /\ length (written evs) = 4%nat.
Proof. eexists. split; vm_compute; reflexivity. Qed.

(** An error message of two lines in a shell that writes line by line: the second line is an entry of its
    own, which shows as information, without the tag. *)
Theorem C154_lines_refuted : exists s l evs t second, s_main s = false /\ Forall stmt_ok l /\ script true 1024 s l = Some evs /\
  items true (s_env s "ulog_tag") l = [Said 3 (bytes_of_string "net") (bytes_of_string "no link" ++ [10] ++ bytes_of_string "giving up")] /\
  written evs = [[51; 0; 0; 0] ++ bytes_of_string "net" ++ [0] ++ bytes_of_string "no link" ++ [10]; second] /\
  exists v, parsed_as (enc 2 (requested false t 5 0 (iovec [second]))) v /\ v_message v = bytes_of_string "giving up" /\ v_level v = 6 /\ v_tag v = [].
Proof.
  exists (mkSh (fun x => if String.eqb x "ulog_tag" then Some (bytes_of_string "net") else None) false),
    [Call Uloge (bytes_of_string "no link" ++ [10] ++ bytes_of_string "giving up")]. eexists. exists ex_task, (bytes_of_string "giving up" ++ [10]).
  split; [reflexivity|]. split; [repeat constructor|]. split; [vm_compute; reflexivity|]. split; [reflexivity|]. split; [vm_compute; reflexivity|].
  eexists. split.
  - unfold requested. rewrite iovec_bytes. cbn [concat]. rewrite app_nil_r. rewrite ztake_all by (vm_compute; discriminate).
    apply (enc_parsed (t_tgid ex_task) (t_pid ex_task) 5 0 (t_euid ex_task)); try (unfold ParseSpec.int32; vm_compute; intuition congruence).
    apply plain_shows; vm_compute; intuition congruence.
  - repeat split.
Qed.
(** Ordinary output without an end of line: the last byte is not shown. *)
Theorem C154_output_refuted : exists l evs t, script true 1024 ex_sh l = Some evs /\ l = [Output (bytes_of_string "Loading...")] /\
  written evs = [bytes_of_string "Loading..."] /\
  exists v, parsed_as (enc 2 (requested false t 5 0 (iovec [bytes_of_string "Loading..."]))) v /\ v_message v = bytes_of_string "Loading..".
Proof.
  exists [Output (bytes_of_string "Loading...")]. eexists. exists ex_task. split; [vm_compute; reflexivity|]. split; [reflexivity|]. split; [vm_compute; reflexivity|].
  eexists. split.
  - unfold requested. rewrite iovec_bytes. cbn [concat]. rewrite app_nil_r. rewrite ztake_all by (vm_compute; discriminate).
    apply (enc_parsed (t_tgid ex_task) (t_pid ex_task) 5 0 (t_euid ex_task)); try (unfold ParseSpec.int32; vm_compute; intuition congruence).
    change (bytes_of_string "Loading...") with (bytes_of_string "Loading.." ++ [46]). apply plain_shows; vm_compute; intuition congruence.
  - reflexivity.
Qed.

(** ** C155 *)
Lemma pieces_concat lb size out : forall acc, concat (pieces lb size acc out) = rev acc ++ out.
Proof.
  induction out as [|c out IH]; intros acc; cbn [pieces].
  - destruct acc; cbn [concat]; now rewrite ?app_nil_r.
  - destruct ((lb && (c =? 10)) || (size <=? zlen (c :: acc))); cbn [concat]; rewrite IH; cbn [rev]; now rewrite <- app_assoc.
Qed.
Lemma console_app a b : console (a ++ b) = console a ++ console b. Proof. apply flat_map_app. Qed.
Lemma console_put lb size s out : console (put_std lb size s out) = if s_main s then [] else out.
Proof.
  unfold put_std. assert (X : concat (pieces lb size [] out) = out) by (now rewrite pieces_concat). destruct (s_main s).
  - clear X. induction (pieces lb size [] out) as [|p l IH]; [reflexivity|exact IH].
  - rewrite <- X at 2. clear X. induction (pieces lb size [] out) as [|p l IH]; [reflexivity|]. cbn [map concat]. rewrite <- IH. reflexivity.
Qed.
Lemma console_call lb size out : console ([OpenDev TMP] ++ map (WriteDev TMP) (pieces lb size [] out) ++ [CloseDev TMP]) = [].
Proof. cbn [app console flat_map]. fold (console (map (WriteDev TMP) (pieces lb size [] out) ++ [CloseDev TMP])). rewrite console_app. induction (pieces lb size [] out) as [|p l IH]; [reflexivity|exact IH]. Qed.

(** What is on the console: if a copy is asked for, a line for each message, with the letter of its level;
    ordinary output unless it goes to the log. Missing: texts with characters that printf interprets, if a
    copy is asked for. *)
Theorem C155_console_partial : forall lb size s l (copy std : bool), s_main s = false -> Forall stmt_ok l -> copy = false \/ Forall smooth_stmt l ->
  (copy = true <-> yes s "ULOG_STDERR") -> (std = true <-> ~ yes s "ULOG_STDERR" /\ ~ yes s "ULOG_NO_REDIRECT_STD") ->
  exists evs, script lb size s l = Some evs /\ console evs = if std then [] else copies copy l.
Proof.
  intros lb size s l copy std HM SO HC HY HS.
  assert (X : forall l, Forall stmt_ok l -> forall s1, ready s1 -> copy = false \/ Forall smooth_stmt l -> is_y s1 "ULOG_STDERR" = copy -> s_main s1 = std ->
    exists s' evs, execs lb size s1 l = Some (s', evs) /\ console evs = if std then [] else copies copy l).
  { clear - copy std. induction 1 as [|c l C SL IH]; intros s1 R H Y M; cbn [execs]; [do 2 eexists; split; [reflexivity|]; destruct std; reflexivity|].
    assert (X : exists s2 e1, exec lb size s1 c = Some (s2, e1) /\ ready s2 /\ is_y s2 "ULOG_STDERR" = copy /\ s_main s2 = std /\ console e1 = if std then [] else copies copy [c]).
    { destruct c as [f m|b|x v|x]; cbn [stmt_ok] in C.
      - rewrite (call_does lb size s1 f m _ R eq_refl). destruct (called_env s1 [48 + level_of f] m) as (_ & _ & _ & B & A).
        assert (Y' : is_y (called s1 [48 + level_of f] m) "ULOG_STDERR" = copy) by (rewrite <- Y; unfold is_y, getv; now rewrite A by discriminate).
        rewrite Y. destruct copy.
        + destruct H as [H|H]; [discriminate|]. inversion H as [|? ? H1 H2]; subst. rewrite smooth_copied by exact H1. cbn [option_map].
          do 2 eexists; split; [reflexivity|]. split; [now apply called_ready|]. split; [exact Y'|]. split; [exact B|]. rewrite console_app, console_put, console_call, app_nil_r.
          destruct (s_main s1); [reflexivity|]. cbn [copies flat_map]. now rewrite app_nil_r.
        + do 2 eexists; split; [reflexivity|]. split; [now apply called_ready|]. split; [exact Y'|]. split; [congruence|]. rewrite console_app, console_call. destruct std; reflexivity.
      - do 2 eexists. split; [reflexivity|]. split; [exact R|]. split; [exact Y|]. split; [exact M|]. rewrite console_put, M. destruct std; [reflexivity|]. cbn [copies flat_map]. now rewrite app_nil_r.
      - do 2 eexists. split; [reflexivity|]. split; [now apply setv_own|]. split; [|split; [exact M|destruct std; reflexivity]]. rewrite <- Y. unfold is_y, getv. rewrite setv_env. destruct (String.eqb_spec x "ULOG_STDERR") as [->|]; [exfalso; apply C; now left|reflexivity].
      - do 2 eexists. split; [reflexivity|]. split; [now apply unsetv_own|]. split; [|split; [exact M|destruct std; reflexivity]]. rewrite <- Y. unfold is_y, getv. cbn [unsetv s_env]. destruct (String.eqb_spec x "ULOG_STDERR") as [->|]; [exfalso; apply C; now left|reflexivity]. }
    destruct X as (s2 & e1 & -> & R2 & Y2 & M2 & E2). destruct (IH s2 R2) as (s' & evs & -> & E3); auto; [destruct H as [H|H]; [now left|right; now inversion H]|].
    do 2 eexists. split; [reflexivity|]. rewrite console_app, E2, E3. destruct std; [reflexivity|]. change (c :: l) with ([c] ++ l). unfold copies at 3. rewrite flat_map_app. reflexivity. }
  unfold script. destruct (sourced_ready s HM) as (R & ET & EY & EE & EM). destruct (sourced s) as [s1 e0]. cbn [fst snd] in *.
  rewrite <- !is_y_yes in HS. rewrite <- is_y_yes in HY.
  assert (SM : s_main s1 = std).
  { rewrite EM. destruct (is_y s "ULOG_STDERR"), (is_y s "ULOG_NO_REDIRECT_STD"), std; cbn; try reflexivity; exfalso; destruct HS as [A B];
      try (destruct (A eq_refl) as [C D]; congruence); discriminate B; split; congruence. }
  destruct (X l SO s1 R HC) as (s' & evs & -> & E); [|exact SM|].
  { rewrite EY. destruct (is_y s "ULOG_STDERR"), copy; auto; [symmetry; now apply HY|now apply HY]. }
  eexists. split; [reflexivity|]. rewrite console_app, EE, E. destruct (s_main s1); reflexivity.
Qed.
Definition ex_copy : shell := mkSh (fun x => if String.eqb x "ULOG_STDERR" then Some (bytes_of_string "y") else None) false.
Definition ex_l2 : list stmt := [Call Ulogw (bytes_of_string "slow"); Output (bytes_of_string "done" ++ [10])].
Example C155_ex : Forall stmt_ok ex_l2 /\ Forall smooth_stmt ex_l2 /\ yes ex_copy "ULOG_STDERR" /\
  copies true ex_l2 = bytes_of_string "W slow" ++ [10] ++ bytes_of_string "done" ++ [10].
Proof.
  split; [apply Forall_cons; [exact Logic.I|]; apply Forall_cons; [now exists (bytes_of_string "done")|constructor]|].
  split; [repeat constructor; vm_compute; intuition discriminate|]. split; reflexivity.
Qed.
(** The copy of a message with a per cent sign or a backslash is not the message. *)
Theorem C155_console_refuted : exists s, s_main s = false /\ yes s "ULOG_STDERR" /\
  (exists evs, script true 1024 s [Call Ulogi (bytes_of_string "100%done")] = Some evs /\ console evs = bytes_of_string "I 1000one" ++ [10]) /\
  (exists evs, script true 1024 s [Call Ulogi (bytes_of_string "C:\new")] = Some evs /\ console evs = bytes_of_string "I C:" ++ [10] ++ bytes_of_string "ew" ++ [10]).
Proof. exists ex_copy. split; [reflexivity|]. split; [reflexivity|]. split; eexists; split; vm_compute; reflexivity. Qed.

(** ** C156 *)

(** The variables of a script have the values it gave them, those named level, message and ulog_tag
    excepted. *)
Theorem C156_variables_partial : forall lb size s l s1 e0 s2 evs x, sourced s = (s1, e0) -> execs lb size s1 l = Some (s2, evs) ->
  own x -> ~ In x ["level"; "message"; "ulog_tag"]%string -> s_env s2 x = given x l (s_env s x).
Proof.
  intros lb size s l s1 e0 s2 evs x ES E O N.
  assert (E1 : s_env s1 x = s_env s x).
  { unfold sourced in ES. apply (f_equal fst) in ES. cbn [fst] in ES. subst s1.
    assert (G : forall s y v, In y ["ULOG_STDERR"; "ULOG_NO_REDIRECT_STD"; "ULOG_CRIT"; "ULOG_ERR"; "ULOG_WARN"; "ULOG_NOTICE"; "ULOG_INFO"; "ULOG_DEBUG"; "ULOG_LEVEL_LETTERS"]%string -> s_env (setv s y v) x = s_env s x).
    { intros s0 y v H. rewrite setv_env. destruct (String.eqb_spec y x) as [->|]; [contradiction|reflexivity]. }
    rewrite !G by (cbn; tauto). destruct (is_y s "ULOG_STDERR"); [destruct (negb _); cbn [s_env]; rewrite ?G by (cbn; tauto); reflexivity|]. destruct (negb _); reflexivity. }
  rewrite <- E1. clear s e0 ES E1. revert s1 s2 evs E. induction l as [|c l IH]; intros s1 s2 evs E; cbn [execs] in E; [assert (s2 = s1) by congruence; now subst|].
  destruct (exec lb size s1 c) as [[s3 e3]|] eqn:EX; [|discriminate]. destruct (execs lb size s3 l) as [[s4 e4]|] eqn:EL; [|discriminate].
  assert (s4 = s2) by congruence. subst s4. rewrite (IH _ _ _ EL). unfold given. cbn [fold_left]. f_equal.
  destruct c as [f m|b|y v|y]; cbn [exec] in EX.
  - unfold ulog in EX. cbv zeta in EX. fold default_tag in EX. fold (called s1 (getv s1 (level_var f)) m) in EX.
    destruct (called_env s1 (getv s1 (level_var f)) m) as (_ & _ & _ & _ & A).
    destruct (if is_y _ _ then _ else _); [|discriminate]. destruct (printf _ _); [|discriminate].
    assert (s3 = called s1 (getv s1 (level_var f)) m) by congruence. subst s3. apply A; intros ->; apply N; cbn; tauto.
  - assert (s3 = s1) by congruence. now subst.
  - assert (s3 = setv s1 y v) by congruence. subst s3. apply setv_env.
  - assert (s3 = unsetv s1 y) by congruence. subst s3. reflexivity.
Qed.
Example C156_ex : exists s1 e0 s2 evs, sourced ex_sh = (s1, e0) /\
  execs true 1024 s1 [Assign "count" (bytes_of_string "3"); Call Ulogi (bytes_of_string "x")] = Some (s2, evs) /\ s_env s2 "count" = Some (bytes_of_string "3").
Proof. do 4 eexists. split; [reflexivity|]. split; vm_compute; reflexivity. Qed.
(** A variable named level or message is overwritten by every message. *)
Theorem C156_variables_refuted : exists s s1 e0 l s2 evs, sourced s = (s1, e0) /\ execs true 1024 s1 l = Some (s2, evs) /\
  given "level" l (s_env s "level") = Some (bytes_of_string "full") /\ s_env s2 "level" = Some (bytes_of_string "6") /\
  given "message" l (s_env s "message") = Some (bytes_of_string "hello") /\ s_env s2 "message" = Some (bytes_of_string "x").
Proof.
  exists ex_sh. do 2 eexists. exists [Assign "level" (bytes_of_string "full"); Assign "message" (bytes_of_string "hello"); Call Ulogi (bytes_of_string "x")].
  do 2 eexists. split; [reflexivity|]. split; [vm_compute; reflexivity|]. repeat split; vm_compute; reflexivity.
Qed.
Print Assumptions C153_screen.
Print Assumptions C153_runs.
Print Assumptions C154_once_partial.
Print Assumptions C154_lines_refuted.
Print Assumptions C154_output_refuted.
Print Assumptions C155_console_partial.
Print Assumptions C155_console_refuted.
Print Assumptions C156_variables_partial.
Print Assumptions C156_variables_refuted.
