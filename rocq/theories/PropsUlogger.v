(** Theorems about the ulogger tool (C74 to C79). *)
From Coq Require Import ZArith String List Bool Lia ZifyBool ZifyNat Arith.
From Verif Require Import Bytes BytesProofs Parse ParseSpec ParseProofs Iov Klog KlogSpec KlogProofs Ulogger UloggerSpec.
Import ListNotations.
Open Scope Z_scope.

(** ** Input *)
Lemma fgets_spec n : forall s a b, fgets n s = (a, b) ->
  s = a ++ b /\ (length a <= n)%nat /\ ~ In 10 (removelast a) /\ (length a = n \/ last a 0 = 10 \/ b = []) /\
  (s <> [] -> n <> O -> a <> []).
Proof.
  induction n as [|n IH]; intros s a b; cbn [fgets].
  - intros E. assert (a = [] /\ b = s) as [-> ->] by (split; congruence). cbn. repeat split; auto; lia.
  - destruct s as [|c r].
    + intros E. assert (a = [] /\ b = []) as [-> ->] by (split; congruence). cbn. repeat split; auto; lia.
    + destruct (Z.eqb_spec c 10) as [->|Hc].
      * intros E. assert (a = [10] /\ b = r) as [-> ->] by (split; congruence). cbn. repeat split; auto; try lia. discriminate.
      * destruct (fgets n r) as [a' b'] eqn:F. intros E. assert (a = c :: a' /\ b = b') as [-> ->] by (split; congruence).
        destruct (IH _ _ _ F) as (-> & Hl & Hn & Hd & _).
        split; [reflexivity|]. split; [cbn; lia|]. split; [|split; [|discriminate]].
        -- destruct a' as [|x a']; [cbn; auto|]. change (removelast (c :: x :: a')) with (c :: removelast (x :: a')).
           intros [?|?]; [lia|auto].
        -- destruct Hd as [Hd|[Hd|Hd]]; [left; cbn; lia| |now right; right].
           right; left. destruct a' as [|x a']; [cbn in Hd; lia|exact Hd].
Qed.

Lemma read_lines_spec : forall fuel s, (length s <= fuel)%nat -> exists l, read_lines fuel s = Ok l /\ cut s l.
Proof.
  induction fuel as [|fuel IH]; intros s Hs.
  - destruct s; [|cbn in Hs; lia]. exists []. repeat split; cbn; auto.
  - destruct s as [|c r]. { exists []. repeat split; cbn; auto. }
    change (read_lines (S fuel) (c :: r)) with
      (let (a, b) := fgets 255 (c :: r) in let* l := read_lines fuel b in Ok (a :: l)).
    destruct (fgets 255 (c :: r)) as [a b] eqn:F. destruct (fgets_spec _ _ _ _ F) as (E & Hl & Hn & Hd & Ha).
    assert (a <> []) by (apply Ha; discriminate).
    assert (length b <= fuel)%nat.
    { apply (f_equal (@length Z)) in E. rewrite app_length in E. destruct a; [congruence|]. cbn [length] in *. lia. }
    destruct (IH b) as (l & -> & Hc & Hp & Hm); [lia|]. cbn [bind]. exists (a :: l). split; [reflexivity|].
    split; [cbn [concat]; rewrite Hc; congruence|]. split.
    + constructor; [|exact Hp]. split; [assumption|]. split; [unfold zlen; lia|exact Hn].
    + destruct l as [|x l]; [constructor|]. change (removelast (a :: x :: l)) with (a :: removelast (x :: l)).
      constructor; [|exact Hm]. unfold complete, zlen. destruct Hd as [Hd|[Hd|Hd]]; [left; lia|right; exact Hd|].
      subst b. apply Forall_inv in Hp. destruct Hp as [Hx _]. destruct x; [congruence|discriminate].
Qed.

Lemma fgets_line n : forall a b, (length a < n)%nat -> ~ In 10 a -> fgets n (a ++ 10 :: b) = (a ++ [10], b).
Proof.
  induction n as [|n IH]; intros a b H Ha; [lia|]. destruct a as [|c a]; [reflexivity|].
  cbn [app fgets]. destruct (Z.eqb_spec c 10) as [->|]; [destruct Ha; now left|].
  rewrite IH; [reflexivity|cbn in H; lia|intros ?; apply Ha; now right].
Qed.

Lemma read_lines_lines : forall fuel ls, (length (concat (map (fun a => a ++ [10%Z]) ls)) <= fuel)%nat ->
  Forall (fun a => zlen a < 255 /\ ~ In 10 a) ls ->
  read_lines fuel (concat (map (fun a => a ++ [10]) ls)) = Ok (map (fun a => a ++ [10]) ls).
Proof.
  induction fuel as [|fuel IH]; intros ls Hl F; destruct ls as [|a ls]; try reflexivity.
  - cbn [map concat] in Hl. rewrite !app_length in Hl. cbn in Hl. lia.
  - cbn [map concat] in *. rewrite <- app_assoc in *. cbn [app] in *.
    inversion F as [|? ? [H1 H2] F']; subst.
    assert (E : forall x, x <> [] -> read_lines (S fuel) x = (let (a, b) := fgets 255 x in let* l := read_lines fuel b in Ok (a :: l)))
      by (intros [|? ?]; [congruence|reflexivity]).
    rewrite E by (destruct a; discriminate). rewrite fgets_line; [|unfold zlen in H1; lia|exact H2].
    rewrite IH; [reflexivity| |exact F']. rewrite app_length in Hl. cbn [length] in Hl. lia.
Qed.

(** ** Numbers and options *)
Lemma strtol_int_nul W s r : exists v b u, strtol_int W (s ++ 0 :: r) = Ok (v, b ++ 0 :: r) /\ s = u ++ b.
Proof. unfold strtol_int. destruct (strto_nul s r) as (neg & ds & b & u & -> & E). cbn [bind]. eauto. Qed.
Lemma s32_nat v : 0 <= v < 2 ^ 31 -> s32 v = v.
Proof. intros H. apply s32_id. unfold int32. lia. Qed.
Lemma strtol_int_digits W ds x r : 32 <= W -> digits ds -> isdigit x = false -> dec_val ds < 2 ^ 31 ->
  strtol_int W (ds ++ x :: r) = Ok (dec_val ds, x :: r).
Proof.
  intros HW Hd Hx Hv. unfold strtol_int. pose proof (strto_digits [] ds x r (Forall_nil _) Hd Hx) as E. cbn [app] in E.
  rewrite E. cbn [bind]. rewrite num_of_val. pose proof (dec_val_nonneg ds (proj2 Hd)).
  assert (2 ^ 31 <= 2 ^ (W - 1)) by (apply Z.pow_le_mono_r; lia).
  rewrite Z.min_l by lia. rewrite s32_nat by lia. reflexivity.
Qed.
Lemma parse_int32_any W a : exists p, parse_int32 W a = Ok p.
Proof.
  unfold parse_int32. destruct a as [|c a]; [eauto|].
  destruct (strtol_int_nul W (c :: a) []) as (v & b & u & -> & _). cbn [bind].
  destruct (ch_nul b []) as [x ->]. cbn [bind]. eauto.
Qed.
Lemma parse_int32_digits W a : 32 <= W -> digits a -> dec_val a < 2 ^ 31 -> parse_int32 W a = Ok (Some (dec_val a)).
Proof.
  intros HW Hd Hv. unfold parse_int32. destruct a as [|c a]; [destruct Hd; congruence|].
  rewrite strtol_int_digits by auto. reflexivity.
Qed.
Lemma strto_none s x r : ~ x = 45 -> ~ x = 43 -> isspace x = false -> isdigit x = false -> Forall (fun c => c = 32) s ->
  strto (s ++ x :: r) = Ok (false, [], s ++ x :: r).
Proof.
  intros H1 H2 H3 H4 Hs. unfold strto. rewrite span_c_app; [|eapply Forall_impl; [|exact Hs]; cbn; intros ? ->; reflexivity|exact H3].
  cbn [bind ch]. destruct (Z.eqb_spec x 45); [lia|]. destruct (Z.eqb_spec x 43); [lia|]. cbn [span_c]. rewrite H4. reflexivity.
Qed.
Lemma decb_digits a : decb a = true <-> digits a.
Proof.
  unfold decb, digits. destruct a as [|c a].
  - cbn. split; [discriminate|intros [H _]; congruence].
  - replace (zlen (c :: a) =? 0) with false by (pose proof (zlen_nonneg a); rewrite zlen_cons; lia). cbn [negb andb].
    rewrite forallb_forall, Forall_forall. split; [intros H; split; [discriminate|]|intros [_ H]]; intros x Hx; specialize (H x Hx); lia.
Qed.
Lemma wrong_number a : wrong a -> number a = None.
Proof.
  intros [->|(ds & c & r & -> & Hd & Hc & H0 & H1)]; [reflexivity|]. unfold number.
  assert (N : forall b, In c b -> decb b = false).
  { intros b Hi. destruct (decb b) eqn:E; [|reflexivity]. apply decb_digits in E. destruct E as [_ E]. rewrite Forall_forall in E. elim Hc. now apply E. }
  rewrite N by (apply in_or_app; right; now left).
  destruct ds as [|d ds].
  - destruct H1 as (_ & H1 & _); [reflexivity|]. cbn [app hd]. destruct (Z.eqb_spec c 45); [contradiction|reflexivity].
  - cbn [app tl]. rewrite N by (apply in_or_app; right; now left). now rewrite andb_false_r.
Qed.
Lemma parse_int32_wrong W a : 32 <= W -> wrong a -> parse_int32 W a = Ok None.
Proof.
  intros HW [->|(ds & c & r & -> & Hd & Hc & H0 & H1)]; [reflexivity|]. unfold parse_int32.
  assert (Hx : isdigit c = false) by (clear - Hc; unfold isdigit; lia).
  assert (G : exists v, strtol_int W ((ds ++ c :: r) ++ [0]) = Ok (v, c :: r ++ [0])).
  { rewrite <- app_assoc. cbn [app]. unfold strtol_int. destruct ds as [|d ds].
    - destruct H1 as (P1 & P2 & P3 & P4); [reflexivity|]. pose proof (strto_none [] c (r ++ [0])) as E. cbn [app] in E |- *.
      rewrite E; [cbn [bind]; eauto|assumption..|clear - P3 P4; unfold isspace; lia|exact Hx|constructor].
    - pose proof (strto_digits [] (d :: ds) c (r ++ [0]) (Forall_nil _)) as E. cbn [app] in E |- *.
      rewrite E; [cbn [bind]; eauto|split; [discriminate|exact Hd]|exact Hx]. }
  destruct G as (v & ->). cbn [bind ch]. replace (c =? 0) with false by (clear - H0; lia).
  destruct (ds ++ c :: r) eqn:E; [destruct ds; discriminate|reflexivity].
Qed.
Lemma parse_int32_number W a v : 32 <= W -> number a = Some v -> - 2 ^ 31 <= v < 2 ^ 31 -> parse_int32 W a = Ok (Some v).
Proof.
  intros HW. unfold number. destruct (decb a) eqn:E.
  - intros E1 Hv. assert (v = dec_val a) as -> by congruence. apply parse_int32_digits; [exact HW|now apply decb_digits|lia].
  - destruct ((hd 0 a =? 45) && decb (tl a)) eqn:E2; [|discriminate]. intros E1 Hv. assert (v = - dec_val (tl a)) as -> by congruence.
    apply andb_prop in E2. destruct E2 as [Eh Ed]. destruct a as [|c ds]; [discriminate|]. cbn [hd tl] in *.
    apply Z.eqb_eq in Eh. subst c. apply decb_digits in Ed. unfold parse_int32, strtol_int, strto. cbn [app span_c].
    change (isspace 45) with false. cbv iota. cbn [bind ch]. change (45 =? 45) with true. cbv iota. cbn [tl orb bind].
    rewrite span_c_app; [|apply digits_isdigit, Ed|reflexivity]. cbn [bind]. destruct ds as [|d ds]; [destruct Ed; congruence|].
    set (dd := d :: ds) in *. cbn [bind ch]. change (0 =? 0) with true. cbv iota. rewrite num_of_val.
    assert (2 ^ 31 <= 2 ^ (W - 1)) by (apply Z.pow_le_mono_r; lia). pose proof (dec_val_nonneg dd (proj2 Ed)).
    rewrite Z.max_l by lia. do 2 f_equal. apply s32_id. unfold int32. lia.
Qed.
Lemma parse_level_named a : parse_level (match a with [] => 0 | x :: _ => x end) = level_named a.
Proof.
  destruct a as [|x a]; [reflexivity|]. unfold level_named. cbn [firstn].
  assert (G : forall v, bytes_eqb [v] [x] = (v =? x)) by (intros v; cbn; apply andb_true_r).
  unfold levels. cbn [find fst bytes_of_string]. cbn [map list_ascii_of_string].
  repeat match goal with |- context [bytes_eqb ?l [x]] => let l' := eval vm_compute in l in change l with l'; rewrite G end.
  repeat match goal with |- context [?v =? x] => destruct (Z.eqb_spec v x); [subst x; reflexivity|] end.
  unfold parse_level. replace (isdigit x) with false by (unfold isdigit; lia).
  repeat match goal with |- context [x =? ?v] => destruct (Z.eqb_spec x v); [lia|] end. reflexivity.
Qed.
Lemma level_named_range a : 0 <= level_named a <= 7.
Proof.
  unfold level_named. destruct (find _ levels) as [[n v]|] eqn:E; [|lia]. apply find_some in E. destruct E as [E _].
  cbn [levels In] in E. repeat (destruct E as [E|E]; [injection E as <- <-; lia|]). destruct E.
Qed.

Lemma last_of_cons A (f : opt -> option A) d o l :
  last_of f d (o :: l) = last_of f (match f o with Some x => x | None => d end) l.
Proof. reflexivity. Qed.
Lemma set_opts_any W : forall opts c, exists p, set_opts W c opts =
    Ok (mkSet p (last_of name_opt (u_name c) opts) (last_of prio_opt (u_prio c) opts) (last_of tag_opt (u_tag c) opts)
             (last_of time_opt (u_time c) opts) (last_of err_opt (u_err c) opts)) /\
    (32 <= W -> Forall good_opt opts -> p = last_of pid_opt (u_pid c) opts).
Proof.
  induction opts as [|o opts IH]; intros c.
  - exists (u_pid c). destruct c. split; reflexivity.
  - cbn [set_opts]. assert (exists c', set_opt W c o = Ok c' /\
      u_name c' = match name_opt o with Some x => x | None => u_name c end /\
      u_prio c' = match prio_opt o with Some x => x | None => u_prio c end /\
      u_tag c' = match tag_opt o with Some x => x | None => u_tag c end /\
      u_time c' = match time_opt o with Some x => x | None => u_time c end /\
      u_err c' = match err_opt o with Some x => x | None => u_err c end /\
      (32 <= W -> good_opt o -> u_pid c' = match pid_opt o with Some x => x | None => u_pid c end))
      as (c' & -> & E1 & E2 & E3 & E4 & E5 & E6).
    { destruct o; cbn [set_opt good_opt name_opt prio_opt tag_opt time_opt err_opt pid_opt];
        try (eexists; split; [reflexivity|]; cbn; repeat split; reflexivity).
      - destruct (parse_int32_any W a) as [p E]. rewrite E. cbn [bind]. eexists. split; [reflexivity|].
        destruct p; cbn; repeat split; intros HW [Hw|(v & En & Hv & _)]; [rewrite wrong_number by exact Hw; rewrite parse_int32_wrong in E by auto|rewrite En; rewrite (parse_int32_number W a v) in E by auto|rewrite wrong_number by exact Hw; rewrite parse_int32_wrong in E by auto|rewrite En; rewrite (parse_int32_number W a v) in E by auto]; congruence.
      - eexists. split; [reflexivity|]. cbn [u_name u_prio u_tag u_time u_err u_pid]. rewrite parse_level_named. repeat split. }
    cbn [bind]. destruct (IH c') as (p & -> & Hp). exists p. rewrite !last_of_cons, <- E1, <- E2, <- E3, <- E4, <- E5.
    split; [reflexivity|]. intros HW F. inversion F; subst. rewrite Hp, E6 by auto. reflexivity.
Qed.
Lemma prio_range opts : 0 <= last_of prio_opt 6 opts <= 7.
Proof.
  assert (G : forall d, 0 <= d <= 7 -> 0 <= last_of prio_opt d opts <= 7).
  { induction opts as [|o opts IH]; intros d Hd; [exact Hd|]. rewrite last_of_cons. apply IH.
    destruct o; cbn; try exact Hd. apply level_named_range. }
  apply G. lia.
Qed.

(** ** Times *)
Lemma parse_time_any W l : exists t b u, parse_time W (l ++ [0]) = Ok (t, b ++ [0]) /\ l = u ++ b.
Proof.
  unfold parse_time. destruct (ch_nul l []) as [c Hc]. rewrite Hc. cbn [bind].
  destruct ((c =? 0) || (c =? 32)) eqn:E0. { exists None, l, []. split; reflexivity. }
  destruct (strtol_int_nul W l []) as (v & b & u & -> & ->). cbn [bind].
  destruct (ch_nul b []) as [x Hx]. rewrite Hx. cbn [bind]. destruct (Z.eqb_spec x 32) as [->|].
  - destruct (tl_app_nul b [] 32 ltac:(lia) Hx) as (b' & -> & ->).
    destruct (strtol_int_nul W b' []) as (n & b2 & u2 & -> & ->). cbn [bind].
    eexists _, b2, (u ++ 32 :: u2). split; [reflexivity|]. rewrite <- app_assoc. reflexivity.
  - eexists _, b, u. split; reflexivity.
Qed.
Lemma items_stdin_any W time clock : forall lines i sec nsec, exists r, items_stdin W time clock i sec nsec lines = Ok r.
Proof.
  induction lines as [|l lines IH]; intros i sec nsec; cbn [items_stdin]; [eauto|].
  destruct (if time then None else clock i) as [[s n]|].
  - destruct (IH (S i) (s32 s) (s32 n)) as [r ->]. cbn [bind]. eauto.
  - destruct (parse_time_any W l) as (t & b & u & -> & _). cbn [bind].
    destruct (match t with Some p => p | None => (sec, nsec) end) as [s n].
    destruct (IH (S i) s n) as [r ->]. cbn [bind]. eauto.
Qed.
Lemma items_args_any W time clock : forall fuel args i sec nsec, (length args <= fuel)%nat ->
  exists r, items_args fuel W time clock i sec nsec args = Ok r.
Proof.
  induction fuel as [|fuel IH]; intros args i sec nsec Hl; (destruct args as [|a rest]; [cbn; eauto|]); [cbn in Hl; lia|].
  cbn [length] in Hl. cbn [items_args]. destruct (if time then None else clock i) as [[s n]|].
  - destruct (IH rest (S i) (s32 s) (s32 n)) as [r ->]; [lia|]. cbn [bind]. eauto.
  - destruct rest as [|b rest']; [eauto|]. destruct (parse_int32_any W a) as [p ->]. cbn [bind]. cbn [length] in Hl.
    destruct p as [s|].
    + destruct rest' as [|d rest'']; [eauto|]. destruct (parse_int32_any W b) as [q ->]. cbn [bind]. cbn [length] in Hl.
      destruct q as [n|].
      * destruct (IH rest'' (S i) s n) as [r ->]; [lia|]. cbn [bind]. eauto.
      * destruct (IH (d :: rest'') (S i) s nsec) as [r ->]; [cbn; lia|]. cbn [bind]. eauto.
    + destruct (IH (b :: rest') (S i) sec nsec) as [r ->]; [cbn; lia|]. cbn [bind]. eauto.
Qed.
Definition items_of W time clock (args : list (list Z)) input :=
  match args with
  | [] => let* l := read_lines (length input) input in items_stdin W time clock O 0 0 l
  | _ => items_args (length args) W time clock O 0 0 args
  end.
Lemma items_of_any W time clock args input : exists r, items_of W time clock args input = Ok r.
Proof.
  unfold items_of. destruct args.
  - destruct (read_lines_spec (length input) input) as (l & -> & _); [lia|]. cbn [bind]. apply items_stdin_any.
  - apply items_args_any. lia.
Qed.

(** ** Logging *)
Lemma last_znth (m : list Z) : m <> [] -> znth (zlen m - 1) m = last m 0.
Proof.
  intros H. destruct (exists_last H) as (a & x & ->). rewrite last_last, zlen_app. change (zlen [x]) with 1.
  rewrite znth_app by (pose proof (zlen_nonneg a); lia). replace (zlen a + 1 - 1) with (zlen a) by lia.
  destruct (Z.ltb_spec (zlen a) (zlen a)); [lia|]. rewrite Z.sub_diag. reflexivity.
Qed.
Lemma err_text_copy c m : 0 <= u_prio c <= 7 -> err_text c m = Ok (copy (u_prio c) (u_tag c) m).
Proof.
  intros H. unfold err_text. assert (E : load prios (u_prio c) = Ok (letter (u_prio c))).
  { assert (G : u_prio c = 0 \/ u_prio c = 1 \/ u_prio c = 2 \/ u_prio c = 3 \/ u_prio c = 4 \/ u_prio c = 5 \/ u_prio c = 6 \/ u_prio c = 7) by lia.
    repeat (destruct G as [G|G]; [rewrite G; reflexivity|]). rewrite G. reflexivity. }
  rewrite E. cbn [bind]. unfold copy, chomp. cbn [app]. do 4 f_equal. cbn [app]. do 2 f_equal.
  destruct m as [|x m]; [reflexivity|]. rewrite last_znth by discriminate.
  destruct (Z.eqb_spec (last (x :: m) 0) 10) as [E1|]; [|reflexivity].
  rewrite app_nil_r. rewrite <- E1. apply app_removelast_last. discriminate.
Qed.
(** What one message gives. *)
Definition one (fd : Z) (c : settings) (it : item) : event :=
  if fd >=? 0 then
    Write [le 4 (u_pid c) ++ le 4 (u_pid c) ++ le 4 (i_sec it) ++ le 4 (i_nsec it) ++ le 4 0; u_name c ++ [0];
           le 4 (u_prio c); u_tag c ++ [0]; i_msg it ++ [0]]
  else Str (u_prio c) (bytes_of_string "ulogger") (i_msg it).
Lemma one_logs fd c it : logs (one fd c it) (i_msg it).
Proof.
  unfold one. destruct (fd >=? 0); [left|right; eauto].
  exists (u_pid c), (i_sec it), (i_nsec it), (u_prio c), (u_name c), (u_tag c). eexists. split; [reflexivity|].
  unfold entry. cbn [concat]. rewrite <- !app_assoc. reflexivity.
Qed.
Lemma log_one fd ret c it : 0 <= u_prio c <= 7 ->
  (exists r, ulogger_log fd ret c it = Ok ([Exit r], false) /\ 0 <= fd /\ u_pid c = -1) \/
  (exists r, ulogger_log fd ret c it = Ok ([one fd c it; Exit r], false) /\ 0 <= fd /\ ret < 0) \/
  (ulogger_log fd ret c it = Ok (one fd c it :: (if u_err c then [Err (copy (u_prio c) (u_tag c) (i_msg it))] else []), true) /\
   (0 <= fd -> 0 <= ret)).
Proof.
  intros Hp. unfold ulogger_log, one. destruct (Z.geb_spec fd 0) as [Hf|Hf].
  - cbn [ulog_raw_log ulog_raw_logv rw_message rw_pid rw_tid rw_sec rw_nsec rw_euid rw_prio rw_pname rw_tname rw_tag].
    destruct (Z.ltb_spec fd 0); [lia|]. cbn [orb]. rewrite Z.eqb_refl.
    destruct (Z.eqb_spec (u_pid c) (-1)) as [Hpid|Hpid]; cbn [andb].
    { left. eexists. repeat split; auto. }
    unfold raw_result. destruct (Z.ltb_spec ret 0) as [Hr|Hr].
    + destruct (Z.ltb_spec ret 0); [|lia]. right; left. eexists. repeat split; auto.
    + change (0 <? 0) with false. cbv iota. right; right. split; [|auto].
      destruct (u_err c); [rewrite err_text_copy by exact Hp|]; reflexivity.
  - change (0 <? 0) with false. cbv iota. right; right. split; [|lia].
    destruct (u_err c); [rewrite err_text_copy by exact Hp|]; reflexivity.
Qed.
Lemma log_all_good fd c : 0 <= u_prio c <= 7 -> (0 <= fd -> u_pid c <> -1) -> forall items res i, (0 <= fd -> forall j, 0 <= res j) ->
  log_all fd res i c items = Ok (flat_map (fun it => one fd c it :: (if u_err c then [Err (copy (u_prio c) (u_tag c) (i_msg it))] else [])) items ++ [Exit 0]).
Proof.
  intros Hp Hpid items res i Hr. revert i. induction items as [|it items IH]; intros i; cbn [log_all flat_map]; [reflexivity|].
  destruct (log_one fd (res i) c it Hp) as [(r & _ & ? & ?)|[(r & _ & ? & ?)|(-> & _)]].
  - exfalso. now apply Hpid.
  - specialize (Hr H i). lia.
  - cbn [bind]. rewrite IH. cbn [bind]. now rewrite app_assoc.
Qed.
Lemma main_eq W fd pid name opts args input clock res c :
  set_opts W (defaults pid name) opts = Ok c ->
  main W fd pid name opts args input clock res = let* items := items_of W (u_time c) clock args input in log_all fd res O c items.
Proof. intros E. unfold main. rewrite E. reflexivity. Qed.

Lemma flat_map_flat_map A B C (f : A -> list B) (g : B -> list C) l : flat_map g (flat_map f l) = flat_map (fun x => flat_map g (f x)) l.
Proof. induction l as [|x l IH]; cbn [flat_map]; [reflexivity|]. now rewrite flat_map_app, IH. Qed.
Lemma flat_map_single A B (f : A -> B) l : flat_map (fun x => [f x]) l = map f l.
Proof. induction l as [|x l IH]; cbn; [reflexivity|now rewrite IH]. Qed.
Lemma flat_map_ext' A B (f g : A -> list B) : (forall x, f x = g x) -> forall l, flat_map f l = flat_map g l.
Proof. intros E. induction l as [|x l IH]; cbn; [reflexivity|now rewrite IH, E]. Qed.

Definition triple (it : item) : Z * Z * list Z := (i_sec it, i_nsec it, i_msg it).
(** A whole run with the device open and accepting. *)
Lemma run_good W fd pid name opts args input clock res items : 32 <= W -> 0 <= fd -> pid <> -1 -> Forall good_opt opts ->
  (forall j, 0 <= res j) -> items_of W (last_of time_opt false opts) clock args input = Ok items ->
  exists evs, main W fd pid name opts args input clock res = Ok (evs ++ [Exit 0]) /\
    entries evs = entries_for pid name opts (map triple items).
Proof.
  intros HW Hf Hpid Ho Hr Hi. destruct (set_opts_any W opts (defaults pid name)) as (p & E & Hp). specialize (Hp HW Ho). subst p.
  rewrite (main_eq _ _ _ _ _ _ _ _ _ _ E). cbn [u_time]. change (u_time (defaults pid name)) with false.
  rewrite Hi. cbn [bind]. rewrite log_all_good; [|apply prio_range| |auto].
  - eexists. split; [reflexivity|]. unfold entries. rewrite flat_map_flat_map. cbn [u_err u_prio u_tag u_pid u_name].
    unfold entries_for. rewrite map_map. rewrite <- flat_map_single. apply flat_map_ext'. intros it.
    unfold one. destruct (Z.geb_spec fd 0); [|lia]. cbn [flat_map app u_pid u_name u_prio u_tag].
    replace (flat_map _ (if last_of err_opt _ opts then _ else _)) with (@nil (list Z)) by (now destruct (last_of err_opt _ opts)).
    unfold entry, triple. cbn [concat app]. rewrite <- !app_assoc. reflexivity.
  - intros _. cbn [u_pid]. change (u_pid (defaults pid name)) with pid. clear - Ho Hpid. revert pid Hpid.
    induction Ho as [|o opts Hg Ho IH]; intros pid Hpid; [exact Hpid|]. rewrite last_of_cons. apply IH.
    destruct o; cbn; try exact Hpid. destruct Hg as [Hw|(v & -> & _ & Hv)]; [rewrite wrong_number by exact Hw; exact Hpid|exact Hv].
Qed.

(** ** C74: the standard input *)
Definition read_clock (clock : nat -> Z * Z) : nat -> option (Z * Z) := fun i => Some (clock i).

Lemma items_stdin_clock W clock : (forall j, int32 (fst (clock j)) /\ int32 (snd (clock j))) -> forall lines i sec nsec,
  Forall (fun l => ~ In 0 l) lines ->
  exists items, items_stdin W false (read_clock clock) i sec nsec lines = Ok items /\
    map triple items = map (fun p => (clock (fst p), snd p)) (combine (seq i (length lines)) lines).
Proof.
  intros Hc. induction lines as [|l lines IH]; intros i sec nsec F; cbn [items_stdin]; [exists []; split; reflexivity|].
  inversion F as [|? ? Hl F']; subst. unfold read_clock at 1. destruct (clock i) as [s n] eqn:E.
  destruct (Hc i) as [H1 H2]. rewrite E in H1, H2. cbn [fst snd] in H1, H2.
  destruct (IH (S i) (s32 s) (s32 n) F') as (items & -> & Em). cbn [bind]. eexists. split; [reflexivity|].
  cbn [map length seq combine fst snd]. rewrite Em, E. unfold triple at 1. cbn [i_sec i_nsec i_msg].
  rewrite !s32_id, cstr_id by assumption. reflexivity.
Qed.
Lemma items_args_clock W clock : (forall j, int32 (fst (clock j)) /\ int32 (snd (clock j))) -> forall fuel args i sec nsec,
  (length args <= fuel)%nat ->
  exists items, items_args fuel W false (read_clock clock) i sec nsec args = Ok items /\
    map triple items = map (fun p => (clock (fst p), snd p)) (combine (seq i (length args)) args).
Proof.
  intros Hc. induction fuel as [|fuel IH]; intros args i sec nsec Hl; (destruct args as [|a args]; [exists []; split; reflexivity|]); [cbn in Hl; lia|].
  cbn [items_args]. unfold read_clock at 1. destruct (clock i) as [s n] eqn:E.
  destruct (Hc i) as [H1 H2]. rewrite E in H1, H2. cbn [fst snd] in H1, H2.
  destruct (IH args (S i) (s32 s) (s32 n)) as (items & -> & Em); [cbn in Hl; lia|]. cbn [bind]. eexists. split; [reflexivity|].
  cbn [map length seq combine fst snd]. rewrite Em, E. unfold triple at 1. cbn [i_sec i_nsec i_msg].
  rewrite !s32_id by assumption. reflexivity.
Qed.
Lemma in_concat_nul (ls : list (list Z)) : ~ In 0 (concat ls) -> Forall (fun l => ~ In 0 l) ls.
Proof.
  induction ls as [|l ls IH]; cbn [concat]; intros H; constructor; [|apply IH]; intros Hi; apply H, in_or_app; auto.
Qed.

(** Standard input without NUL bytes and without --time: it is cut in messages at the ends of lines, and
    after 255 bytes in longer lines, and every message is logged, in order, with the time of the clock.
    Missing: NUL bytes (refuted below), --time (C76). *)
Theorem C74_stdin_partial : forall W fd pid name opts input clock res,
  32 <= W -> 0 <= fd -> pid <> -1 -> Forall good_opt opts -> ~ In OTime opts -> (forall j, 0 <= res j) ->
  (forall j, int32 (fst (clock j)) /\ int32 (snd (clock j))) -> ~ In 0 input ->
  exists ms evs, cut input ms /\
    main W fd pid name opts [] input (read_clock clock) res = Ok (evs ++ [Exit 0]) /\
    entries evs = entries_for pid name opts (dated clock ms).
Proof.
  intros W fd pid name opts input clock res HW Hf Hpid Ho Ht Hr Hc Hn.
  destruct (read_lines_spec (length input) input) as (ms & El & Hcut); [lia|].
  destruct (items_stdin_clock W clock Hc ms O 0 0) as (items & Ei & Em).
  { apply in_concat_nul. destruct Hcut as [-> _]. exact Hn. }
  assert (Hnt : last_of time_opt false opts = false).
  { clear - Ht. induction opts as [|o opts IH]; [reflexivity|]. rewrite last_of_cons.
    destruct o; cbn; try (apply IH; intros ?; apply Ht; now right). destruct Ht. now left. }
  destruct (run_good W fd pid name opts [] input (read_clock clock) res items) as (evs & E1 & E2); auto.
  { rewrite Hnt. unfold items_of. rewrite El. exact Ei. }
  exists ms, evs. split; [exact Hcut|]. split; [exact E1|]. rewrite E2, Em. reflexivity.
Qed.
Example C74_stdin_partial_ex : exists ms evs, cut (bytes_of_string "one
two") ms /\ main 64 3 7 (bytes_of_string "u") [OTag (bytes_of_string "t"); OPrio (bytes_of_string "W")] [] (bytes_of_string "one
two") (read_clock (fun i => (Z.of_nat i, 5))) (fun _ => 30) = Ok (evs ++ [Exit 0]) /\
  entries evs = [entry 7 0 5 4 (bytes_of_string "u") (bytes_of_string "t") (bytes_of_string "one
"); entry 7 1 5 4 (bytes_of_string "u") (bytes_of_string "t") (bytes_of_string "two")].
Proof.
  exists [bytes_of_string "one
"; bytes_of_string "two"]. eexists [_; _]. split; [|split; [vm_compute; reflexivity|vm_compute; reflexivity]].
  split; [reflexivity|]. split; (repeat apply Forall_cons); try apply Forall_nil;
    [split; [discriminate|split; [cbn; lia|cbn; lia]]..|right; reflexivity].
Qed.

(** A NUL byte: the rest of its line is lost. *)
Theorem C74_stdin_refuted : exists input evs, zlen input = 4 /\
  main 64 3 7 [117] [] [] input (read_clock (fun _ => (1, 2))) (fun _ => 30) = Ok (evs ++ [Exit 0]) /\
  entries evs = [entry 7 1 2 6 [117] (bytes_of_string "ulogger") [97]] /\ In 98 input /\
  forall ms, entries evs = entries_for 7 [117] [] (dated (fun _ => (1, 2)) ms) -> concat ms <> input.
Proof.
  exists [97; 0; 98; 10]. eexists [_]. split; [reflexivity|]. split; [vm_compute; reflexivity|]. split; [vm_compute; reflexivity|]. split; [cbn; auto|].
  intros ms E Hc. pose proof (f_equal (@length (list Z)) E) as El. unfold entries_for, dated in El.
  rewrite !map_length, combine_length, seq_length, Nat.min_id in El. cbn in El.
  destruct ms as [|m [|? ?]]; cbn in El; try lia. cbn [concat] in Hc. rewrite app_nil_r in Hc. subst m.
  apply (f_equal (fun l => map (@length Z) l)) in E. vm_compute in E. discriminate.
Qed.

(** ** C75: the arguments *)
(** Without --time every argument is logged, unchanged and in order, with the time of the clock. *)
Theorem C75_args : forall W fd pid name opts args input clock res,
  32 <= W -> 0 <= fd -> pid <> -1 -> Forall good_opt opts -> ~ In OTime opts -> (forall j, 0 <= res j) ->
  (forall j, int32 (fst (clock j)) /\ int32 (snd (clock j))) -> args <> [] ->
  exists evs, main W fd pid name opts args input (read_clock clock) res = Ok (evs ++ [Exit 0]) /\
    entries evs = entries_for pid name opts (dated clock args).
Proof.
  intros W fd pid name opts args input clock res HW Hf Hpid Ho Ht Hr Hc Hn.
  destruct (items_args_clock W clock Hc (length args) args O 0 0) as (items & Ei & Em); [lia|].
  assert (Hnt : last_of time_opt false opts = false).
  { clear - Ht. induction opts as [|o opts IH]; [reflexivity|]. rewrite last_of_cons.
    destruct o; cbn; try (apply IH; intros ?; apply Ht; now right). destruct Ht. now left. }
  destruct (run_good W fd pid name opts args input (read_clock clock) res items) as (evs & E1 & E2); auto.
  { rewrite Hnt. unfold items_of. destruct args; [congruence|]. exact Ei. }
  exists evs. split; [exact E1|]. rewrite E2, Em. reflexivity.
Qed.
Example C75_args_ex : exists evs,
  main 32 3 7 [117] [OName [110]; OPid (bytes_of_string "-42"); OPid (bytes_of_string "7up"); OPid []] [[49; 50]; []; [10]] [65] (read_clock (fun i => (Z.of_nat i, 5))) (fun _ => 30) = Ok (evs ++ [Exit 0]) /\
  entries evs = [entry (-42) 0 5 6 [110] (bytes_of_string "ulogger") [49; 50]; entry (-42) 1 5 6 [110] (bytes_of_string "ulogger") [];
                 entry (-42) 2 5 6 [110] (bytes_of_string "ulogger") [10]].
Proof. eexists [_; _; _]. split; vm_compute; reflexivity. Qed.

(** ** C76: times given with the messages *)
Lemma space_skip_app n r : hd 0 r <> 32 -> space_skip (repeat 32 n ++ r) = r.
Proof. intros H. induction n as [|n IH]; cbn; [|exact IH]. destruct r as [|c r]; [reflexivity|]. cbn in *. destruct (Z.eqb_spec c 32); [lia|reflexivity]. Qed.
Lemma digit_hd ds : digits ds -> exists c r, ds = c :: r /\ 48 <= c <= 57.
Proof. intros [H F]. destruct ds as [|c r]; [congruence|]. inversion F; subst. eauto. Qed.

Lemma parse_time_stamp W s : 32 <= W -> stamp_ok s -> exists b,
  parse_time W (stamp_line s ++ [0]) = Ok (Some (fst (stamp_item s)), b) /\ cstr (space_skip b) = s_text s ++ [10].
Proof.
  intros HW (Hd & Hv & Hlf & H0 & _ & Hs). destruct s as [sd nd sp text]; cbn [s_sec s_nsec s_sp s_text] in *.
  destruct (digit_hd _ Hd) as (c & r & Ec & Hc). unfold parse_time, stamp_line, stamp_item. cbn [s_sec s_nsec s_sp s_text fst].
  rewrite <- !app_assoc.
  match goal with |- context [ch ?l] => replace (ch l) with (Ok c) by (subst sd; reflexivity) end. cbn [bind].
  destruct (Z.eqb_spec c 0); [lia|]. destruct (Z.eqb_spec c 32); [lia|]. cbn [orb].
  cbn [app]. rewrite (strtol_int_digits W sd 32) by auto. cbn [bind ch tl app]. change (32 =? 32) with true. cbv iota.
  assert (Hcs : cstr (text ++ [10; 0]) = text ++ [10]).
  { change [10; 0] with ([10] ++ [0]). rewrite app_assoc. apply cstr_app_nul. intros Hi. apply in_app_or in Hi. destruct Hi as [Hi|[Hi|[]]]; [auto|lia]. }
  destruct nd as [nn|].
  - destruct Hs as (Hn & Hnv & Hh). rewrite <- !app_assoc. cbn [app]. rewrite strtol_int_digits by auto. cbn [bind].
    match goal with |- context [zlen ?a =? zlen ?b] => destruct (Z.eqb_spec (zlen a) (zlen b)) as [E|_] end.
    { exfalso. rewrite zlen_app in E. destruct (digit_hd _ Hn) as (c2 & r2 & -> & _). rewrite (zlen_cons c2 r2) in E. pose proof (zlen_nonneg r2). lia. }
    eexists. split; [reflexivity|]. cbn [space_skip]. change (32 =? 32) with true. cbv iota.
    rewrite space_skip_app by (destruct text; cbn in *; lia). exact Hcs.
  - cbn [app]. unfold strtol_int. destruct text as [|x t]; [cbn in Hs; lia|]. cbn [hd app] in *.
    rewrite strto_none; [|lia|lia|unfold isspace; lia|unfold isdigit; lia|apply Forall_forall; intros y Hy; now apply repeat_spec in Hy].
    cbn [bind]. rewrite Z.eqb_refl. eexists. split; [reflexivity|].
    rewrite space_skip_app by (cbn; lia). exact Hcs.
Qed.

Lemma items_stdin_stamps W clock : 32 <= W -> forall ss i sec nsec, Forall stamp_ok ss ->
  exists items, items_stdin W true clock i sec nsec (map stamp_line ss) = Ok items /\ map triple items = map stamp_item ss.
Proof.
  intros HW. induction ss as [|s ss IH]; intros i sec nsec F; cbn [map items_stdin]; [exists []; split; reflexivity|].
  inversion F as [|? ? Hs F']; subst. destruct (parse_time_stamp W s HW Hs) as (b & -> & Eb). cbn [bind].
  destruct (stamp_item s) as [[a n] m] eqn:Es. cbn [fst].
  destruct (IH (S i) a n F') as (items & -> & Em). cbn [bind]. eexists. split; [reflexivity|].
  cbn [map]. rewrite Em, Eb. unfold triple. cbn [i_sec i_nsec i_msg]. unfold stamp_item in Es. congruence.
Qed.

Definition stamp_args (t : list Z * list Z * list Z) : list (list Z) := let '(a, b, m) := t in [a; b; m].
Lemma items_args_stamps W clock : 32 <= W -> forall ts fuel i sec nsec, (length (flat_map stamp_args ts) <= fuel)%nat ->
  Forall (fun '(a, b, m) => digits a /\ dec_val a < 2 ^ 31 /\ digits b /\ dec_val b < 2 ^ 31) ts ->
  exists items, items_args fuel W true clock i sec nsec (flat_map stamp_args ts) = Ok items /\
    map triple items = map (fun '(a, b, m) => (dec_val a, dec_val b, m)) ts.
Proof.
  intros HW. induction ts as [|[[a b] m] ts IH]; intros fuel i sec nsec Hl F.
  { exists []. destruct fuel; split; reflexivity. }
  cbn [flat_map stamp_args app length] in *. destruct fuel as [|fuel]; [lia|].
  pose proof (Forall_inv_tail F) as F'. apply Forall_inv in F. cbv beta iota in F. destruct F as (Ha & Hva & Hb & Hvb).
  cbn [items_args]. rewrite !parse_int32_digits by auto. cbn [bind].
  destruct (IH fuel (S i) (dec_val a) (dec_val b)) as (items & -> & Em); [lia|exact F'|]. cbn [bind].
  eexists. split; [reflexivity|]. cbn [map]. now rewrite Em.
Qed.

(** With --time, lines that start with a time, or arguments preceded by theirs, are logged with that time
    and without it. Missing: messages without a time, refuted below. *)
Theorem C76_times_partial : forall W fd pid name opts clock res,
  32 <= W -> 0 <= fd -> pid <> -1 -> Forall good_opt opts -> In OTime opts -> (forall j, 0 <= res j) ->
  (forall ss, Forall stamp_ok ss ->
    exists evs, main W fd pid name opts [] (concat (map stamp_line ss)) clock res = Ok (evs ++ [Exit 0]) /\
      entries evs = entries_for pid name opts (map stamp_item ss)) /\
  (forall ts input, ts <> [] -> Forall (fun '(a, b, m) => digits a /\ dec_val a < 2 ^ 31 /\ digits b /\ dec_val b < 2 ^ 31) ts ->
    exists evs, main W fd pid name opts (flat_map (fun '(a, b, m) => [a; b; m]) ts) input clock res = Ok (evs ++ [Exit 0]) /\
      entries evs = entries_for pid name opts (map (fun '(a, b, m) => (dec_val a, dec_val b, m)) ts)).
Proof.
  intros W fd pid name opts clock res HW Hf Hpid Ho Ht Hr.
  assert (Hnt : last_of time_opt false opts = true).
  { clear - Ht. assert (G : forall d, d = true \/ In OTime opts -> last_of time_opt d opts = true).
    { clear. induction opts as [|o opts IH]; intros d H; [destruct H as [H|[]]; exact H|]. rewrite last_of_cons. apply IH.
      destruct H as [->|[->|H]]; [left; now destruct o|now left|now right]. }
    apply G. now right. }
  split.
  - intros ss F. assert (E : map stamp_line ss = map (fun a => a ++ [10]) (map (fun s => removelast (stamp_line s)) ss)).
    { rewrite map_map. apply map_ext. intros s. unfold stamp_line. rewrite !app_assoc, removelast_last. reflexivity. }
    destruct (items_stdin_stamps W clock HW ss O 0 0 F) as (items & Ei & Em).
    destruct (run_good W fd pid name opts [] (concat (map stamp_line ss)) clock res items) as (evs & E1 & E2); auto.
    { rewrite Hnt. unfold items_of. rewrite E. rewrite read_lines_lines; [rewrite <- E; exact Ei|lia|].
      apply Forall_forall. intros x Hx. apply in_map_iff in Hx. destruct Hx as (s & <- & Hs).
      rewrite Forall_forall in F. destruct (F s Hs) as ([_ Hd] & _ & Hlf & _ & Hl & Hn). unfold stamp_line in *.
      rewrite !app_assoc in *. rewrite removelast_last. rewrite zlen_app in Hl. change (zlen [10]) with 1 in Hl. split; [lia|].
      rewrite <- !app_assoc.
      assert (G : forall ds, Forall (fun c => 48 <= c <= 57) ds -> ~ In 10 ds) by (intros ds FD Hi; rewrite Forall_forall in FD; specialize (FD _ Hi); lia).
      intros Hi. apply in_app_or in Hi. destruct Hi as [Hi|Hi]; [now apply G in Hi|]. cbn [app In] in Hi. destruct Hi as [Hi|Hi]; [lia|].
      apply in_app_or in Hi. destruct Hi as [Hi|Hi].
      - destruct (s_nsec s) as [n|]; [|destruct Hi]. destruct Hn as ([_ Hn] & _). apply in_app_or in Hi.
        destruct Hi as [Hi|[Hi|[]]]; [now apply G in Hi|lia].
      - apply in_app_or in Hi. destruct Hi as [Hi|Hi]; [apply repeat_spec in Hi; lia|auto]. }
    exists evs. split; [exact E1|]. rewrite E2, Em. reflexivity.
  - intros ts input Hne F. change (flat_map (fun '(a, b, m) => [a; b; m]) ts) with (flat_map stamp_args ts).
    destruct (items_args_stamps W clock HW ts (length (flat_map stamp_args ts)) O 0 0) as (items & Ei & Em); [lia|exact F|].
    destruct (run_good W fd pid name opts (flat_map stamp_args ts) input clock res items) as (evs & E1 & E2); auto.
    { rewrite Hnt. unfold items_of. destruct ts as [|[[a b] m] ts]; [congruence|]. exact Ei. }
    exists evs. split; [exact E1|]. rewrite E2, Em. reflexivity.
Qed.
Example C76_times_partial_ex :
  Forall stamp_ok [mkStamp [49; 50] (Some [51]) 2 (bytes_of_string "5 apples"); mkStamp [52] None 0 [120]] /\
  exists evs, main 64 3 7 [117] [OTime] [] (bytes_of_string "12 3   5 apples
4 x
") (fun _ => None) (fun _ => 0) = Ok (evs ++ [Exit 0]) /\
    entries evs = [entry 7 12 3 6 [117] (bytes_of_string "ulogger") (bytes_of_string "5 apples
"); entry 7 4 0 6 [117] (bytes_of_string "ulogger") [120; 10]].
Proof.
  split; [|eexists [_; _]; split; vm_compute; reflexivity].
  repeat constructor; try discriminate; try (cbn; lia); try (unfold zlen; cbn; lia); cbn; intuition lia.
Qed.

(** A message not preceded by a time loses its first digits, or its first spaces, and carries the time of
    the message before it. *)
Theorem C76_line_refuted : exists input evs,
  input = bytes_of_string "5 7 first
404not found
   indented
" /\ main 64 3 7 [117] [OTime] [] input (fun _ => None) (fun _ => 0) = Ok (evs ++ [Exit 0]) /\
  entries evs = entries_for 7 [117] [OTime] [(5, 7, bytes_of_string "first
"); (5, 7, bytes_of_string "not found
"); (5, 7, bytes_of_string "indented
")].
Proof. eexists _, [_; _; _]. split; [reflexivity|]. split; vm_compute; reflexivity. Qed.
(** Arguments "1 2 a 3 b": the second message is given at 3 seconds and logged at 3 seconds 2. *)
Theorem C76_args_refuted : exists evs,
  main 64 3 7 [117] [OTime] [[49]; [50]; [97]; [51]; [98]] [] (fun _ => None) (fun _ => 0) = Ok (evs ++ [Exit 0]) /\
  entries evs = entries_for 7 [117] [OTime] [(1, 2, [97]); (3, 2, [98])].
Proof. eexists [_; _]. split; vm_compute; reflexivity. Qed.

(** ** C77: the copy on stderr *)
(** With --stderr every message logged is followed by its copy, which names the level and the tag and has
    exactly one end of line added or kept at its end; without it nothing is copied. *)
Theorem C77_copy : forall W fd pid name opts args input clock res evs,
  main W fd pid name opts args input clock res = Ok evs ->
  (In OStderr opts -> copied (last_of prio_opt 6 opts) (last_of tag_opt (bytes_of_string "ulogger") opts) evs) /\
  (~ In OStderr opts -> forall t, ~ In (Err t) evs).
Proof.
  intros W fd pid name opts args input clock res evs E.
  destruct (set_opts_any W opts (defaults pid name)) as (p & Es & _). rewrite (main_eq _ _ _ _ _ _ _ _ _ _ Es) in E.
  match type of Es with _ = Ok ?c0 => set (c := c0) in * end. clear Es.
  destruct (items_of_any W (u_time c) clock args input) as [items Ei]. rewrite Ei in E. cbn [bind] in E. clear Ei.
  assert (Hp : 0 <= u_prio c <= 7) by apply prio_range.
  assert (G : forall d, last_of err_opt d opts = true <-> d = true \/ In OStderr opts).
  { clear. induction opts as [|o opts IH]; intros d; [cbn; intuition|]. rewrite last_of_cons. rewrite IH.
    destruct o; cbn [err_opt In]; intuition (try discriminate). }
  assert (Herr : u_err c = true <-> In OStderr opts) by (cbn [u_err c]; rewrite G; change (u_err (defaults pid name)) with false; intuition discriminate).
  change (last_of prio_opt 6 opts) with (u_prio c).
  change (last_of tag_opt (bytes_of_string "ulogger") opts) with (u_tag c). clearbody c. clear G.
  split.
  - intros Hi. apply Herr in Hi. revert E. generalize O. revert evs.
    induction items as [|it items IH]; intros evs i E; cbn [log_all] in E.
    { assert (evs = [Exit 0]) as -> by congruence. constructor. }
    destruct (log_one fd (res i) c it Hp) as [(r & F & _)|[(r & F & _)|(F & _)]]; rewrite F in E; cbn [bind] in E.
    + assert (evs = [Exit r]) as -> by congruence. constructor.
    + assert (evs = [one fd c it; Exit r]) as -> by congruence. econstructor. apply one_logs.
    + destruct (log_all fd res (S i) c items) as [r|] eqn:El; [|discriminate]. cbn [bind] in E. rewrite Hi in E.
      assert (evs = one fd c it :: Err (copy (u_prio c) (u_tag c) (i_msg it)) :: r) as -> by (cbn [app] in E; congruence).
      constructor; [apply one_logs|]. now apply (IH _ (S i)).
  - intros Hn t. assert (He : u_err c = false) by (destruct (u_err c); [exfalso; apply Hn, Herr; reflexivity|reflexivity]).
    assert (Ho : forall it, one fd c it <> Err t) by (intros it; unfold one; destruct (fd >=? 0); discriminate).
    revert E. generalize O. revert evs.
    induction items as [|it items IH]; intros evs i E; cbn [log_all] in E.
    { assert (evs = [Exit 0]) as -> by congruence. intros [?|[]]; discriminate. }
    destruct (log_one fd (res i) c it Hp) as [(r & F & _)|[(r & F & _)|(F & _)]]; rewrite F in E; cbn [bind] in E.
    + assert (evs = [Exit r]) as -> by congruence. intros [?|[]]; discriminate.
    + assert (evs = [one fd c it; Exit r]) as -> by congruence. intros [?|[?|[]]]; [now apply (Ho it)|discriminate].
    + destruct (log_all fd res (S i) c items) as [r|] eqn:El; [|discriminate]. cbn [bind] in E. rewrite He in E.
      assert (evs = one fd c it :: r) as -> by (cbn [app] in E; congruence).
      intros [?|?]; [now apply (Ho it)|]. now apply (IH _ (S i) El).
Qed.
Example C77_copy_ex : exists evs,
  main 64 (-2) 7 [117] [OStderr; OPrio [69]; OTag [116]] [[97]; [98; 10]; []] [] (fun _ => None) (fun _ => 0) = Ok evs /\
  evs = [Str 3 (bytes_of_string "ulogger") [97]; Err (bytes_of_string "E t: a
"); Str 3 (bytes_of_string "ulogger") [98; 10]; Err (bytes_of_string "E t: b
"); Str 3 (bytes_of_string "ulogger") []; Err (bytes_of_string "E t: 
"); Exit 0].
Proof. eexists. split; [vm_compute; reflexivity|reflexivity]. Qed.

(** ** C78: the tag *)
(** Without a device the messages go through the library: their text and level are kept. With a device
    the tag is that of the options (C74, C75, C76). Missing: the tag, refuted below. *)
Theorem C78_fallback_partial : forall W fd pid name opts args input clock res,
  32 <= W -> fd < 0 -> ~ In OTime opts -> (forall j, int32 (fst (clock j)) /\ int32 (snd (clock j))) -> args <> [] ->
  exists evs, main W fd pid name opts args input (read_clock clock) res = Ok (evs ++ [Exit 0]) /\ entries evs = [] /\
    strs evs = map (fun a => (last_of prio_opt 6 opts, bytes_of_string "ulogger", a)) args.
Proof.
  intros W fd pid name opts args input clock res HW Hf Ht Hc Hn.
  destruct (set_opts_any W opts (defaults pid name)) as (p & Es & _). rewrite (main_eq _ _ _ _ _ _ _ _ _ _ Es). cbn [u_time].
  assert (Hnt : last_of time_opt (u_time (defaults pid name)) opts = false).
  { clear - Ht. change (u_time (defaults pid name)) with false. induction opts as [|o opts IH]; [reflexivity|]. rewrite last_of_cons.
    destruct o; cbn; try (apply IH; intros ?; apply Ht; now right). destruct Ht. now left. }
  rewrite Hnt. destruct (items_args_clock W clock Hc (length args) args O 0 0) as (items & Ei & Em); [lia|].
  assert (Ei' : items_of W false (read_clock clock) args input = Ok items) by (unfold items_of; destruct args; [congruence|exact Ei]).
  rewrite Ei'. cbn [bind]. rewrite log_all_good; [|apply prio_range|lia|lia]. eexists. split; [reflexivity|].
  assert (Ea : map i_msg items = args).
  { apply (f_equal (map snd)) in Em. rewrite !map_map in Em. cbn in Em. etransitivity; [exact Em|]. clear. generalize O.
    induction args as [|a args IH]; intros i; [reflexivity|]. cbn. now rewrite IH. }
  unfold entries, strs. rewrite !flat_map_flat_map. split.
  - assert (G : forall A B (l : list A), flat_map (fun _ => @nil B) l = []) by (induction l; cbn; auto).
    etransitivity; [|exact (G _ _ items)]. apply flat_map_ext'. intros it. unfold one. cbn [u_err].
    destruct (fd >=? 0) eqn:E; [lia|]. cbn. now destruct (last_of err_opt _ opts).
  - rewrite <- Ea, map_map. rewrite <- flat_map_single. apply flat_map_ext'. intros it. unfold one. cbn [u_err u_prio u_tag].
    destruct (fd >=? 0) eqn:E; [lia|]. cbn [flat_map app]. now destruct (last_of err_opt _ opts).
Qed.
Example C78_fallback_partial_ex : exists evs,
  main 64 (-2) 7 [117] [OPrio [69]] [[97]] [] (read_clock (fun _ => (1, 2))) (fun _ => 0) = Ok (evs ++ [Exit 0]) /\
  strs evs = [(3, bytes_of_string "ulogger", [97])].
Proof. eexists [_]. split; vm_compute; reflexivity. Qed.
(** The tag asked for is not the tag of the message. *)
Theorem C78_tag_refuted : exists evs t,
  main 64 (-2) 7 [117] [OTag (bytes_of_string "mytag")] [[97]] [] (read_clock (fun _ => (1, 2))) (fun _ => 0) = Ok (evs ++ [Exit 0]) /\
  strs evs = [(6, t, [97])] /\ t <> last_of tag_opt (bytes_of_string "ulogger") [OTag (bytes_of_string "mytag")].
Proof. eexists [_], _. split; [vm_compute; reflexivity|]. split; [reflexivity|discriminate]. Qed.

(** ** C79: every run ends, inside its buffers *)
Theorem C79_total : forall W fd pid name opts args input clock res, exists evs k,
  main W fd pid name opts args input clock res = Ok (evs ++ [Exit k]) /\ (forall j, ~ In (Exit j) evs) /\
  (k <> 0 -> 0 <= fd).
Proof.
  intros W fd pid name opts args input clock res.
  destruct (set_opts_any W opts (defaults pid name)) as (p & Es & _). rewrite (main_eq _ _ _ _ _ _ _ _ _ _ Es).
  match type of Es with _ = Ok ?c0 => set (c := c0) in * end.
  destruct (items_of_any W (u_time c) clock args input) as [items ->]. cbn [bind].
  assert (Hp : 0 <= u_prio c <= 7) by apply prio_range. clearbody c. clear Es. generalize O.
  assert (Ho : forall it j, one fd c it <> Exit j) by (intros it j; unfold one; destruct (fd >=? 0); discriminate).
  induction items as [|it items IH]; intros i; cbn [log_all].
  { exists [], 0. split; [reflexivity|]. split; [auto|lia]. }
  destruct (log_one fd (res i) c it Hp) as [(r & -> & ? & _)|[(r & -> & ? & _)|(-> & _)]]; cbn [bind].
  - exists [], r. split; [reflexivity|]. split; [auto|auto].
  - exists [one fd c it], r. split; [reflexivity|]. split; [|auto]. intros j [?|[]]. now apply (Ho it j).
  - destruct (IH (S i)) as (evs & k & -> & H1 & H2). cbn [bind].
    eexists (one fd c it :: (if u_err c then _ else []) ++ evs), k. split; [cbn [app]; rewrite <- app_assoc; reflexivity|]. split; [|auto].
    intros j [?|Hi]; [now apply (Ho it j)|]. apply in_app_or in Hi. destruct Hi as [Hi|Hi]; [|now apply (H1 j)].
    destruct (u_err c); cbn in Hi; intuition discriminate.
Qed.
Example C79_total_ex : exists evs, main 64 3 7 [117] [OPid (bytes_of_string "-1x")] [[97]; [98]] [] (fun _ => None) (fun i => match i with O => 12 | _ => -5 end)
  = Ok (evs ++ [Exit 5]) /\ length (entries evs) = 2%nat.
Proof. eexists [_; _]. split; vm_compute; reflexivity. Qed.

Print Assumptions C74_stdin_partial.
Print Assumptions C74_stdin_refuted.
Print Assumptions C75_args.
Print Assumptions C76_times_partial.
Print Assumptions C76_line_refuted.
Print Assumptions C76_args_refuted.
Print Assumptions C77_copy.
Print Assumptions C78_fallback_partial.
Print Assumptions C78_tag_refuted.
Print Assumptions C79_total.
