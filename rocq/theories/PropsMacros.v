(** Throttled and change-filtered logging: properties C39 and C40. *)
From Coq Require Import ZArith String List Bool Lia ZifyBool ZifyNat Arith.
From Verif Require Import Bytes BytesProofs Writer Macros.
Import ListNotations.
Open Scope Z_scope.

(** ** Specification *)

(** The message [x] is the formatted text, announcing [k] masked messages. *)
Definition carries (text : list Z) (k : Z) (x : list Z) : Prop :=
  (k = 0 /\ x = ztake 255 text ++ [0]) \/
  (0 < k /\ exists ds, x = ztake 255 ([91] ++ ds ++ [93; 32] ++ text) ++ [0] /\ digits_value ds = k /\ Forall (fun d => 48 <= d <= 57) ds /\ zlen ds <= 20).

(** What each call wrote, with the number it announced. *)
Inductive account : list tcall -> list (option (list Z)) -> list Z -> Prop :=
  | acc_nil : account [] [] []
  | acc_masked : forall c l outs ks, account l outs ks -> account (c :: l) (None :: outs) (0 :: ks)
  | acc_written : forall c l x outs k ks, carries (c_text c) k x -> account l outs ks -> account (c :: l) (Some x :: outs) (k :: ks).

Fixpoint written (outs : list (option (list Z))) : Z :=
  match outs with [] => 0 | None :: r => written r | Some _ :: r => 1 + written r end.
Definition total (ks : list Z) : Z := fold_right Z.add 0 ks.
(** Calls that wrote nothing since the last that wrote something. *)
Definition pending_step (n : Z) (o : option (list Z)) : Z := match o with None => n + 1 | Some _ => 0 end.
Definition pending (outs : list (option (list Z))) : Z := fold_left pending_step outs 0.

(** Times and delays of real programs; texts are C strings. *)
Definition sane (c : tcall) : Prop :=
  0 <= c_ms c < 2 ^ 32 /\ 0 <= c_now c < 2 ^ 63 /\ ~ In 0 (c_text c) /\ zlen (c_text c) <= 2147483600.

(** ** Lemmas *)
Lemma dec_digits_range : forall f v, 0 <= v -> Forall (fun d => 48 <= d <= 57) (dec_digits f v).
Proof.
  induction f as [|f IH]; intros v H; [constructor|]. cbn [dec_digits]. destruct (Z.ltb_spec v 10).
  - constructor; [lia|constructor].
  - apply Forall_app. split; [apply IH; apply Z.div_pos; lia|]. constructor; [|constructor]. pose proof (Z.mod_pos_bound v 10). lia.
Qed.
Lemma ztake_in : forall n (l : list Z) x, In x (ztake n l) -> In x l.
Proof. intros n l x H. rewrite <- (ztake_zdrop n l). apply in_app_iff. left. exact H. Qed.

Lemma vsn : forall stack x, zlen stack = 256 -> zlen x <= 2147483647 -> exists r, vsnprintf stack (Some x) = Ok (zlen x, ztake 255 x ++ 0 :: r).
Proof.
  intros stack x Hs Hx. unfold vsnprintf. destruct (Z.gtb_spec (zlen x) 2147483647); [lia|]. rewrite Hs. pose proof (zlen_nonneg x).
  assert (L : zlen (ztake (256 - 1) x ++ [0]) = Z.min 255 (zlen x) + 1).
  { rewrite zlen_app, zlen_ztake. change (zlen [0]) with 1. lia. }
  rewrite mem_write_ok by lia. cbn [bind]. rewrite ztake_0. cbn [app]. rewrite <- app_assoc. cbn [app]. eexists. reflexivity.
Qed.
Lemma vlog : forall stack x, zlen stack = 256 -> zlen x <= 2147483647 -> ulog_vlog_write stack (Some x) = Ok (Some (ztake 255 x ++ [0])).
Proof.
  intros stack x Hs Hx. destruct (vsn stack x Hs Hx) as (r & E). unfold ulog_vlog_write. rewrite E, Hs. cbn [bind].
  pose proof (zlen_nonneg x). pose proof (zlen_nonneg r).
  assert (G : forall n, n = Z.min 255 (zlen x) -> mem_read (ztake 255 x ++ 0 :: r) 0 (n + 1) = Ok (ztake 255 x ++ [0])).
  { intros n ->. change (0 :: r) with ([0] ++ r). rewrite app_assoc.
    assert (zlen (ztake 255 x ++ [0]) = Z.min 255 (zlen x) + 1) by (rewrite zlen_app, zlen_ztake; change (zlen [0]) with 1; lia).
    rewrite mem_read_ok; [|lia|lia|rewrite zlen_app; lia]. unfold zsub. rewrite zdrop_0, ztake_app_exact by lia. reflexivity. }
  destruct (Z.geb_spec (zlen x) 256); (match goal with |- context [?n >=? 0] => destruct (Z.geb_spec n 0); [|lia] end); rewrite G by lia; reflexivity.
Qed.

Definition goes (s : tst) (c : tcall) : bool := c_now c >=? t_last s + c_ms c.
Definition body (s : tst) (c : tcall) : list Z := if t_masked s =? 0 then c_text c else masked_text (t_masked s) (c_text c).

(** One call. *)
Lemma throttle_ok : forall stack s c, zlen stack = 256 -> sane c -> 0 <= t_last s < 2 ^ 63 -> 0 <= t_masked s ->
  throttle stack s c = Ok (if goes s c then (mkT 0 (c_now c), if enabled (c_prio c) (c_level c) then Some (ztake 255 (body s c) ++ [0]) else None)
                           else (mkT (u32 (t_masked s + 1)) (t_last s), None)).
Proof.
  intros stack s c Hs (H1 & H2 & H3 & H4) Hl Hm. unfold throttle, goes, body, u64. rewrite Z.mod_small by lia.
  destruct (c_now c >=? t_last s + c_ms c); [|reflexivity]. destruct (Z.eqb_spec (t_masked s) 0) as [E|E]; cbn [negb].
  - rewrite E. unfold ulog_log. destruct (enabled _ _); [|reflexivity]. rewrite vlog by lia. reflexivity.
  - assert (L : zlen (masked_text (t_masked s) (c_text c)) <= 2147483647).
    { unfold masked_text. rewrite !zlen_app. pose proof (dec_digits_len 20 (t_masked s)). unfold dec_u. change (zlen [91]) with 1. change (zlen [93; 32]) with 2. lia. }
    destruct (vsn stack _ Hs L) as (r & ->). cbn [bind snd]. unfold ulog_log_str.
    assert (N : has_nul (ztake 255 (masked_text (t_masked s) (c_text c)) ++ 0 :: r) = true).
    { unfold has_nul. rewrite existsb_app. cbn. rewrite orb_true_r. reflexivity. }
    rewrite N, cstr_app_nul; [reflexivity|]. intros Hin. apply ztake_in in Hin. unfold masked_text in Hin.
    rewrite !in_app_iff in Hin. destruct Hin as [Hin|[Hin|[Hin|Hin]]]; [destruct Hin as [Hin|[]]; discriminate| |destruct Hin as [Hin|[Hin|[]]]; discriminate|contradiction].
    pose proof (dec_digits_range 20 (t_masked s) Hm) as F. rewrite Forall_forall in F. specialize (F 0 Hin). lia.
Qed.

Lemma u32_bound : forall x, 0 <= u32 x.
Proof. intros x. unfold u32. apply Z.mod_pos_bound. lia. Qed.
Definition wf (s : tst) : Prop := 0 <= t_last s < 2 ^ 63 /\ 0 <= t_masked s.
Definition next (s : tst) (c : tcall) : tst := if goes s c then mkT 0 (c_now c) else mkT (u32 (t_masked s + 1)) (t_last s).
Lemma wf_next : forall s c, wf s -> sane c -> wf (next s c).
Proof.
  intros s c (H1 & H2) (_ & H3 & _). unfold next, wf. destruct (goes s c); cbn; [lia|]. split; [lia|apply u32_bound].
Qed.

(** Runs. *)
Lemma run_cons : forall stack s c l s' outs, zlen stack = 256 -> wf s -> sane c ->
  throttle_run stack s (c :: l) = Ok (s', outs) ->
  exists o outs', outs = o :: outs' /\ throttle_run stack (next s c) l = Ok (s', outs') /\
    o = (if goes s c && enabled (c_prio c) (c_level c) then Some (ztake 255 (body s c) ++ [0]) else None).
Proof.
  intros stack s c l s' outs Hs (W1 & W2) Hc H. cbn [throttle_run] in H. rewrite throttle_ok in H by assumption. unfold next.
  destruct (goes s c); cbn [bind fst snd andb] in *; (destruct (throttle_run stack _ l) as [(s2 & o2)|] eqn:E; [|discriminate]); cbn [bind fst snd] in H; inversion H; subst; eauto.
Qed.

(** ** C39 *)

(** Nothing is read or written out of bounds, whatever happens. *)
Theorem C39_safe : forall stack l, zlen stack = 256 -> Forall sane l -> exists s outs, throttle_run stack t_init l = Ok (s, outs).
Proof.
  intros stack l Hs. assert (W : wf t_init) by (unfold wf, t_init; cbn; lia). revert W. generalize t_init.
  induction l as [|c l IH]; intros s W F; [eexists; eexists; reflexivity|]. inversion F as [|? ? Hc Fl]; subst. cbn [throttle_run].
  rewrite throttle_ok by (try assumption; apply W). pose proof (wf_next s c W Hc) as W'. unfold next in W'.
  destruct (goes s c); cbn [bind fst snd]; destruct (IH _ W' Fl) as (s2 & o2 & ->); cbn; eauto.
Qed.

(** Two messages written by the call site are at least the delay apart. *)
Lemma gap_from : forall stack l s s' outs, zlen stack = 256 -> wf s -> Forall sane l -> throttle_run stack s l = Ok (s', outs) ->
  forall j cj y, nth_error l j = Some cj -> nth_error outs j = Some (Some y) -> c_now cj >= t_last s + c_ms cj.
Proof.
  intros stack l. induction l as [|c l IH]; intros s s' outs Hs W F H j cj y Hj Ho; [destruct j; discriminate|].
  inversion F as [|? ? Hc Fl]; subst. destruct (run_cons _ _ _ _ _ _ Hs W Hc H) as (o & outs' & -> & H' & Eo).
  destruct j as [|j]; cbn in Hj, Ho.
  - inversion Hj. inversion Ho. subst. destruct (goes s cj) eqn:G; [|discriminate]. unfold goes in G. lia.
  - pose proof (IH _ _ _ Hs (wf_next _ _ W Hc) Fl H' j cj y Hj Ho) as X. unfold next in X. destruct (goes s c) eqn:G; cbn in X; [|exact X].
    unfold goes in G. destruct Hc as (Hc & _). lia.
Qed.
Theorem C39_gap : forall stack l s outs i j ci cj x y, zlen stack = 256 -> Forall sane l -> throttle_run stack t_init l = Ok (s, outs) ->
  (i < j)%nat -> nth_error l i = Some ci -> nth_error outs i = Some (Some x) -> nth_error l j = Some cj -> nth_error outs j = Some (Some y) ->
  c_now cj >= c_now ci + c_ms cj.
Proof.
  intros stack l s outs i j ci cj x y Hs F H. assert (W : wf t_init) by (unfold wf, t_init; cbn; lia). revert W H. generalize t_init.
  intros s0 W H. revert s0 i j outs W H. induction l as [|c l IH]; intros s0 i j outs W H Hij Hi Hx Hj Hy; [destruct i; discriminate|].
  inversion F as [|? ? Hc Fl]; subst. destruct (run_cons _ _ _ _ _ _ Hs W Hc H) as (o & outs' & -> & H' & Eo).
  destruct i as [|i]; (destruct j as [|j]; [lia|]); cbn in Hi, Hx, Hj, Hy.
  - inversion Hi. inversion Hx. subst. pose proof (gap_from _ _ _ _ _ Hs (wf_next _ _ W Hc) Fl H' j cj y Hj Hy) as X.
    unfold next in X. destruct (goes s0 ci); [exact X|discriminate].
  - apply (IH Fl _ i j outs' (wf_next _ _ W Hc) H'); (lia || assumption).
Qed.

(** With the level enabled, a call is written as soon as the delay has passed since every message
    written before (and since the origin of the clock: missing for the full C39). *)
Theorem C39_not_starved_partial : forall stack l c s outs o, zlen stack = 256 -> Forall sane (l ++ [c]) ->
  Forall (fun c => enabled (c_prio c) (c_level c) = true) (l ++ [c]) ->
  throttle_run stack t_init (l ++ [c]) = Ok (s, outs ++ [o]) ->
  (forall i ci x, nth_error l i = Some ci -> nth_error outs i = Some (Some x) -> c_now c >= c_now ci + c_ms c) ->
  c_now c >= c_ms c -> o <> None.
Proof.
  intros stack l c s outs o Hs F E H Hp Ho. assert (W : wf t_init) by (unfold wf, t_init; cbn; lia).
  assert (L : c_now c >= t_last t_init + c_ms c) by (cbn; lia). clear Ho. revert W L H. generalize t_init. intros s0. revert s0 outs Hp.
  induction l as [|c0 l IH]; intros s0 outs Hp W L H; cbn [app] in *; inversion F as [|? ? Hc Fl]; subst; inversion E as [|? ? Ec El]; subst;
    destruct (run_cons _ _ _ _ _ _ Hs W Hc H) as (o' & outs' & Eo & H' & Eo').
  - cbn in H'. inversion H'. subst outs'. destruct outs as [|z [|]]; inversion Eo. subst o'. unfold goes in *.
    destruct (Z.geb_spec (c_now c) (t_last s0 + c_ms c)); [|lia]. rewrite Ec in *. subst. discriminate.
  - destruct outs as [|z outs].
    { inversion Eo. subst outs'. exfalso. apply (f_equal (fun r => match r with Ok (_, x) => List.length x | _ => 1%nat end)) in H'.
      assert (Len : forall l s s' o, throttle_run stack s l = Ok (s', o) -> List.length o = List.length l).
      { clear. induction l as [|a l IH]; intros s s' o H; cbn in H; [inversion H; reflexivity|].
        destruct (throttle stack s a) as [(a1 & a2)|]; [|discriminate]. cbn in H. destruct (throttle_run stack a1 l) as [(b1 & b2)|] eqn:E; [|discriminate].
        cbn in H. inversion H. cbn. f_equal. apply (IH _ _ _ E). }
      destruct (throttle_run stack (next s0 c0) (l ++ [c])) as [(b1 & b2)|] eqn:E2; [|discriminate]. apply Len in E2. rewrite app_length in E2. cbn in *. lia. }
    inversion Eo. subst z outs'. apply (IH Fl El (next s0 c0) outs); try assumption.
    + intros i ci x Hi Hx. apply (Hp (S i) ci x Hi Hx).
    + apply wf_next; assumption.
    + unfold next. rewrite Ec, andb_true_r in Eo'. destruct (goes s0 c0) eqn:G; [|exact L]. cbn.
      apply (Hp 0%nat c0 (ztake 255 (body s0 c0) ++ [0]) eq_refl). cbn. rewrite Eo'. reflexivity.
Qed.

(** With the level always enabled (missing for the full C39) every call is written or counted in
    exactly one announced number, except those masked since the last message written. *)
Theorem C39_count_partial : forall stack l s outs, zlen stack = 256 -> Forall sane l -> zlen l < 2 ^ 32 ->
  Forall (fun c => enabled (c_prio c) (c_level c) = true) l ->
  throttle_run stack t_init l = Ok (s, outs) ->
  exists ks, account l outs ks /\ zlen l = written outs + total ks + pending outs.
Proof.
  intros stack l s outs Hs F Hl E H.
  assert (G : forall l s0 n outs, wf s0 -> t_masked s0 = n -> n + zlen l < 2 ^ 32 -> Forall sane l -> Forall (fun c => enabled (c_prio c) (c_level c) = true) l ->
    throttle_run stack s0 l = Ok (s, outs) -> exists ks, account l outs ks /\ n + zlen l = written outs + total ks + fold_left pending_step outs n).
  { clear l outs F Hl E H. induction l as [|c l IH]; intros s0 n outs W Hn Hl F E H.
    - cbn in H. inversion H. exists []. split; [constructor|]. unfold total. cbn. change (zlen (@nil tcall)) with 0. lia.
    - inversion F as [|? ? Hc Fl]; subst. inversion E as [|? ? Ec El]; subst. rewrite zlen_cons in *. pose proof (zlen_nonneg l).
      destruct (run_cons _ _ _ _ _ _ Hs W Hc H) as (o & outs' & -> & H' & Eo). pose proof (wf_next _ _ W Hc) as W'.
      rewrite Ec, andb_true_r in Eo. unfold next in *. destruct (goes s0 c) eqn:Gs; subst o.
      + destruct (IH _ 0 outs' W' eq_refl) as (ks & A & B); try assumption; [destruct W; lia|].
        exists (t_masked s0 :: ks). split.
        * constructor; [|exact A]. unfold body, carries. destruct (Z.eqb_spec (t_masked s0) 0) as [Em|Em]; [left; auto|right].
          destruct W as (_ & W). split; [lia|]. exists (dec_u (t_masked s0)). split; [reflexivity|]. split; [|split].
          -- apply dec_digits_value. change (Z.of_nat 20) with 20. split; [lia|]. assert (2 ^ 32 < 10 ^ 20) by reflexivity. lia.
          -- apply dec_digits_range. lia.
          -- apply (dec_digits_len 20).
        * unfold total in *. cbn [written fold_right fold_left pending_step]. lia.
      + cbn [t_masked] in *. assert (Eu : u32 (t_masked s0 + 1) = t_masked s0 + 1).
        { unfold u32. apply Z.mod_small. destruct W as (_ & W). lia. }
        rewrite Eu in *. destruct (IH _ (t_masked s0 + 1) outs' W' eq_refl) as (ks & A & B); try assumption; [lia|].
        exists (0 :: ks). split; [constructor; exact A|]. unfold total in *. cbn [written fold_right fold_left pending_step]. lia. }
  destruct (G l t_init 0 outs) as (ks & A & B); try assumption; [unfold wf, t_init; cbn; lia|reflexivity|].
  exists ks. split; [exact A|]. unfold pending. lia.
Qed.

(** The first message is not written if the clock is still below the delay. *)
Theorem C39_first_refuted : exists stack c s, zlen stack = 256 /\ sane c /\ enabled (c_prio c) (c_level c) = true /\
  throttle_run stack t_init [c] = Ok (s, [None]).
Proof.
  exists (zrepeat 0 256), (mkTC 1000 4 7 999 [97]), (mkT 1 0). split; [reflexivity|]. split; [|split; reflexivity].
  unfold sane. cbn. repeat split; try lia.
Qed.
(** If the level of the tag hides the message due, the masked calls are never announced. *)
Theorem C39_count_refuted : exists stack l s x, zlen stack = 256 /\ Forall sane l /\ zlen l = 5 /\
  throttle_run stack t_init l = Ok (s, [Some x; None; None; None; Some x]) /\ carries [97] 0 x.
Proof.
  exists (zrepeat 0 256), [mkTC 100 4 7 1000 [97]; mkTC 100 4 7 1010 [97]; mkTC 100 4 7 1020 [97]; mkTC 100 4 3 1200 [97]; mkTC 100 4 7 1300 [97]],
    (mkT 0 1300), [97; 0].
  split; [reflexivity|]. split; [|split; [reflexivity|split; [reflexivity|left; split; reflexivity]]].
  repeat constructor; cbn; lia.
Qed.
Definition ex39 : list tcall :=
  [mkTC 100 4 7 1000 [97]; mkTC 100 4 7 1010 [97]; mkTC 100 4 7 1020 [97]; mkTC 100 4 7 1200 [98]; mkTC 100 4 7 1299 [97]].
Example C39_ex : Forall sane ex39 /\ throttle_run (zrepeat 7 256) t_init ex39 =
  Ok (mkT 1 1200, [Some [97; 0]; None; None; Some [91; 50; 93; 32; 98; 0]; None]).
Proof.
  split; [|reflexivity]. unfold ex39. repeat constructor; cbn; lia.
Qed.

(** ** C40 *)

(** Whether each call is the first or has a value different from the one before. *)
Fixpoint differs (prev : option Z) (l : list Z) : list bool :=
  match l with
  | [] => []
  | v :: l => match prev with None => true | Some p => negb (v =? p) end :: differs (Some v) l
  end.

(** For values a uintptr_t can hold (missing for the full C40: values that change when converted),
    with thread local storage or without. *)
Lemma change_from : forall w l s prev, 0 < w -> Forall (fun v => 0 <= v < 2 ^ w) l ->
  match prev with None => c_init s = false | Some p => c_init s = true /\ c_last s = p end -> snd (change_run w s l) = differs prev l.
Proof.
  intros w. induction l as [|v l IH]; intros s prev Hw F Hp; [reflexivity|]. inversion F as [|? ? Hv Fl]; subst.
  cbn [change_run differs]. unfold change. rewrite Z.mod_small by exact Hv.
  destruct prev as [p|].
  - destruct Hp as (Hi & Hl). rewrite Hi, Hl, orb_false_r. destruct (Z.eqb_spec v p); cbn [negb].
    + subst p. specialize (IH s (Some v) Hw Fl). destruct (change_run w s l). cbn in *. f_equal. apply IH. auto.
    + specialize (IH (mkC true v) (Some v) Hw Fl). destruct (change_run w (mkC true v) l). cbn in *. f_equal. apply IH. auto.
  - rewrite Hp, orb_true_r. specialize (IH (mkC true v) (Some v) Hw Fl). destruct (change_run w (mkC true v) l). cbn in *. f_equal. apply IH. auto.
Qed.
Theorem C40_change_partial : forall w l, 0 < w -> Forall (fun v => 0 <= v < 2 ^ w) l ->
  snd (change_run w c_tls l) = differs None l /\ (forall v0, snd (change_run w (c_notls w v0) l) = differs None l).
Proof. intros w l Hw F. split; [|intros v0]; apply change_from; auto. Qed.
(** For any integer value: exactly when the values converted to uintptr_t differ. *)
Theorem C40_change_converted : forall w l, 0 < w -> snd (change_run w c_tls l) = differs None (map (fun v => v mod 2 ^ w) l).
Proof.
  intros w l Hw. rewrite <- (change_from w (map (fun v => v mod 2 ^ w) l) c_tls None Hw); [|apply Forall_forall; intros x Hx; apply in_map_iff in Hx; destruct Hx as (y & <- & _); apply Z.mod_pos_bound, Z.pow_pos_nonneg; lia|reflexivity].
  generalize c_tls. induction l as [|v l IH]; intros s; [reflexivity|]. cbn [map change_run].
  assert (change w s (v mod 2 ^ w) = change w s v) as -> by (unfold change; rewrite Z.mod_mod; [reflexivity|pose proof (Z.pow_pos_nonneg 2 w); lia]).
  destruct (change w s v) as (s1 & b). specialize (IH s1). destruct (change_run w s1 l), (change_run w s1 (map _ l)). cbn in *. f_equal. exact IH.
Qed.
(** Signed values of at most that width. *)
Theorem C40_change_signed : forall w l, 0 < w -> Forall (fun v => - 2 ^ (w - 1) <= v < 2 ^ (w - 1)) l ->
  snd (change_run w c_tls l) = differs None l.
Proof.
  intros w l Hw F. rewrite C40_change_converted by exact Hw.
  assert (P : 2 ^ w = 2 * 2 ^ (w - 1)) by (rewrite <- Z.pow_succ_r by lia; f_equal; lia). pose proof (Z.pow_pos_nonneg 2 (w - 1)).
  assert (G : forall l prev, Forall (fun v => - 2 ^ (w - 1) <= v < 2 ^ (w - 1)) l -> (forall p, prev = Some p -> - 2 ^ (w - 1) <= p < 2 ^ (w - 1)) ->
    differs (option_map (fun v => v mod 2 ^ w) prev) (map (fun v => v mod 2 ^ w) l) = differs prev l).
  { clear l F. induction l as [|v l IH]; intros prev F Hp; [reflexivity|]. inversion F as [|? ? Hv Fl]; subst. cbn [map differs]. f_equal.
    - destruct prev as [p|]; [|reflexivity]. cbn. specialize (Hp p eq_refl). f_equal.
      destruct (Z.eqb_spec v p) as [->|Hne]; [apply Z.eqb_refl|]. apply Z.eqb_neq. intros E. apply Hne.
      assert (v - p = 2 ^ w * (v / 2 ^ w - p / 2 ^ w)) by (pose proof (Z.div_mod v (2 ^ w)); pose proof (Z.div_mod p (2 ^ w)); nia).
      assert (v / 2 ^ w - p / 2 ^ w = 0) by nia. nia.
    - apply (IH (Some v) Fl). intros p Ep. inversion Ep. subst. exact Hv. }
  apply (G l None F). discriminate.
Qed.
(** A wider value, or a difference in the converted-away part, goes unnoticed. *)
Theorem C40_wide_refuted : exists w a b, 0 < w /\ a <> b /\ snd (change_run w c_tls [a; b]) = [true; false].
Proof. exists 32, 5, (2 ^ 32 + 5). split; [reflexivity|]. split; [discriminate|reflexivity]. Qed.
Example C40_ex : snd (change_run 64 c_tls [0; 0; 3; -1; -1; 3]) = [true; false; true; true; false; true].
Proof. reflexivity. Qed.

Print Assumptions C39_safe.
Print Assumptions C39_gap.
Print Assumptions C39_not_starved_partial.
Print Assumptions C39_count_partial.
Print Assumptions C39_first_refuted.
Print Assumptions C39_count_refuted.
Print Assumptions C40_change_partial.
Print Assumptions C40_change_converted.
Print Assumptions C40_change_signed.
Print Assumptions C40_wide_refuted.
