(** C17: the line that adds a device may have any blanks before and between its words. *)
From Coq Require Import ZArith String List Bool Arith Lia ZifyBool ZifyNat.
From Verif Require Import Bytes BytesProofs Registry PropsRegistry.
Import ListNotations.
Open Scope Z_scope.

(** Blanks: space, tab, line feed and the like. *)
Definition blanks (l : list Z) : Prop := Forall (fun c => c = 32 \/ 9 <= c <= 13) l.

Lemma blank_space : forall c, c = 32 \/ 9 <= c <= 13 -> isspace c = true.
Proof. intros c H. unfold isspace. lia. Qed.
Lemma skip_blanks : forall a s, blanks a -> skip_spaces (a ++ s) = skip_spaces s.
Proof. induction a as [|c a IH]; intros s B; [reflexivity|]. inversion B; subst. cbn. rewrite blank_space by assumption. apply IH. assumption. Qed.
Lemma scan_word_blank : forall n w b s, (length n <= w)%nat -> Forall (fun c => isspace c = false) n -> blanks b -> b <> [] ->
  scan_word w (n ++ b ++ s) = (n, b ++ s).
Proof.
  induction n as [|c n IH]; intros w b s L F B N.
  - destruct b as [|x b]; [congruence|]. inversion B; subst. destruct w; [reflexivity|]. cbn. rewrite blank_space by assumption. reflexivity.
  - destruct w as [|w]; [cbn in L; lia|]. inversion F as [|? ? Hc Fn]; subst. cbn [app scan_word]. rewrite Hc, IH; [reflexivity|cbn in L; lia|exact Fn|exact B|exact N].
Qed.
Lemma line_read : forall a b n k, blanks a -> blanks b -> b <> [] -> valid_name n -> 14 <= k <= 24 ->
  sscanf_spec (a ++ n ++ b ++ dec_u k ++ [10; 0]) = Some (n, k).
Proof.
  intros a b n k Ba Bb Nb Vn Hk. unfold sscanf_spec. pose proof (valid_no_space n Vn) as F.
  assert (X : k = 14 \/ k = 15 \/ k = 16 \/ k = 17 \/ k = 18 \/ k = 19 \/ k = 20 \/ k = 21 \/ k = 22 \/ k = 23 \/ k = 24) by lia.
  assert (Z0 : forall l, blanks l -> ~ In 0 l). { intros l Bl Hi. unfold blanks in Bl. rewrite Forall_forall in Bl. specialize (Bl 0 Hi). cbn in Bl. lia. }
  assert (C : cstr (a ++ n ++ b ++ dec_u k ++ [10; 0]) = a ++ n ++ b ++ dec_u k ++ [10]).
  { replace (a ++ n ++ b ++ dec_u k ++ [10; 0]) with ((a ++ n ++ b ++ dec_u k ++ [10]) ++ 0 :: []) by (rewrite <- !app_assoc; reflexivity).
    apply cstr_app_nul. rewrite !in_app_iff. intros [Hi|[Hi|[Hi|[Hi|Hi]]]].
    - exact (Z0 a Ba Hi).
    - rewrite Forall_forall in F. destruct (F 0 Hi) as (_ & Y). congruence.
    - exact (Z0 b Bb Hi).
    - repeat (destruct X as [X|X]); subst k; cbn in Hi; intuition discriminate.
    - cbn in Hi. intuition discriminate. }
  rewrite C. destruct Vn as (l' & En & Ll & Fl).
  assert (Cons : exists c t, a ++ n ++ b ++ dec_u k ++ [10] = c :: t) by (destruct a; [rewrite En|]; cbn; eauto). destruct Cons as (c & t & Ec). rewrite Ec. rewrite <- Ec.
  rewrite skip_blanks by exact Ba.
  assert (Sk : skip_spaces (n ++ b ++ dec_u k ++ [10]) = n ++ b ++ dec_u k ++ [10]) by (rewrite En; reflexivity).
  rewrite Sk, scan_word_blank; [|rewrite En, app_length; unfold zlen in Ll; change (List.length (bytes_of_string "ulog_")) with 5%nat; lia|
    apply Forall_forall; intros x Hx; rewrite Forall_forall in F; apply (F x Hx)|exact Bb|exact Nb].
  rewrite skip_blanks by exact Bb. repeat (destruct X as [X|X]); subst k; reflexivity.
Qed.

Theorem C17_blanks : forall pow2 l s rets a n b k count, reaches pow2 l s rets -> blanks a -> blanks b -> b <> [] -> valid_name n -> 14 <= k <= 24 ->
  ~ In n (map d_name (devs (r_logs s))) -> zlen (devs (r_logs s)) < 16 ->
  exists s' d, ulogger_add_log s (a ++ n ++ b ++ dec_u k ++ [10; 0]) count (mkA true true true true) = Ok (s', count) /\
    devs (r_logs s') = devs (r_logs s) ++ [d] /\ d_name d = n /\ d_size d = 2 ^ k.
Proof.
  intros pow2 l s rets a n b k count R Ba Bb Nb Vn Hk Nn L16.
  destruct (C17_accepts pow2 l s rets n k count R Vn Hk Nn L16) as (s' & d & E & Rest). exists s', d. split; [|exact Rest].
  rewrite <- E. unfold ulogger_add_log. rewrite (line_read a b n k Ba Bb Nb Vn Hk).
  pose proof (line_read [] [32] n k ltac:(constructor) ltac:(repeat constructor) ltac:(discriminate) Vn Hk) as Y. cbn [app] in Y |- *. rewrite Y. reflexivity.
Qed.
Example C17_blanks_example : blanks [9; 32] /\ blanks [32; 32; 9] /\ valid_name (bytes_of_string "ulog_cam") /\
  sscanf_spec ([9; 32] ++ bytes_of_string "ulog_cam" ++ [32; 32; 9] ++ [49; 56] ++ [10; 0]) = Some (bytes_of_string "ulog_cam", 18).
Proof.
  split; [repeat constructor; lia|]. split; [repeat constructor; lia|]. split; [|reflexivity].
  exists (bytes_of_string "cam"). split; [reflexivity|]. split; [cbn; lia|]. repeat constructor; unfold lower; cbn; lia.
Qed.
Print Assumptions C17_blanks.
