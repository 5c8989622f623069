(** C127: std::cerr redirected to ulog. *)
From Coq Require Import ZArith String List Bool Lia ZifyBool.
From Verif Require Import Bytes BytesProofs Stream Cerr.
From Verif Require PropsStream.
Import ListNotations.
Open Scope Z_scope.

(** ** Specification *)

(** What a thread does: complete statements with the streams of ulog (C57) and output operations on std::cerr. *)
Inductive item := Stmt (m : PropsStream.stmt) | Cerr (o : op).
Definition ops_of (i : item) : list op := match i with Stmt m => map Ulog (PropsStream.stmt_ops m) | Cerr o => [o] end.

(** Statements of the levels of ulog; texts that fit in the buffer, without NUL. *)
Definition fits (x : list Z) : Prop := zlen x <= 512 /\ ~ In 0 x.
Definition plain (i : item) : Prop :=
  match i with
  | Stmt m => 0 <= PropsStream.sm_level m <= 7 /\ fits (concat (PropsStream.sm_pieces m))
  | Cerr (Ulog _) | Cerr Redirect => False
  | Cerr (Insert x) => fits x
  | Cerr _ => True
  end.

(** What has to be logged, [tag] being the tag of the last statement: each inserted text is a message of its
    own at the level INFO, under that tag; single characters and ends of lines are lost. *)
Fixpoint expected (tag : option (list Z)) (l : list item) : list out :=
  match l with
  | [] => []
  | Stmt m :: l => map Logged (PropsStream.stmt_msg m) ++ expected (Some (PropsStream.sm_tag m)) l
  | Cerr (Insert (c :: x)) :: l => Logged (Log 6 tag (c :: x)) :: expected tag l
  | Cerr _ :: l => expected tag l
  end.

(** Operations on the streams of ulog use their levels. *)
Definition own (o : op) : Prop :=
  match o with
  | Ulog (Write l _) | Ulog (Put l _) | Ulog (Flush l) => 0 <= l <= 7
  | _ => True
  end.

(** ** Lemmas *)

Definition good (s : state) : Prop := st_fill s CERR = 0 /\ st_bad s CERR = false.

Lemma upd_same {A} (f : Z -> A) i v : upd f i v i = v.
Proof. unfold upd. now rewrite Z.eqb_refl. Qed.
Lemma upd_other {A} (f : Z -> A) i v j : j <> i -> upd f i v j = f j.
Proof. intros H. unfold upd. destruct (Z.eqb_spec j i); congruence. Qed.

Lemma sync_good s l : good s -> good (fst (sync s l)).
Proof.
  intros (F & B). unfold sync. destruct (match st_str s with Some (_ :: _) => _ | _ => _ end) as [x e].
  split; cbn [fst st_fill st_bad]; [|exact B]. destruct (Z.eq_dec CERR l) as [<-|N]; [apply upd_same|now rewrite upd_other].
Qed.
Lemma flush_good cap s : st_bad s CERR = false -> good (fst (Stream.step cap s (Flush CERR))).
Proof.
  intros B. cbn [Stream.step]. rewrite B. unfold sync. destruct (match st_str s with Some (_ :: _) => _ | _ => _ end) as [x e].
  split; cbn [fst st_fill st_bad]; [apply upd_same|exact B].
Qed.
Lemma unit_good cap s o : good s -> (exists x, o = Write CERR x) \/ (exists c, o = Put CERR c) -> good (fst (unit_op cap s o)).
Proof.
  intros (F & B) O. unfold unit_op.
  assert (B1 : st_bad (fst (Stream.step cap s o)) CERR = false).
  { destruct O as [[x ->]|[c ->]]; cbn [Stream.step]; rewrite B; [exact B|]. rewrite F. exact B. }
  destruct (Stream.step cap s o) as [s1 e1]. cbn [fst] in B1. pose proof (flush_good cap s1 B1) as G.
  destruct (Stream.step cap s1 (Flush CERR)) as [s2 e2]. exact G.
Qed.
Lemma step_good cap w o : own o -> good (c_str w) -> good (c_str (fst (step cap w o))).
Proof.
  intros W G. destruct o as [o| |x|c|]; cbn [step].
  - assert (K : good (fst (Stream.step cap (c_str w) o))).
    { destruct o as [t|l x|l c|l]; cbn [Stream.step own] in *; unfold CERR in *.
      - exact G.
      - destruct (st_bad (c_str w) l); exact G.
      - destruct (st_bad (c_str w) l); [exact G|]. destruct G as (F & B).
        destruct (st_fill (c_str w) l <? CPP_BUF_SIZE); split; cbn [fst st_fill st_bad]; unfold CERR in *; try (rewrite upd_other by lia); assumption.
      - destruct (st_bad (c_str w) l); [exact G|]. now apply sync_good. }
    destruct (Stream.step cap (c_str w) o) as [s e]. exact K.
  - split; cbn [fst c_str st_fill st_bad]; [apply G|apply upd_same].
  - destruct (c_on w); [|exact G]. pose proof (unit_good cap (c_str w) (Write CERR x) G (or_introl (ex_intro _ x eq_refl))) as K.
    destruct (unit_op cap (c_str w) (Write CERR x)) as [s e]. exact K.
  - destruct (c_on w); [|exact G]. pose proof (unit_good cap (c_str w) (Put CERR c) G (or_intror (ex_intro _ c eq_refl))) as K.
    destruct (unit_op cap (c_str w) (Put CERR c)) as [s e]. exact K.
  - destruct (c_on w); [|exact G]. pose proof (unit_good cap (c_str w) (Put CERR 10) G (or_intror (ex_intro _ 10 eq_refl))) as K.
    destruct (unit_op cap (c_str w) (Put CERR 10)) as [s e]. cbn [fst] in K. pose proof (flush_good cap s (proj2 K)) as G2.
    destruct (Stream.step cap s (Flush CERR)) as [s2 e2]. exact G2.
Qed.
Lemma run_good cap l : forall w, Forall own l -> good (c_str w) -> good (c_str (fst (run cap w l))).
Proof.
  induction l as [|o l IH]; intros w F G; [exact G|]. inversion F; subst. cbn [run].
  pose proof (step_good cap w o H1 G) as G1. destruct (step cap w o) as [w1 e1]. cbn [fst] in G1. specialize (IH w1 H2 G1).
  destruct (run cap w1 l) as [w2 e2]. exact IH.
Qed.
Lemma run_app cap l1 : forall w l2, run cap w (l1 ++ l2) =
  let '(w1, e1) := run cap w l1 in let '(w2, e2) := run cap w1 l2 in (w2, e1 ++ e2).
Proof.
  induction l1 as [|o l1 IH]; intros w l2; cbn [app run]; [destruct (run cap w l2); reflexivity|].
  destruct (step cap w o) as [w1 e1]. rewrite IH. destruct (run cap w1 l1) as [w2 e2]. destruct (run cap w2 l2) as [w3 e3].
  now rewrite app_assoc.
Qed.
Lemma run_ulog cap l : forall on s, run cap (mkW on s) (map Ulog l) =
  let '(s', e) := Stream.run cap s l in (mkW on s', map (fun e => Logged (relevel e)) e).
Proof.
  induction l as [|o l IH]; intros on s; [reflexivity|]. cbn [map run step Stream.run c_str c_on].
  destruct (Stream.step cap s o) as [s1 e1]. rewrite IH. destruct (Stream.run cap s1 l) as [s2 e2]. now rewrite map_app.
Qed.

(** The insertion of a text, with [p] pending. *)
Lemma insert_pending cap w x : c_on w = true -> good (c_str w) ->
  let p := match st_str (c_str w) with Some p => p | None => [] end in
  512 <= cap -> zlen (p ++ x) <= 512 -> ~ In 0 (p ++ x) ->
  exists s', step cap w (Insert x) = (mkW true s', match p ++ x with [] => [] | y => [Logged (Log 6 (st_tag (c_str w)) y)] end) /\
  (st_str s' = None \/ st_str s' = Some []) /\ st_tag s' = st_tag (c_str w) /\ st_bad s' = st_bad (c_str w) /\ st_fill s' = upd (st_fill (c_str w)) CERR 0.
Proof.
  intros On (F & B) p HC HL HN. cbn [step]. rewrite On. unfold unit_op. cbn [Stream.step]. rewrite B. cbn [st_bad]. rewrite B.
  assert (X : xsputn cap (st_str (c_str w)) x = Some (p ++ x)).
  { unfold xsputn, p in *. destruct (st_str (c_str w)) as [q|].
    - rewrite zlen_app in HL. pose proof (zlen_nonneg q). pose proof (zlen_nonneg x). rewrite ztake_all by lia. reflexivity.
    - cbn [app] in *. unfold CPP_BUF_SIZE. pose proof (zlen_nonneg x). rewrite ztake_all by lia. reflexivity. }
  rewrite X. unfold sync. cbn [st_str st_tag st_fill st_bad app].
  destruct (p ++ x) as [|c y] eqn:E.
  - eexists. split; [reflexivity|]. cbn [st_str st_tag st_fill st_bad]. auto.
  - rewrite (PropsStream.cstr_id (c :: y)) by exact HN. eexists. split; [reflexivity|]. cbn [st_str st_tag st_fill st_bad]. auto.
Qed.

(** ** C127 *)

(** Complete statements and operations on std::cerr: every inserted text is logged at once, alone, at the
    level INFO under the tag of the last statement, and nothing goes to the file descriptor 2. Restricted to
    texts of at most 512 bytes without NUL. *)
Theorem C127_redirected_partial : forall cap before items, 512 <= cap ->
  Forall (fun x => match x with Insert _ | Char _ | Endl => True | _ => False end) before -> Forall plain items ->
  snd (run cap start (before ++ Redirect :: concat (map ops_of items))) =
  map (fun o => Stderr (match o with Insert x => x | Char c => [c] | _ => [10] end)) before ++ expected None items.
Proof.
  intros cap before items HC HB HP. rewrite run_app.
  assert (B : run cap start before = (start, map (fun o => Stderr (match o with Insert x => x | Char c => [c] | _ => [10] end)) before)).
  { induction HB as [|o l Ho _ IH]; [reflexivity|]. cbn [run]. destruct o; try contradiction; cbn [step start c_on map app] in *; now rewrite IH. }
  rewrite B. cbn [run step start c_str init st_str st_tag st_fill st_bad app].
  set (s0 := mkState None None (fun _ => 0) (upd (fun _ => false) CERR false)).
  assert (G0 : PropsStream.idle s0).
  { split; [now left|]. split; [|reflexivity]. intros l. cbn [s0 st_bad]. unfold upd. destruct (l =? CERR); reflexivity. }
  assert (K : forall l s, Forall plain l -> PropsStream.idle s -> snd (run cap (mkW true s) (concat (map ops_of l))) = expected (st_tag s) l).
  2:{ specialize (K items s0 HP G0). destruct (run cap (mkW true s0) (concat (map ops_of items))) as [w e]. cbn [snd] in *. now rewrite K. }
  clear - HC. induction l as [|i l IH]; intros s HP G; [reflexivity|]. inversion HP as [|? ? P PS]; subst. cbn [map concat]. rewrite run_app.
  destruct i as [m|o].
  - destruct P as (PL & PF & PN). cbn [ops_of]. rewrite run_ulog.
    destruct (PropsStream.stmt_ok cap s m HC G PF PN) as (s' & G' & E). rewrite E.
    assert (T : st_tag s' = Some (PropsStream.sm_tag m)).
    { assert (TT : forall l s, Forall (fun o => match o with Tag _ => False | _ => True end) l -> st_tag (fst (Stream.run cap s l)) = st_tag s).
      { clear. induction l as [|o l IH]; intros s H; [reflexivity|]. inversion H as [|? ? Ho Hl]; subst. cbn [Stream.run].
        assert (ST : st_tag (fst (Stream.step cap s o)) = st_tag s).
        { destruct o as [t|a x|a c|a]; try contradiction; cbn [Stream.step]; destruct (st_bad s a); try reflexivity.
          - destruct (st_fill s a <? CPP_BUF_SIZE); reflexivity.
          - unfold sync. destruct (match st_str s with Some (_ :: _) => _ | _ => _ end). reflexivity. }
        destruct (Stream.step cap s o) as [s1 e1]. specialize (IH s1 Hl). destruct (Stream.run cap s1 l) as [s2 e2]. cbn [fst] in *. congruence. }
      destruct m as [a t ps nl]. unfold PropsStream.stmt_ops in E. cbn [PropsStream.sm_tag PropsStream.sm_level PropsStream.sm_pieces PropsStream.sm_endl] in *.
      cbn [Stream.run Stream.step] in E.
      match type of E with (let '(_, _) := Stream.run cap ?s1 ?l1 in _) = _ =>
        pose proof (TT l1 s1) as TX; destruct (Stream.run cap s1 l1) as [s2 e2] end.
      cbn [fst st_tag] in TX. assert (s2 = s') by congruence. subst s2. apply TX.
      apply Forall_app. split; [apply Forall_forall; intros o Ho; apply in_map_iff in Ho; destruct Ho as (q & <- & _); exact Logic.I|].
      destruct nl; repeat constructor. }
    specialize (IH s' PS G'). destruct (run cap (mkW true s') (concat (map ops_of l))) as [w e]. cbn [snd expected] in *. rewrite IH, T. f_equal.
    unfold PropsStream.stmt_msg. destruct m as [a t ps nl]. cbn [PropsStream.sm_tag PropsStream.sm_level PropsStream.sm_pieces] in *.
    destruct (concat ps); [reflexivity|]. cbn [map relevel]. unfold CERR. destruct (Z.eqb_spec a 8); [lia|reflexivity].
  - destruct G as (GS & GB & GF). cbn [ops_of run]. destruct o as [u| |x|c|]; try contradiction.
    + destruct P as (PF & PN).
      assert (PE : match st_str s with Some p => p | None => [] end = @nil Z) by (destruct GS as [-> | ->]; reflexivity).
      destruct (insert_pending cap (mkW true s) x eq_refl (conj (GF CERR) (GB CERR))) as (s' & E & S1 & S2 & S3 & S4); cbn [c_str] in *; rewrite ?PE; cbn [app]; try assumption.
      rewrite E. rewrite PE. cbn [app]. assert (G' : PropsStream.idle s').
      { split; [exact S1|]. split; [rewrite S3; exact GB|]. intros j. rewrite S4. unfold upd. destruct (j =? CERR); [reflexivity|apply GF]. }
      specialize (IH s' PS G'). destruct (run cap (mkW true s') (concat (map ops_of l))) as [w e]. cbn [snd expected] in *. rewrite IH, S2.
      destruct x; reflexivity.
    + cbn [step c_on c_str]. unfold unit_op. cbn [Stream.step]. rewrite GB, GF. cbn [Z.ltb Z.compare CPP_BUF_SIZE]. cbn [st_bad]. rewrite GB.
      unfold sync. cbn [st_str st_tag st_fill st_bad].
      assert (E : (match st_str s with Some (c :: cs) => (Some [], [Log CERR (st_tag s) (cstr (c :: cs))]) | x => (x, []) end) = (st_str s, [])) by (destruct GS as [-> | ->]; reflexivity).
      rewrite E. cbn [app map].
      match goal with |- context [run cap (mkW true ?s1) _] => specialize (IH s1 PS) end. cbn [st_tag] in IH.
      destruct (run cap _ (concat (map ops_of l))) as [w e]. cbn [snd expected app] in *. apply IH.
      split; [exact GS|]. split; [exact GB|]. cbn [st_fill]. intros j. unfold upd. destruct (j =? CERR); [reflexivity|apply GF].
    + cbn [step c_on c_str]. unfold unit_op. cbn [Stream.step]. rewrite GB, GF. cbn [Z.ltb Z.compare CPP_BUF_SIZE]. cbn [st_bad]. rewrite GB.
      unfold sync. cbn [st_str st_tag st_fill st_bad].
      assert (E : (match st_str s with Some (c :: cs) => (Some [], [Log CERR (st_tag s) (cstr (c :: cs))]) | x => (x, []) end) = (st_str s, [])) by (destruct GS as [-> | ->]; reflexivity).
      rewrite E. cbn [app map st_bad]. rewrite GB. cbn [st_str st_tag st_fill st_bad]. rewrite E. cbn [app map].
      match goal with |- context [run cap (mkW true ?s1) _] => specialize (IH s1 PS) end. cbn [st_tag] in IH.
      destruct (run cap _ (concat (map ops_of l))) as [w e]. cbn [snd expected app] in *. apply IH.
      split; [exact GS|]. split; [exact GB|]. cbn [st_fill]. intros j. unfold upd. destruct (j =? CERR); [reflexivity|apply GF].
Qed.
Print Assumptions C127_redirected_partial.

(** Whatever was done before with the streams and std::cerr: an inserted text is logged with everything that
    is pending in the thread. *)
Theorem C127_pending : forall cap l x w p, 512 <= cap -> Forall own l -> w = fst (run cap start l) -> c_on w = true ->
  (st_str (c_str w) = Some p \/ st_str (c_str w) = None /\ p = []) -> zlen (p ++ x) <= 512 -> ~ In 0 (p ++ x) -> p ++ x <> [] ->
  snd (step cap w (Insert x)) = [Logged (Log 6 (st_tag (c_str w)) (p ++ x))].
Proof.
  intros cap l x w p HC HO -> On HP HL HN NE. assert (G : good (c_str (fst (run cap start l)))) by (apply run_good; [exact HO|split; reflexivity]).
  assert (E : match st_str (c_str (fst (run cap start l))) with Some p => p | None => [] end = p) by (destruct HP as [->|[-> ->]]; reflexivity).
  destruct (insert_pending cap _ x On G) as (s' & X & _); rewrite ?E; try assumption.
  rewrite X, E. cbn [snd]. destruct (p ++ x); [congruence|reflexivity].
Qed.
Print Assumptions C127_pending.

(** Refuted: a line written to std::cerr is one message; *)
Theorem C127_line_refuted : exists l, l = [Redirect; Insert (bytes_of_string "a="); Insert [49]; Endl] /\
  forall cap, 512 <= cap -> snd (run cap start l) = [Logged (Log 6 None (bytes_of_string "a=")); Logged (Log 6 None [49])].
Proof.
  eexists. split; [reflexivity|]. intros cap HC.
  pose proof (C127_redirected_partial cap [] [Cerr (Insert (bytes_of_string "a=")); Cerr (Insert [49]); Cerr Endl] HC (Forall_nil _)) as K.
  cbn [app map ops_of concat expected bytes_of_string] in K. rewrite K; [reflexivity|].
  repeat (apply Forall_cons); try exact Logic.I; try apply Forall_nil; cbn [plain]; unfold fits; (split; [vm_compute; discriminate|cbn; intuition discriminate]).
Qed.
Print Assumptions C127_line_refuted.

(** refuted: what is written is logged: characters are lost; *)
Theorem C127_char_refuted : exists l, l = [Redirect; Char 120; Char 121; Endl] /\ forall cap, snd (run cap start l) = [].
Proof. eexists. split; [reflexivity|]. intros cap. reflexivity. Qed.
Print Assumptions C127_char_refuted.

(** refuted: the messages of the streams keep their level: text left by UlogD, without flush, is logged as
    an information with the text of std::cerr. *)
Theorem C127_mixed_refuted : exists l, l = [Redirect; Ulog (Tag [116]); Ulog (Write 7 (bytes_of_string "debug ")); Insert (bytes_of_string "error")] /\
  forall cap, 512 <= cap -> snd (run cap start l) = [Logged (Log 6 (Some [116]) (bytes_of_string "debug error"))].
Proof.
  eexists. split; [reflexivity|]. intros cap HC.
  set (pre := [Redirect; Ulog (Tag [116]); Ulog (Write 7 (bytes_of_string "debug "))]).
  change [Redirect; Ulog (Tag [116]); Ulog (Write 7 (bytes_of_string "debug ")); Insert (bytes_of_string "error")] with (pre ++ [Insert (bytes_of_string "error")]).
  rewrite run_app.
  assert (E : exists s, run cap start pre = (mkW true s, []) /\ st_str s = Some (bytes_of_string "debug ") /\ st_tag s = Some [116]).
  { eexists. split; [reflexivity|]. split; reflexivity. }
  destruct E as (s & E & ES & ET).
  pose proof (C127_pending cap pre (bytes_of_string "error") (mkW true s) (bytes_of_string "debug ") HC) as K. rewrite E in K |- *. cbn [fst c_on c_str] in K.
  cbn [run]. destruct (step cap (mkW true s) (Insert (bytes_of_string "error"))) as [w2 e2]. cbn [snd app] in K |- *. rewrite app_nil_r, ET in *. apply K; auto.
  - unfold pre. repeat constructor; cbn; lia.
  - vm_compute. discriminate.
  - cbn. intuition discriminate.
  - discriminate.
Qed.
Print Assumptions C127_mixed_refuted.

(** ** Examples *)

Example C127_ex : Forall plain [Cerr (Insert [97]); Stmt (PropsStream.mkStmt 7 [116] [[98]; [99]] true); Cerr (Insert [100]); Cerr (Char 101); Cerr Endl] /\
  snd (run 512 start ([Insert [120]; Endl] ++ Redirect :: concat (map ops_of [Cerr (Insert [97]); Stmt (PropsStream.mkStmt 7 [116] [[98]; [99]] true); Cerr (Insert [100]); Cerr (Char 101); Cerr Endl]))) =
  [Stderr [120]; Stderr [10]; Logged (Log 6 None [97]); Logged (Log 7 (Some [116]) [98; 99]); Logged (Log 6 (Some [116]) [100])].
Proof.
  split; [|vm_compute; reflexivity]. repeat (apply Forall_cons); try exact Logic.I; try apply Forall_nil; cbn [plain]; unfold fits.
  - split; [vm_compute; discriminate|cbn; intuition discriminate].
  - split; [cbn; lia|]. split; [vm_compute; discriminate|cbn; intuition discriminate].
  - split; [vm_compute; discriminate|cbn; intuition discriminate].
Qed.
