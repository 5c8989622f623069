(** Property C122: error and event macros. *)
From Coq Require Import ZArith String List Bool Lia ZifyBool Arith.
From Verif Require Import Bytes BytesProofs Writer Macros RenderSpec RenderProofs PropsMacros Errno.
Import ListNotations.
Open Scope Z_scope.

(** ** Specification *)

Definition evals (l : list event) : list nat := flat_map (fun e => match e with Eval n => [n] | Out _ _ => [] end) l.
Definition outs (l : list event) : list (Z * list Z) := flat_map (fun e => match e with Eval _ => [] | Out p b => [(p, b)] end) l.

(** The message tells where and which error: name, line, text, number and description. *)
Definition tells (p : site) (text : list Z) (err : Z) (descr : list Z) (m : list Z) : Prop :=
  exists ln no, m = p_func p ++ [58] ++ ln ++ [58; 32] ++ text ++ bytes_of_string " err=" ++ no ++ [40] ++ descr ++ [41; 0] /\
    dec_value ln = p_line p /\ dec_value no = err.

Definition int_range (z : Z) : Prop := - 2 ^ 31 <= z < 2 ^ 31.
Definition sane_env (w : env) : Prop := zlen (w_stack w) = 256 /\ 0 <= w_level w.
(** The level in force for a tag. *)
Definition level_of (w : env) (s : st) : Z := if e_level s <? 0 then w_level w else e_level s.

(** Expressions evaluated from left to right, each with the errno left by the one before: their values and
    the errno left by the last. *)
Inductive in_turn : list expr -> Z -> list Z -> Z -> Prop :=
  | turn_none : forall no, in_turn [] no [] no
  | turn_next : forall x l no vs no', in_turn l (x_errno x no) vs no' -> in_turn (x :: l) no (x_val x no :: vs) no'.

(** ** Lemmas *)

Lemma turn_eval l : forall no vs no' lv, in_turn l no vs no' -> eval_all l (mkSt no lv) = (vs, mkSt no' lv).
Proof.
  induction l as [|x l IH]; intros no vs no' lv H; inversion H; subst; [reflexivity|]. cbn [eval_all]. unfold eval. cbn [e_errno e_level].
  rewrite (IH (x_errno x no) vs0 no' lv) by assumption. reflexivity.
Qed.
Lemma turn_ex l : forall no, exists vs no', in_turn l no vs no'.
Proof. induction l as [|x l IH]; intros no; [exists [], no; constructor|]. destruct (IH (x_errno x no)) as (vs & no' & H). eexists _, _. constructor. exact H. Qed.

Lemma log_ok w s prio args body : sane_env w -> (forall vs no, zlen (body vs no) <= 2147483647) ->
  log w s prio args body =
    if enabled prio (level_of w s) then
      let s1 := snd (eval_all args (mkSt (e_errno s) (level_of w s))) in
      let b := ztake 255 (body (fst (eval_all args (mkSt (e_errno s) (level_of w s)))) (e_errno s1)) ++ [0] in
      Ok (mkSt (w_write w b (e_errno s1)) (e_level s1), map (fun x => Eval (x_name x)) args ++ [Out prio b])
    else Ok (mkSt (e_errno s) (level_of w s), []).
Proof.
  intros (A & B) H. unfold log, level_of, init_cookie. destruct s as [no lv]. cbn [e_errno e_level]. destruct (lv <? 0) eqn:L; cbn [e_errno e_level]; rewrite ?L;
    (destruct (enabled prio _); [|reflexivity]); destruct (eval_all args _) as [vs s2]; cbn [fst snd]; rewrite vlog by auto; reflexivity.
Qed.
Lemma evals_app a b : evals (a ++ b) = evals a ++ evals b.
Proof. apply flat_map_app. Qed.
Lemma outs_app a b : outs (a ++ b) = outs a ++ outs b.
Proof. apply flat_map_app. Qed.
Lemma evals_map l : evals (map (fun x => Eval (x_name x)) l) = map x_name l.
Proof. induction l as [|x l IH]; [reflexivity|]. cbn. f_equal. exact IH. Qed.
Lemma outs_map l : outs (map (fun x => Eval (x_name x)) l) = [].
Proof. induction l as [|x l IH]; [reflexivity|]. exact IH. Qed.
Lemma digits_len v : zlen (dec_d v) <= 21.
Proof. unfold dec_d, dec_u. pose proof (BytesProofs.dec_digits_len 20 v). pose proof (BytesProofs.dec_digits_len 20 (- v)). destruct (v <? 0); rewrite ?zlen_cons; lia. Qed.
Lemma text_len w p body e : zlen (errno_text w p body e) <= zlen (p_func p) + zlen body + zlen (w_strerror w e) + 52.
Proof.
  unfold errno_text. rewrite !zlen_app. pose proof (digits_len (p_line p)). pose proof (digits_len e).
  change (zlen (bytes_of_string ":")) with 1. change (zlen (bytes_of_string ": ")) with 2. change (zlen (bytes_of_string " err=")) with 5.
  change (zlen (bytes_of_string "(")) with 1. change (zlen (bytes_of_string ")")) with 1. lia.
Qed.
Lemma text_tells w p body e : int_range (p_line p) -> int_range e -> zlen (p_func p) + zlen body + zlen (w_strerror w e) <= 200 ->
  tells p body e (w_strerror w e) (ztake 255 (errno_text w p body e) ++ [0]).
Proof.
  intros L E H. pose proof (text_len w p body e). rewrite ztake_all by lia. exists (dec_d (p_line p)), (dec_d e). split.
  - unfold errno_text. repeat (progress (cbn [app]; rewrite <- ?app_assoc)). reflexivity.
  - unfold int_range in *. split; apply dec_d_value; lia.
Qed.

(** What a macro is used with: sizes of C programs, values of type int. *)
Definition usual (w : env) (p : site) (text : list Z -> Z -> list Z) : Prop :=
  sane_env w /\ int_range (p_line p) /\ (forall vs no e, zlen (p_func p) + zlen (text vs no) + zlen (w_strerror w e) <= 2147483000).
Definition short (w : env) (p : site) (text : list Z) (e : Z) : Prop := zlen (p_func p) + zlen text + zlen (w_strerror w e) <= 200.

(** ** C122 *)

(** The error is read first, once; the arguments are evaluated once each, only if the message is wanted; one message is
    written, with the error read first even if the arguments, or the registration of the tag, change errno. *)
Theorem C122_log : forall w p s err prio args text s' evs, usual w p text ->
  pri_errno w p s err prio args text = Ok (s', evs) ->
  let e := x_val err (e_errno s) in
  forall vs no, in_turn args (x_errno err (e_errno s)) vs no ->
  let body := text vs no in
  (Z.land prio 7 <= level_of w s ->
     evals evs = x_name err :: map x_name args /\
     (exists m, outs evs = [(prio, m)] /\ (int_range e -> short w p body e -> tells p body e (w_strerror w e) m))) /\
  (level_of w s < Z.land prio 7 -> evals evs = [x_name err] /\ outs evs = [] /\ e_errno s' = x_errno err (e_errno s)).
Proof.
  intros w p s err prio args text s' evs (W & L & U) E e vs0 no0 T body. pose proof (turn_eval _ _ _ _ (level_of w s) T) as TE. unfold pri_errno, eval in E. fold e in E.
  rewrite log_ok in E; [|exact W|intros vs no; pose proof (text_len w p (text vs no) e); specialize (U vs no e); lia].
  cbn [e_errno e_level bind fst snd] in E. unfold level_of in E. cbn [e_level] in E. fold (level_of w s) in E. rewrite TE in E. cbv zeta in E. cbn [fst snd e_errno] in E. fold body in E.
  unfold enabled in E. destruct (Z.leb_spec (Z.land prio 7) (level_of w s)) as [Q|Q]; cbn [bind fst snd] in E; injection E as <- <-.
  - split; [intros _|lia]. split.
    + change (Eval (x_name err) :: ?x) with ([Eval (x_name err)] ++ x). rewrite !evals_app, evals_map. cbn. now rewrite app_nil_r.
    + eexists. split; [change (Eval (x_name err) :: ?x) with ([Eval (x_name err)] ++ x); rewrite !outs_app, outs_map; reflexivity|].
      intros I H. apply text_tells; auto.
  - split; [lia|intros _]. auto.
Qed.

(** ULOG_ERRNO_RETURN_ERR_IF: the condition is evaluated once and, if it holds, the error once; the function then
    returns the opposite of the error told in the message. *)
Theorem C122_return_err : forall w p s cond err s' evs ex, usual w p (fun _ _ => []) ->
  return_err_if w p s cond err = Ok (s', evs, ex) ->
  (x_val cond (e_errno s) = 0 -> evals evs = [x_name cond] /\ outs evs = [] /\ ex = Falls) /\
  (x_val cond (e_errno s) <> 0 -> evals evs = [x_name cond; x_name err] /\
     exists v, ex = ReturnsVal v /\ - v = x_val err (x_errno cond (e_errno s)) /\
       (3 <= level_of w s -> exists m, outs evs = [(3, m)] /\ (int_range (- v) -> short w p [] (- v) -> tells p [] (- v) (w_strerror w (- v)) m)) /\
       (level_of w s < 3 -> outs evs = [])).
Proof.
  intros w p s cond err s' evs ex (W & L & U) E. unfold return_err_if, eval in E. cbn [e_errno e_level] in E.
  destruct (Z.eqb_spec (x_val cond (e_errno s)) 0) as [C|C]; cbn [negb] in E.
  { split; [intros _|contradiction]. injection E as <- <- <-. auto. }
  split; [contradiction|intros _]. set (e := x_val err _) in *. unfold pri_errno_local in E.
  rewrite log_ok in E; [|exact W|intros vs no; pose proof (text_len w p [] e); specialize (U vs no e); lia].
  unfold level_of in E. cbn [e_level e_errno eval_all fst snd map] in E. fold (level_of w s) in E. unfold enabled in E. change (Z.land 3 7) with 3 in E.
  destruct (Z.leb_spec 3 (level_of w s)) as [Q|Q]; cbn [bind fst snd] in E; destruct (Z.eqb_spec e (- 2 ^ 31)); try discriminate; injection E as <- <- <-.
  - split; [reflexivity|]. exists (- e). split; [reflexivity|]. rewrite Z.opp_involutive. split; [reflexivity|]. split; [intros _|lia].
    eexists. split; [reflexivity|]. intros I H. apply text_tells; auto.
  - split; [reflexivity|]. exists (- e). split; [reflexivity|]. rewrite Z.opp_involutive. split; [reflexivity|]. split; [lia|reflexivity].
Qed.

(** ULOG_ERRNO_RETURN_VAL_IF and ULOG_ERRNO_RETURN_IF: the value is evaluated once, last. It is the one before the message if
    the output function leaves errno alone. *)
Theorem C122_return_val_partial : forall w p s cond err val s' evs ex, usual w p (fun _ _ => []) ->
  (forall b n, w_write w b n = n) ->
  return_val_if w p s cond err val = Ok (s', evs, ex) ->
  (x_val cond (e_errno s) = 0 -> evals evs = [x_name cond] /\ outs evs = [] /\ ex = Falls) /\
  (x_val cond (e_errno s) <> 0 -> evals evs = [x_name cond; x_name err; x_name val] /\
     let no := x_errno cond (e_errno s) in let e := x_val err no in
     ex = ReturnsVal (x_val val (x_errno err no)) /\
     (3 <= level_of w s -> exists m, outs evs = [(3, m)] /\ (int_range e -> short w p [] e -> tells p [] e (w_strerror w e) m)) /\
     (level_of w s < 3 -> outs evs = [])).
Proof.
  intros w p s cond err val s' evs ex (W & L & U) WR E. unfold return_val_if, pri_errno, eval in E. cbn [e_errno e_level] in E.
  destruct (Z.eqb_spec (x_val cond (e_errno s)) 0) as [C|C]; cbn [negb] in E.
  { split; [intros _|contradiction]. injection E as <- <- <-. auto. }
  split; [contradiction|intros _]. set (e := x_val err _) in *.
  rewrite log_ok in E; [|exact W|intros vs no; pose proof (text_len w p [] e); specialize (U vs no e); lia].
  unfold level_of in E. cbn [e_level e_errno eval_all fst snd map] in E. fold (level_of w s) in E. unfold enabled in E. change (Z.land 3 7) with 3 in E.
  destruct (Z.leb_spec 3 (level_of w s)) as [Q|Q]; cbn [bind fst snd e_errno app] in E; rewrite ?WR in E; injection E as <- <- <-.
  - split; [reflexivity|]. split; [reflexivity|]. split; [intros _|lia]. eexists. split; [reflexivity|]. intros I H. apply text_tells; auto.
  - split; [reflexivity|]. split; [reflexivity|]. split; [lia|reflexivity].
Qed.
Theorem C122_return : forall w p s cond err s' evs ex, usual w p (fun _ _ => []) ->
  return_if w p s cond err = Ok (s', evs, ex) ->
  (x_val cond (e_errno s) = 0 -> evals evs = [x_name cond] /\ outs evs = [] /\ ex = Falls) /\
  (x_val cond (e_errno s) <> 0 -> evals evs = [x_name cond; x_name err] /\ ex = Returns /\
     let e := x_val err (x_errno cond (e_errno s)) in
     (3 <= level_of w s -> exists m, outs evs = [(3, m)] /\ (int_range e -> short w p [] e -> tells p [] e (w_strerror w e) m)) /\
     (level_of w s < 3 -> outs evs = [])).
Proof.
  intros w p s cond err s' evs ex (W & L & U) E. unfold return_if, pri_errno, eval in E. cbn [e_errno e_level] in E.
  destruct (Z.eqb_spec (x_val cond (e_errno s)) 0) as [C|C]; cbn [negb] in E.
  { split; [intros _|contradiction]. injection E as <- <- <-. auto. }
  split; [contradiction|intros _]. set (e := x_val err _) in *.
  rewrite log_ok in E; [|exact W|intros vs no; pose proof (text_len w p [] e); specialize (U vs no e); lia].
  unfold level_of in E. cbn [e_level e_errno eval_all fst snd map] in E. fold (level_of w s) in E. unfold enabled in E. change (Z.land 3 7) with 3 in E.
  destruct (Z.leb_spec 3 (level_of w s)) as [Q|Q]; cbn [bind fst snd e_errno app] in E; injection E as <- <- <-.
  - split; [reflexivity|]. split; [reflexivity|]. split; [intros _|lia]. eexists. split; [reflexivity|]. intros I H. apply text_tells; auto.
  - split; [reflexivity|]. split; [reflexivity|]. split; [lia|reflexivity].
Qed.

(** The first message of a tag: as if the tag had been registered before. *)
Theorem C122_first : forall w p s err prio args text, sane_env w -> e_level s < 0 ->
  pri_errno w p s err prio args text = pri_errno w p (mkSt (e_errno s) (w_level w)) err prio args text.
Proof.
  intros w p [no lv] err prio args text (_ & B) L. cbn [e_level e_errno] in *. unfold pri_errno, eval, log, init_cookie. cbn [e_level e_errno].
  destruct (Z.ltb_spec lv 0); [|lia]. destruct (Z.ltb_spec (w_level w) 0); [lia|]. cbn [e_level]. reflexivity.
Qed.

(** Events: NOTICE messages that begin with the kind and the type of the event. *)
Theorem C122_event : forall w s secret type args text s' evs, sane_env w -> (forall vs no, zlen type + zlen (text vs no) <= 2147483000) ->
  evt w s secret type args text = Ok (s', evs) ->
  (level_of w s < 5 -> evs = []) /\
  (5 <= level_of w s -> forall vs no, in_turn args (e_errno s) vs no -> exists m, outs evs = [(5, m)] /\ evals evs = map x_name args /\
     (zlen type + zlen (text vs no) <= 240 -> m = (if secret then [69; 86; 84; 83; 58] else [69; 86; 84; 58]) ++ type ++ [59] ++ text vs no ++ [0])).
Proof.
  intros w s secret type args text s' evs W U E. unfold evt in E. rewrite log_ok in E; [|exact W|].
  2:{ intros vs no. rewrite !zlen_app. specialize (U vs no). destruct secret; [change (zlen (bytes_of_string "EVTS:")) with 5|change (zlen (bytes_of_string "EVT:")) with 4];
      change (zlen (bytes_of_string ";")) with 1; lia. }
  unfold enabled in E. change (Z.land 5 7) with 5 in E. destruct (Z.leb_spec 5 (level_of w s)) as [Q|Q]; cbv zeta in E; injection E as <- <-.
  - split; [lia|intros _]. intros vs no T. rewrite (turn_eval _ _ _ _ (level_of w s) T). cbn [fst snd e_errno]. eexists.
    split; [rewrite outs_app, outs_map; reflexivity|]. split; [rewrite evals_app, evals_map; apply app_nil_r|].
    intros H. rewrite ztake_all.
    + destruct secret; cbn; rewrite <- !app_assoc; reflexivity.
    + rewrite !zlen_app. destruct secret; [change (zlen (bytes_of_string "EVTS:")) with 5|change (zlen (bytes_of_string "EVT:")) with 4];
      rewrite zlen_cons; lia.
  - split; [reflexivity|lia].
Qed.

(** A value read from errno is not the one of the message when the output fails. *)
Definition ex_errno : expr := mkE 2 (fun n => n) (fun n => n).
Definition ex_neg : expr := mkE 3 (fun n => - n) (fun n => n).
Definition ex_true : expr := mkE 1 (fun _ => 1) (fun n => n).
Definition ex_env (wr : list Z -> Z -> Z) : env := mkEnv 6 (fun _ => 2) wr (fun _ => bytes_of_string "I/O error") (zrepeat 0 256).
Definition ex_site : site := mkSite (bytes_of_string "f") 7.
Theorem C122_return_val_refuted : exists w s' evs m v, usual w ex_site (fun _ _ => []) /\
  return_val_if w ex_site (mkSt 5 6) ex_true ex_errno ex_neg = Ok (s', evs, ReturnsVal v) /\
  outs evs = [(3, m)] /\ tells ex_site [] 5 (bytes_of_string "I/O error") m /\ v = - 1.
Proof.
  exists (ex_env (fun _ _ => 1)). eexists _, _, _, _. split; [|split; [vm_compute; reflexivity|split; [reflexivity|split; [|reflexivity]]]].
  - split; [split; [reflexivity|cbn; lia]|]. split; [unfold int_range; cbn; lia|]. intros vs no e. vm_compute. discriminate.
  - exists [55], [53]. repeat split.
Qed.

(** The error is not told when the name or the text is too long. *)
Theorem C122_long_refuted : exists w p s' evs m, usual w p (fun _ _ => []) /\
  return_err_if w p (mkSt 0 6) ex_true (mkE 2 (fun _ => 5) (fun n => n)) = Ok (s', evs, ReturnsVal (- 5)) /\
  outs evs = [(3, m)] /\ m = p_func p ++ [0].
Proof.
  exists (ex_env (fun _ n => n)), (mkSite (zrepeat 102 255) 7). eexists _, _, _. split; [|split; [vm_compute; reflexivity|split; reflexivity]].
  split; [split; [reflexivity|cbn; lia]|]. split; [unfold int_range; cbn; lia|]. intros vs no e. vm_compute. discriminate.
Qed.

Example C122_ex : exists s' evs, usual (ex_env (fun _ n => n)) ex_site (fun _ _ => []) /\
  return_err_if (ex_env (fun _ n => n)) ex_site (mkSt 0 (-1)) ex_true (mkE 2 (fun _ => 5) (fun n => n)) = Ok (s', evs, ReturnsVal (- 5)) /\
  outs evs = [(3, bytes_of_string "f:7:  err=5(I/O error)" ++ [0])].
Proof.
  eexists _, _. split; [|split; [vm_compute; reflexivity|reflexivity]]. split; [split; [reflexivity|cbn; lia]|]. split; [unfold int_range; cbn; lia|]. intros vs no e. vm_compute. discriminate.
Qed.
Example C122_event_ex : exists s' evs, evt (ex_env (fun _ n => n)) (mkSt 0 6) true (bytes_of_string "LOGIN") [mkE 4 (fun _ => 9) (fun n => n)] (fun vs _ => dec_d (hd 0 vs)) = Ok (s', evs) /\
  outs evs = [(5, bytes_of_string "EVTS:LOGIN;9" ++ [0])] /\ evals evs = [4%nat].
Proof. eexists _, _. split; [vm_compute; reflexivity|]. split; reflexivity. Qed.

(** Arguments that change errno: the second is computed from the errno that the first leaves. *)
Example C122_turn_ex : in_turn [mkE 4 (fun n => n) (fun _ => 7); mkE 5 (fun n => n) (fun n => n)] 5 [5; 7] 7.
Proof. repeat constructor. Qed.

Print Assumptions C122_log.
Print Assumptions C122_return_err.
Print Assumptions C122_return_val_partial.
Print Assumptions C122_return.
Print Assumptions C122_first.
Print Assumptions C122_event.
Print Assumptions C122_return_val_refuted.
Print Assumptions C122_long_refuted.
