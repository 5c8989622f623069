(** The memory of the level control library, and starting and stopping. *)
From Coq Require Import ZArith List Bool Lia ZifyBool.
From Verif Require Import Bytes Ctl CtlMem.
Import ListNotations.
Open Scope Z_scope.

(** How many decodable TAG_INFO a client got, how many SET_TAG_LEV a server got. *)
Definition names (ops : list op) : Z := Z.of_nat (length (filter (fun o => match o with EMsg (WTagInfo (Some _) _) _ => true | _ => false end) ops)).
Definition sets (ops : list sop) : Z := Z.of_nat (length (filter (fun o => match o with SMsg (Some (RSetTag _ _)) => true | _ => false end) ops)).
Definition one {A} (x : option A) : Z := match x with Some _ => 1 | None => 0 end.

Lemma cli_inv : forall ops k h k' h', (k_state k = Idle -> k_msg k = None) -> p_msg h = one (k_msg k) -> 0 <= p_tags h <= 1 -> (k_tags k <> [] -> p_tags h = 1) ->
  cli_run k h ops = Ok (k', h') ->
  p_self h' = p_self h /\ p_ctx h' = p_ctx h /\ p_msg h' = one (k_msg k') /\ p_name h' = p_name h + names ops /\ 0 <= p_tags h' <= 1 /\
  (k_tags k' <> [] -> p_tags h' = 1) /\ (k_state k' = Idle -> k_msg k' = None).
Proof.
  assert (Q : forall l t, qsort l = Ok t -> t <> [] -> l <> []). { intros [|x l] t E N; [cbn in E; congruence|discriminate]. }
  induction ops as [|o ops IH]; intros k h k' h' I M T W E; cbn in E.
  { injection E as <- <-. unfold names. cbn. repeat split; auto; lia. }
  destruct (step no_calls k o) as [(k1, l)|] eqn:S; [|discriminate].
  assert (G : (k_state k1 = Idle -> k_msg k1 = None) /\ p_msg (cli_mem k h o) = one (k_msg k1) /\ 0 <= p_tags (cli_mem k h o) <= 1 /\
     (k_tags k1 <> [] -> p_tags (cli_mem k h o) = 1) /\
     p_self (cli_mem k h o) = p_self h /\ p_ctx (cli_mem k h o) = p_ctx h /\ p_name (cli_mem k h o) + names ops = p_name h + names (o :: ops)).
  { clear IH E k' h'. unfold names. destruct k as (st, ms, tg), h as (hs, hc, hm, hn, ht). cbn in M, T, W, I. subst hm.
    destruct o as [c| |r new wr sr|sr| |d|[n lv| |] mem].
    - destruct st; injection S as <- <-; cbn; repeat split; auto; try lia; intros; try discriminate.
    - destruct st, ms; injection S as <- <-; cbn; repeat split; auto; try lia; intros; try discriminate.
    - cbn in S. unfold cli_request in S. cbn in S.
      destruct st, ms as [q|]; try (injection S as <- <-; cbn; repeat split; auto; try lia; intros; try discriminate; fail).
      + destruct new; cbn [negb] in S.
        2:{ injection S as <- <-. cbn. repeat split; auto; try lia. }
        destruct (wr <? 0) eqn:W1; injection S as <- <-; unfold cli_mem; cbn; rewrite W1; destruct r; cbn; repeat split; auto; try lia; intros; try discriminate; congruence.
      + destruct new; cbn [negb] in S.
        2:{ injection S as <- <-. cbn. repeat split; auto; try lia. }
        destruct (wr <? 0) eqn:W1; [|destruct (sr <? 0) eqn:W2]; injection S as <- <-; unfold cli_mem; cbn; rewrite W1, ?W2; destruct r; cbn; repeat split; auto; try lia; intros; try discriminate; congruence.
    - cbn in S. unfold cli_connected in S. cbn in S. destruct st, ms as [q|]; try (injection S as <- <-; cbn; repeat split; auto; try lia; intros; try discriminate; fail).
      destruct (sr <? 0) eqn:W2; injection S as <- <-; unfold cli_mem; cbn; rewrite W2; cbn; repeat split; auto; try lia; intros; try discriminate.
    - cbn in S. unfold cli_stop in S. cbn in S. destruct st, ms; injection S as <- <-; cbn; repeat split; auto; try lia; intros; try discriminate.
    - cbn in S. unfold send_cb in S. cbn in S. destruct ms as [[]|]; injection S as <- <-; cbn; repeat split; auto; try lia; intros; try discriminate.
    - cbn in S. destruct mem; injection S as <- <-; destruct n; cbn -[length Z.of_nat]; repeat split; auto; cbn [length]; try lia; intros; try (apply W; assumption).
    - cbn in S. unfold list_end, finish, no_calls in S. cbn in S. destruct (qsort tg) as [t|] eqn:Qt; [|discriminate]. injection S as <- <-.
      destruct ms; cbn; repeat split; auto; try lia; intros; try (apply W, (Q _ _ Qt); assumption).
    - injection S as <- <-. cbn; repeat split; auto; try lia. }
  destruct G as (G1 & G2 & G3 & G4 & G5 & G6 & G7).
  destruct (IH _ _ _ _ G1 G2 G3 G4 E) as (A & B & C & D & F & H & K). rewrite <- G5, <- G6. repeat split; auto; try lia.
Qed.

(** C116: a client. Whatever is asked and answered, it never holds more than the message of the request
    under way, and a client that is stopped and destroyed leaves only the names it was told and at most
    one array of tags. *)
Theorem C116_client_partial : forall ops k h, cli_run cli_new (mkHeap 1 1 0 0 0) ops = Ok (k, h) ->
  p_msg h = (match k_msg k with Some _ => 1 | None => 0 end) /\
  (k_state k = Idle -> forall r, 0 <= r -> let h' := destroy r h in
     p_self h' = 0 /\ p_ctx h' = 0 /\ p_msg h' = 0 /\ p_name h' = names ops /\ 0 <= p_tags h' <= 1).
Proof.
  intros ops k h E. destruct (cli_inv ops cli_new (mkHeap 1 1 0 0 0) k h ltac:(reflexivity) eq_refl ltac:(cbn; lia) ltac:(cbn; congruence) E) as (A & B & C & D & F & H & I). cbn in A, B, D.
  split; [exact C|]. intros S r R. cbn. rewrite A, B, C, (I S). destruct (Z.ltb_spec r 0); [lia|]. cbn. lia.
Qed.
(** A failed creation leaves nothing. *)
Theorem C116_create : forall mem ctx cbr, let '(r, k, h) := cli_create mem ctx cbr in
  match k with Some _ => r = 0 | None => r < 0 /\ h = empty end.
Proof. intros [] [] cbr; cbn; try (split; [reflexivity|reflexivity]). destruct (Z.ltb_spec cbr 0); cbn; auto. Qed.
(** It does leave them. *)
Theorem C116_client_refuted : exists ops k h, cli_run cli_new (mkHeap 1 1 0 0 0) ops = Ok (k, h) /\ k_state k = Idle /\
  destroy 0 h = mkHeap 0 0 0 2 1.
Proof.
  exists [AStart 0; EConnected 0; AReq RList true 0 0; ESendDone true; EMsg (WTagInfo (Some [97]) 3) true; EMsg (WTagInfo (Some [98]) 4) true; EMsg WListEnd true; AStop].
  do 2 eexists. split; [vm_compute; reflexivity|]. split; reflexivity.
Qed.
(** So does a server: one name for each request that sets the level of a tag. *)
Lemma srv_heap : forall ops s, let s' := fst (srv_run s ops) in
  s_heap s' = mkHeap (p_self (s_heap s)) (p_ctx (s_heap s)) (p_msg (s_heap s)) (p_name (s_heap s) + sets ops) (p_tags (s_heap s)).
Proof.
  induction ops as [|o ops IH]; intros s; cbn [srv_run].
  - destruct s as (st, []). cbn. f_equal. unfold sets. cbn. lia.
  - destruct (srv_step s o) as (s1, l) eqn:E. specialize (IH s1). destruct (srv_run s1 ops) as (s2, l2). cbn [fst] in *. rewrite IH.
    destruct s as (st, hp). destruct o as [r|r|m]; cbn in E.
    + assert (s_heap s1 = hp) as -> by (destruct st; [|destruct (r <? 0)]; injection E as <- <-; reflexivity). reflexivity.
    + assert (s_heap s1 = hp) as -> by (destruct st; injection E as <- <-; reflexivity). reflexivity.
    + injection E as <- <-. destruct m as [[]|]; cbn; unfold sets; cbn [filter]; f_equal; cbn [length]; lia.
Qed.
Theorem C116_server_partial : forall ops, let h := destroy 0 (s_heap (fst (srv_run srv_made ops))) in
  p_self h = 0 /\ p_ctx h = 0 /\ p_msg h = 0 /\ p_tags h = 0 /\ p_name h = sets ops.
Proof. intros ops. rewrite (srv_heap ops srv_made). cbn. lia. Qed.
Theorem C116_server_refuted : forall n, exists ops, p_name (destroy 0 (s_heap (fst (srv_run srv_made ops)))) = Z.of_nat n.
Proof.
  intros n. exists (repeat (SMsg (Some (RSetTag [97] 3))) n). destruct (C116_server_partial (repeat (SMsg (Some (RSetTag [97] 3))) n)) as (_ & _ & _ & _ & ->).
  unfold sets. f_equal. induction n; cbn; [reflexivity|]. f_equal. exact IHn.
Qed.
Example C116_ex : exists k h, cli_run cli_new (mkHeap 1 1 0 0 0) [AStart 0; AReq (RSetAll 3) true 0 0; EConnected 0; ESendDone true; AReq (RSetTag [97] 2) true 0 0; EDisconnected; AStop] = Ok (k, h) /\
  k_state k = Idle /\ destroy 0 h = empty.
Proof. do 2 eexists. split; [vm_compute; reflexivity|]. split; reflexivity. Qed.

(** C117: starting and stopping a server. It listens only when it does not listen, stops only when it
    does, and a start that fails can be tried again, as long as pomp_ctx_stop works. *)
Fixpoint listens (on : bool) (l : list sout) : option bool :=
  match l with
  | [] => Some on
  | Listen r :: l => if on then None else listens (0 <=? r) l
  | Unlisten r :: l => if on then listens (r <? 0) l else None
  | SRet _ :: l => listens on l
  end.
Definition stops_work (ops : list sop) : Prop := forall r, In (SStop r) ops -> 0 <= r.
Theorem C117_server : forall ops s l, stops_work ops -> srv_run srv_made ops = (s, l) -> listens false l = Some (s_started s).
Proof.
  assert (A : forall l1 l2 b, listens b (l1 ++ l2) = match listens b l1 with Some c => listens c l2 | None => None end).
  { induction l1 as [|[r|r|r] l1 IH]; intros l2 b; cbn; [reflexivity| | |]; try destruct b; auto. }
  assert (G : forall ops s0 s l, stops_work ops -> srv_run s0 ops = (s, l) -> listens (s_started s0) l = Some (s_started s)).
  { induction ops as [|o ops IH]; intros s0 s l W E; cbn in E; [injection E as <- <-; reflexivity|].
    assert (W' : stops_work ops) by (intros r I; apply W; right; exact I).
    destruct (srv_step s0 o) as (s1, l1) eqn:S. destruct (srv_run s1 ops) as (s2, l2) eqn:R. injection E as <- <-.
    rewrite A. assert (listens (s_started s0) l1 = Some (s_started s1)) as ->; [|apply (IH _ _ _ W' R)].
    destruct s0 as ([], hp), o as [r|r|m]; cbn in S.
    - injection S as <- <-. reflexivity.
    - injection S as <- <-. cbn. specialize (W r (or_introl eq_refl)). destruct (Z.ltb_spec r 0); [lia|reflexivity].
    - injection S as <- <-. reflexivity.
    - destruct (Z.ltb_spec r 0); injection S as <- <-; cbn; destruct (Z.leb_spec 0 r); try lia; reflexivity.
    - injection S as <- <-. reflexivity.
    - injection S as <- <-. reflexivity. }
  intros ops s l W E. apply (G ops srv_made s l W E).
Qed.
(** A client whose start failed stays as if it were connecting: it cannot be started again before it is
    stopped, even if nothing is under way. *)
Theorem C117_client_refuted : exists k l1 k2, step no_calls cli_new (AStart (-111)) = Ok (k, l1) /\ l1 = [Ret (-111)] /\
  step no_calls k (AStart 0) = Ok (k2, [Ret (-16)]).
Proof. do 3 eexists. split; [reflexivity|]. split; reflexivity. Qed.
(** A server that was not stopped is freed while its context, which refers to it, still listens. *)
Theorem C117_destroy_refuted : exists s l, srv_run srv_made [SStart 0] = (s, l) /\ listens false l = Some true /\
  let h := destroy (-16) (s_heap s) in p_self h = 0 /\ p_ctx h = 1.
Proof. do 2 eexists. split; [reflexivity|]. repeat split. Qed.
Example C117_ex : srv_run srv_made [SStart (-98); SStart 0; SStart 0; SStop 0; SStop 0; SStart 0] =
  (mkSrv true (mkHeap 1 1 0 0 0), [Listen (-98); SRet (-98); Listen 0; SRet 0; SRet (-16); Unlisten 0; SRet 0; SRet 0; Listen 0; SRet 0]).
Proof. reflexivity. Qed.

Print Assumptions C116_client_partial.
Print Assumptions C116_create.
Print Assumptions C116_client_refuted.
Print Assumptions C116_server_partial.
Print Assumptions C116_server_refuted.
Print Assumptions C117_server.
Print Assumptions C117_client_refuted.
Print Assumptions C117_destroy_refuted.
