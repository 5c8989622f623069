(** C58: requests of the control client; C59: the control server; C72: malformed control messages; C73: meaning of done. *)
From Coq Require Import ZArith String List Bool Lia ZifyBool ZifyNat Permutation Sorted.
From Verif Require Import Bytes BytesProofs Ctl.
Import ListNotations.
Open Scope Z_scope.

(** ** Specification of C58 *)

Definition statuses (l : list out) : nat := length (filter (fun o => match o with Status _ => true | _ => false end) l).

(** The contract of the client as an automaton over what is seen: [started] and the request that waits for
    its status. [Broken]: the contract is broken; [Outside]: something happened that the theorem does not
    cover: a start that fails, a message that cannot be sent at the connection, an end of list that was
    not asked for. *)
Inductive verdict := Fine (started : bool) (pending : option req) | Broken | Outside.

Definition judge (started : bool) (pending : option req) (o : op) (l : list out) : verdict :=
  let closed := match pending, statuses l with
                | None, O => Fine started None
                | Some _, S O => Fine started None
                | Some r, O => Fine started (Some r)
                | _, _ => Broken
                end in
  match o with
  | AReq r _ _ _ =>
    if negb (Nat.eqb (statuses l) 0) then Broken
    else match started, pending, l with
         | false, _, [Ret e] => if e =? -1 then Fine false pending else Broken
         | true, Some p, [Ret e] => if e =? -16 then Fine true (Some p) else Broken
         | true, None, [Ret e] | true, None, [Send _; Ret e] => if e =? 0 then Fine true (Some r) else if e <? 0 then Fine true None else Broken
         | _, _, _ => Broken
         end
  | AStart cres => if started then match l with [Ret e] => if e =? -16 then Fine true pending else Broken | _ => Broken end
                   else if cres <? 0 then Outside else match l with [Ret e] => if e =? 0 then Fine true pending else Broken | _ => Broken end
  | AStop | EDisconnected => match closed with Fine _ None => Fine false None | _ => Broken end
  | EConnected sres => if (sres <? 0) then match pending with Some _ => Outside | None => closed end
                       else closed
  | EMsg WListEnd _ => match pending with Some RList => closed | _ => Outside end
  | _ => closed
  end.

Fixpoint judge_all (started : bool) (pending : option req) (t : list (op * list out)) : verdict :=
  match t with
  | [] => Fine started pending
  | (o, l) :: t => match judge started pending o l with Fine s p => judge_all s p t | v => v end
  end.

(** In the status callback the application may call the API, but not stop the client (see below): these
    calls are refused. *)
Definition quiet (cb : callback) : Prop := forall k, fst (cb k) = k /\ Forall (fun o => exists r, o = Ret r) (snd (cb k)).

(** ** Proofs *)

Definition inv (k : cli) (started : bool) (pending : option req) : Prop :=
  started = (match k_state k with Idle => false | _ => true end) /\ pending = k_msg k /\ (started = false -> pending = None).

Lemma statuses_ret l : Forall (fun o => exists r, o = Ret r) l -> statuses l = 0%nat.
Proof. induction 1 as [|o l (r & ->) _ IH]; [reflexivity|exact IH]. Qed.

Lemma statuses_app a b : statuses (a ++ b) = (statuses a + statuses b)%nat.
Proof. unfold statuses. now rewrite filter_app, app_length. Qed.

Lemma finish_quiet cb k d : quiet cb -> exists l, finish cb k d = (mkCli (k_state k) None (k_tags k), Status d :: l) /\ statuses l = 0%nat.
Proof.
  intros Q. destruct (Q k) as (Q1 & Q2). unfold finish. destruct (cb k) as [k' l]. cbn [fst snd] in *. subst k'.
  exists l. split; [reflexivity|]. now apply statuses_ret.
Qed.

Lemma tags_no_status (t : list (option (list Z) * Z)) : statuses (map (fun t => TagInfo (fst t) (snd t)) t) = 0%nat.
Proof. induction t; [reflexivity|assumption]. Qed.

Lemma step_judge cb k o k' l started pending : quiet cb -> inv k started pending -> step cb k o = Ok (k', l) ->
  match judge started pending o l with Fine s p => inv k' s p | Broken => False | Outside => True end.
Proof.
  intros Q (I1 & I2 & I3) E. destruct k as [st msg tags]. cbn [k_state k_msg k_tags] in *. subst started pending.
  destruct o as [cres| |r new wres sres|sres| |sent|m mem]; cbn [step] in E.
  - unfold judge. cbn [k_state k_msg k_tags] in E. destruct st.
    + assert (l = [Ret (if cres <? 0 then cres else 0)]) as -> by congruence. assert (k' = mkCli Connecting msg tags) as -> by congruence.
      destruct (cres <? 0); [exact I|]. cbn. rewrite I3 by reflexivity. repeat split; auto.
    + assert (l = [Ret (- EBUSY)]) as -> by congruence. assert (k' = mkCli Connecting msg tags) as -> by congruence. cbn. repeat split; auto.
    + assert (l = [Ret (- EBUSY)]) as -> by congruence. assert (k' = mkCli Connected msg tags) as -> by congruence. cbn. repeat split; auto.
  - unfold cli_stop in E. cbn [k_state k_msg k_tags] in E. unfold judge. destruct st.
    + rewrite I3 in * by reflexivity. assert (l = [] ++ [Ret 0]) as -> by congruence. assert (k' = mkCli Idle None tags) as -> by congruence. cbn. repeat split; auto.
    + destruct msg as [r|].
      * destruct (finish_quiet cb (mkCli Idle (Some r) tags) false Q) as (x & F & Hx). rewrite F in E. cbn [k_state k_tags] in E.
        assert (l = (Status false :: x) ++ [Ret 0]) as -> by congruence. assert (k' = mkCli Idle None tags) as -> by congruence.
        rewrite statuses_app. change (statuses (Status false :: x)) with (S (statuses x)). rewrite Hx. cbn. repeat split; auto.
      * assert (l = [] ++ [Ret 0]) as -> by congruence. assert (k' = mkCli Idle None tags) as -> by congruence. cbn. repeat split; auto.
    + destruct msg as [r|].
      * destruct (finish_quiet cb (mkCli Idle (Some r) tags) false Q) as (x & F & Hx). rewrite F in E. cbn [k_state k_tags] in E.
        assert (l = (Status false :: x) ++ [Ret 0]) as -> by congruence. assert (k' = mkCli Idle None tags) as -> by congruence.
        rewrite statuses_app. change (statuses (Status false :: x)) with (S (statuses x)). rewrite Hx. cbn. repeat split; auto.
      * assert (l = [] ++ [Ret 0]) as -> by congruence. assert (k' = mkCli Idle None tags) as -> by congruence. cbn. repeat split; auto.
  - assert (E' : cli_request (mkCli st msg tags) r new wres sres = (k', l)) by congruence. clear E.
    unfold cli_request in E'. cbn [k_state k_msg k_tags] in E'. unfold judge.
    destruct st.
    + assert (l = [Ret (- EPERM)]) as -> by congruence. assert (k' = mkCli Idle msg tags) as -> by congruence. cbn. repeat split; auto.
    + destruct msg as [p|]; [|destruct new; cbn [negb] in E'; [destruct (Z.ltb_spec wres 0)|]].
      * assert (l = [Ret (- EBUSY)]) as -> by congruence. assert (k' = mkCli Connecting (Some p) tags) as -> by congruence. cbn. repeat split; auto.
      * assert (l = [Ret wres]) as -> by congruence. assert (k_state k' = Connecting /\ k_msg k' = None) as [A B] by (split; replace k' with (mkCli Connecting None (match r with RList => [] | _ => tags end)) by congruence; reflexivity).
        cbn [statuses filter length Nat.eqb negb]. destruct (Z.eqb_spec wres 0); [lia|]. destruct (Z.ltb_spec wres 0); [|lia]. unfold inv. rewrite A, B. auto.
      * assert (l = [Ret 0]) as -> by congruence. assert (k_state k' = Connecting /\ k_msg k' = Some r) as [A B] by (split; replace k' with (mkCli Connecting (Some r) (match r with RList => [] | _ => tags end)) by congruence; reflexivity).
        cbn. unfold inv. rewrite A, B. repeat split; auto. discriminate.
      * assert (l = [Ret (- ENOMEM)]) as -> by congruence. assert (k' = mkCli Connecting None tags) as -> by congruence. cbn. repeat split; auto.
    + destruct msg as [p|]; [|destruct new; cbn [negb] in E'; [destruct (Z.ltb_spec wres 0); [|destruct (Z.ltb_spec sres 0)]|]].
      * assert (l = [Ret (- EBUSY)]) as -> by congruence. assert (k' = mkCli Connected (Some p) tags) as -> by congruence. cbn. repeat split; auto.
      * assert (l = [Ret wres]) as -> by congruence. assert (k_state k' = Connected /\ k_msg k' = None) as [A B] by (split; replace k' with (mkCli Connected None (match r with RList => [] | _ => tags end)) by congruence; reflexivity).
        cbn [statuses filter length Nat.eqb negb]. destruct (Z.eqb_spec wres 0); [lia|]. destruct (Z.ltb_spec wres 0); [|lia]. unfold inv. rewrite A, B. auto.
      * assert (l = [Send r; Ret sres]) as -> by congruence. assert (k_state k' = Connected /\ k_msg k' = None) as [A B] by (split; replace k' with (mkCli Connected None (match r with RList => [] | _ => tags end)) by congruence; reflexivity).
        cbn [statuses filter length Nat.eqb negb]. destruct (Z.eqb_spec sres 0); [lia|]. destruct (Z.ltb_spec sres 0); [|lia]. unfold inv. rewrite A, B. auto.
      * assert (l = [Send r; Ret 0]) as -> by congruence. assert (k_state k' = Connected /\ k_msg k' = Some r) as [A B] by (split; replace k' with (mkCli Connected (Some r) (match r with RList => [] | _ => tags end)) by congruence; reflexivity).
        cbn. unfold inv. rewrite A, B. repeat split; auto. discriminate.
      * assert (l = [Ret (- ENOMEM)]) as -> by congruence. assert (k' = mkCli Connected None tags) as -> by congruence. cbn. repeat split; auto.
  - assert (E' : cli_connected (mkCli st msg tags) sres = (k', l)) by congruence. clear E. unfold cli_connected in E'. cbn [k_state k_msg k_tags] in E'. unfold judge.
    destruct st; [|destruct msg as [r|]|].
    + rewrite I3 in * by reflexivity. assert (l = []) as -> by congruence. assert (k' = mkCli Idle None tags) as -> by congruence.
      destruct (sres <? 0); cbn; repeat split; auto.
    + assert (l = [Send r]) as -> by congruence. assert (k' = mkCli Connected (if sres <? 0 then None else Some r) tags) as -> by congruence.
      destruct (sres <? 0); cbn; [exact I|]. repeat split; auto.
    + assert (l = []) as -> by congruence. assert (k' = mkCli Connected None tags) as -> by congruence. destruct (sres <? 0); cbn; repeat split; auto.
    + assert (l = []) as -> by congruence. assert (k' = mkCli Connected msg tags) as -> by congruence.
      destruct (sres <? 0); destruct msg; cbn; try exact I; repeat split; auto; discriminate.
  - assert (E' : cli_stop cb (mkCli st msg tags) = (k', l)) by congruence. clear E.
    unfold cli_stop in E'. cbn [k_state k_msg k_tags] in E'. unfold judge. destruct st.
    + rewrite I3 in * by reflexivity. assert (l = []) as -> by congruence. assert (k' = mkCli Idle None tags) as -> by congruence. cbn. repeat split; auto.
    + destruct msg as [r|].
      * destruct (finish_quiet cb (mkCli Idle (Some r) tags) false Q) as (x & F & Hx). rewrite F in E'. cbn [k_state k_tags] in E'.
        assert (l = Status false :: x) as -> by congruence. assert (k' = mkCli Idle None tags) as -> by congruence.
        change (statuses (Status false :: x)) with (S (statuses x)). rewrite Hx. cbn. repeat split; auto.
      * assert (l = []) as -> by congruence. assert (k' = mkCli Idle None tags) as -> by congruence. cbn. repeat split; auto.
    + destruct msg as [r|].
      * destruct (finish_quiet cb (mkCli Idle (Some r) tags) false Q) as (x & F & Hx). rewrite F in E'. cbn [k_state k_tags] in E'.
        assert (l = Status false :: x) as -> by congruence. assert (k' = mkCli Idle None tags) as -> by congruence.
        change (statuses (Status false :: x)) with (S (statuses x)). rewrite Hx. cbn. repeat split; auto.
      * assert (l = []) as -> by congruence. assert (k' = mkCli Idle None tags) as -> by congruence. cbn. repeat split; auto.
  - assert (E' : send_cb cb (mkCli st msg tags) = (k', l)) by congruence. clear E. unfold send_cb in E'. cbn [k_msg] in E'. unfold judge.
    destruct (finish_quiet cb (mkCli st msg tags) true Q) as (x & F & Hx). rewrite F in E'. cbn [k_state k_tags] in E'.
    assert (C : statuses (Status true :: x) = 1%nat) by (change (statuses (Status true :: x)) with (S (statuses x)); now rewrite Hx).
    destruct msg as [[t v|v|]|].
    + assert (l = Status true :: x) as -> by congruence. assert (k' = mkCli st None tags) as -> by congruence. rewrite C. cbn. repeat split; auto.
    + assert (l = Status true :: x) as -> by congruence. assert (k' = mkCli st None tags) as -> by congruence. rewrite C. cbn. repeat split; auto.
    + assert (l = []) as -> by congruence. assert (k' = mkCli st (Some RList) tags) as -> by congruence. cbn. repeat split; auto.
    + assert (l = []) as -> by congruence. assert (k' = mkCli st None tags) as -> by congruence. cbn. repeat split; auto.
  - destruct m as [n v| |].
    + assert (l = []) as -> by congruence. assert (k' = tag_info (mkCli st msg tags) n v mem) as -> by congruence. unfold tag_info, judge.
      destruct mem, msg; cbn; repeat split; auto.
    + unfold list_end in E. unfold judge.
      destruct (finish_quiet cb (mkCli st msg tags) true Q) as (x & F & Hx). rewrite F in E. cbn [k_state k_msg k_tags] in E.
      destruct (qsort tags) as [ts|]; [|discriminate]. cbn [bind] in E.
      assert (l = (Status true :: x) ++ map (fun t => TagInfo (fst t) (snd t)) ts) as -> by congruence.
      assert (k' = mkCli st None ts) as -> by congruence. destruct msg as [[t v|v|]|]; try exact I.
      rewrite statuses_app, tags_no_status. change (statuses (Status true :: x)) with (S (statuses x)). rewrite Hx. cbn. repeat split; auto.
    + assert (l = []) as -> by congruence. assert (k' = mkCli st msg tags) as -> by congruence. unfold judge. destruct msg; cbn; repeat split; auto.
Qed.

(** Each accepted request gets exactly one status before another one is accepted, others are refused with
    EBUSY meanwhile, and all are refused with EPERM when the client is not started; restricted by what
    [judge] leaves outside and to applications that do not stop the client in the callback. *)
Theorem C58_once_partial : forall cb ops k t, quiet cb -> run cb cli_new ops = Ok (k, t) ->
  match judge_all false None t with
  | Fine _ p => p = k_msg k
  | Broken => False
  | Outside => True
  end.
Proof.
  intros cb ops k t Q. assert (I0 : inv cli_new false None) by (repeat split; auto). revert I0. generalize cli_new as k0, false as b, (@None req) as p. revert k t.
  induction ops as [|o ops IH]; intros k t k0 b p I0 E; cbn [run] in E.
  - assert (t = []) as -> by congruence. assert (k0 = k) as -> by congruence. cbn. apply I0.
  - destruct (step cb k0 o) as [[k1 l]|] eqn:S1; [|discriminate]. cbn [bind] in E.
    destruct (run cb k1 ops) as [[k2 t2]|] eqn:R1; [|discriminate]. cbn [bind] in E.
    assert (t = (o, l) :: t2) as -> by congruence. assert (k2 = k) as -> by congruence. cbn [judge_all].
    pose proof (step_judge cb k0 o k1 l b p Q I0 S1) as J. destruct (judge b p o l) as [s q| |]; [|contradiction|exact I].
    exact (IH k t2 k1 s q J R1).
Qed.

Definition silent : callback := fun k => (k, []).
Lemma silent_quiet : quiet silent.
Proof. intros k. split; [reflexivity|constructor]. Qed.

(** A run that stays inside: a request before the connection, one refused, the status, a list, an error at
    the disconnection. *)
Definition ex_run : list op :=
  [AReq RList true 0 0; AStart 0; AReq (RSetAll 7) true 0 0; AReq RList true 0 0; EConnected 0; ESendDone true; AReq RList true 0 0; ESendDone true;
   EMsg (WTagInfo (Some [98]) 6) true; EMsg (WTagInfo (Some [97]) 7) true; EMsg WListEnd true; AReq (RSetTag [97] 3) true 0 0; EDisconnected].
Example C58_ex : exists k t, run silent cli_new ex_run = Ok (k, t) /\ judge_all false None t = Fine false None /\
  concat (map snd t) = [Ret (-1); Ret 0; Ret 0; Ret (-16); Send (RSetAll 7); Status true; Send RList; Ret 0; Status true;
                        TagInfo (Some [97]) 7; TagInfo (Some [98]) 6; Send (RSetTag [97] 3); Ret 0; Status false].
Proof. do 2 eexists. split; [vm_compute; reflexivity|]. split; vm_compute; reflexivity. Qed.

(** A request whose message cannot be sent at the connection is dropped without a status, and another one
    is accepted. *)
Theorem C58_lost_refuted : exists k t,
  run silent cli_new [AStart 0; AReq (RSetAll 7) true 0 0; EConnected (-11); AReq RList true 0 0] = Ok (k, t) /\
  concat (map snd t) = [Ret 0; Ret 0; Send (RSetAll 7); Send RList; Ret 0].
Proof. do 2 eexists. split; vm_compute; reflexivity. Qed.

(** An end of list completes whatever request is outstanding, or none: the client is told twice, or told
    about a request that it did not make. The server sends these to every client, see C59. *)
Theorem C58_spurious_refuted : exists k t,
  run silent cli_new [AStart 0; EConnected 0; AReq (RSetAll 7) true 0 0; EMsg WListEnd true; EMsg WListEnd true] = Ok (k, t) /\
  concat (map snd t) = [Ret 0; Send (RSetAll 7); Ret 0; Status true; Status true].
Proof. do 2 eexists. split; vm_compute; reflexivity. Qed.

(** A client whose start failed accepts requests. *)
Theorem C58_failed_start_refuted : exists k t,
  run silent cli_new [AStart (-22); AReq RList true 0 0] = Ok (k, t) /\ concat (map snd t) = [Ret (-22); Ret 0].
Proof. do 2 eexists. split; vm_compute; reflexivity. Qed.

(** An application that stops the client in the status callback is told twice. *)
Definition stopping : callback := cli_stop silent.
Theorem C58_reentrant_refuted : exists k t,
  run stopping cli_new [AStart 0; EConnected 0; AReq (RSetAll 7) true 0 0; ESendDone true] = Ok (k, t) /\
  concat (map snd t) = [Ret 0; Send (RSetAll 7); Ret 0; Status true; Status false].
Proof. do 2 eexists. split; vm_compute; reflexivity. Qed.

(** ** Specification of C59 *)

(** Order of names: that of their bytes. *)
Inductive name_le : list Z -> list Z -> Prop :=
  | nl_nil b : name_le [] b
  | nl_lt x y a b : x < y -> name_le (x :: a) (y :: b)
  | nl_eq x a b : name_le a b -> name_le (x :: a) (x :: b).

(** A name: bytes, no NUL. *)
Definition name (n : list Z) : Prop := Forall (fun c => 0 < c) n.

(** The tags of a registry: all but the default cookie. *)
Definition tags_of (reg : list cookie) : list (list Z * Z) :=
  map (fun c => (c_name c, c_level c)) (filter (fun c => negb (c_default c)) reg).

(** ** Proofs *)

Lemma strcmp_le a b : name a -> name b -> (strcmp a b <=? 0) = true <-> name_le a b.
Proof.
  intros Ha. revert b. induction Ha as [|x a Hx Ha IH]; intros b Hb.
  - destruct b as [|y b]; cbn [strcmp]; split; intros; try constructor; try reflexivity. inversion Hb; subst. lia.
  - destruct b as [|y b]; cbn [strcmp].
    + split; [intros; lia|]. intros H; inversion H.
    + inversion Hb; subst. destruct (Z.eqb_spec x y) as [->|N].
      * rewrite IH by assumption. split; [apply nl_eq|]. intros H; inversion H; subst; [lia|assumption].
      * split; [intros; apply nl_lt; lia|]. intros H; inversion H; subst; lia.
Qed.

Lemma strcmp_total a b : (strcmp a b <=? 0) = false -> (strcmp b a <=? 0) = true.
Proof.
  revert b. induction a as [|x a IH]; intros [|y b]; cbn [strcmp]; intros H; try lia.
  rewrite (Z.eqb_sym y x). destruct (x =? y); [apply IH; exact H|lia].
Qed.

Definition some_name (t : list Z * Z) : option (list Z) * Z := (Some (fst t), snd t).

Lemma insert_ok x l : name (fst x) -> Forall (fun t => name (fst t)) l -> Sorted (fun a b => name_le (fst a) (fst b)) l ->
  exists r, insert (some_name x) (map some_name l) = Ok (map some_name r) /\ Permutation r (x :: l) /\
    Sorted (fun a b => name_le (fst a) (fst b)) r.
Proof.
  intros Hx HF HS. induction l as [|y l IH]; cbn [insert map].
  - exists [x]. repeat split; auto.
  - unfold cmp_name. cbn [some_name fst bind]. pose proof (Forall_inv HF) as Hy.
    destruct (strcmp (fst x) (fst y) <=? 0) eqn:C.
    + exists (x :: y :: l). repeat split; auto. constructor; [exact HS|]. constructor. now apply strcmp_le.
    + destruct IH as (r & E & P & S); [exact (Forall_inv_tail HF)|now inversion HS|]. rewrite E. cbn [bind].
      exists (y :: r). split; [reflexivity|]. split; [rewrite P; apply perm_swap|]. constructor; [exact S|].
      apply strcmp_total in C. apply strcmp_le in C; auto.
      destruct r as [|z r]; constructor. inversion HS as [|? ? _ HD]; subst.
      assert (IN : In z (x :: l)) by (apply (Permutation_in _ P); now left). destruct IN as [<-|IN]; [exact C|].
      (* the head of the rest is x or the head of l *)
      clear - E C HD IN Hx HF. destruct l as [|w l].
      { destruct IN. }
      cbn [map insert] in E. unfold cmp_name in E. cbn [some_name fst bind] in E.
      destruct (strcmp (fst x) (fst w) <=? 0).
      * assert (Z1 : fst (some_name z) = fst (some_name x)) by congruence. cbn [some_name fst] in Z1.
        assert (fst z = fst x) as -> by congruence. exact C.
      * destruct (insert (some_name x) (map some_name l)) as [q|]; [|discriminate]. cbn [bind] in E.
        cbn [map] in E. assert (Z1 : fst (some_name z) = fst (some_name w)) by congruence. cbn [some_name fst] in Z1.
        assert (fst z = fst w) as -> by congruence.
        now inversion HD.
Qed.

Lemma qsort_ok l : Forall (fun t => name (fst t)) l ->
  exists r, qsort (map some_name l) = Ok (map some_name r) /\ Permutation r l /\ Sorted (fun a b => name_le (fst a) (fst b)) r.
Proof.
  induction 1 as [|x l Hx HF IH]; [exists []; repeat split; constructor|]. cbn [map qsort].
  destruct IH as (r & E & P & S). rewrite E. cbn [bind].
  destruct (insert_ok x r Hx) as (q & E2 & P2 & S2); [|exact S|].
  - eapply Permutation_Forall; [symmetry; exact P|exact HF].
  - exists q. split; [exact E2|]. split; [|exact S2]. rewrite P2. now constructor.
Qed.

(** Delivery of the answers of the server to the client of the request. *)
Definition deliver (a : list (dest * answer)) : list op := map (fun x => EMsg (snd x) true) a.

(** One client: a list request gives one status and then exactly the tags with their levels, in the order
    of their names. *)
Theorem C59_list_partial : forall cb k reg, quiet cb -> k_state k = Connected -> k_msg k = None ->
  Forall (fun c => name (c_name c) /\ 0 <= c_level c <= 7) reg ->
  exists k' o l, run cb k (AReq RList true 0 0 :: ESendDone true :: deliver (snd (srv_msg reg (Some RList)))) = Ok (k', o) /\
    fst (srv_msg reg (Some RList)) = reg /\ k_msg k' = None /\ k_state k' = Connected /\
    filter (fun x => match x with Status _ | TagInfo _ _ | Send _ => true | Ret _ => false end) (concat (map snd o)) =
      Send RList :: Status true :: map (fun t => TagInfo (Some (fst t)) (snd t)) l /\
    Permutation l (tags_of reg) /\ Sorted (fun a b => name_le (fst a) (fst b)) l.
Proof.
  intros cb k reg Q Hs Hm HR. cbn [srv_msg snd fst].
  set (ts := filter (fun c => negb (c_default c)) reg).
  assert (HT : Forall (fun c => name (c_name c) /\ 0 <= c_level c <= 7) ts).
  { apply Forall_forall. intros c Hc. apply filter_In in Hc. rewrite Forall_forall in HR. now apply HR. }
  assert (LV : map (fun c => (Requester, WTagInfo (Some (c_name c)) (s32 (u32 (c_level c))))) ts = map (fun c => (Requester, WTagInfo (Some (c_name c)) (c_level c))) ts).
  { apply map_ext_in. intros c Hc. rewrite Forall_forall in HT. destruct (HT c Hc) as (_ & L). do 3 f_equal. unfold u32, s32.
    rewrite !Z.mod_small by (rewrite ?Z.mod_small; lia). destruct (Z.ltb_spec (c_level c) 2147483648); lia. }
  rewrite LV. unfold deliver. rewrite map_app, map_map. cbn [map snd]. clear LV HR.
  destruct k as [st msg tags]. cbn [k_state k_msg] in *. subst st msg.
  cbn [run step cli_request k_state k_msg negb Z.ltb bind send_cb]. change (0 <? 0) with false. cbv iota.
  assert (G : forall acc, exists o, run cb (mkCli Connected (Some RList) acc) (map (fun c => EMsg (WTagInfo (Some (c_name c)) (c_level c)) true) ts ++ [EMsg WListEnd true]) =
     (let* (k, l) := list_end cb (mkCli Connected (Some RList) (acc ++ map (fun c => (Some (c_name c), c_level c)) ts)) in Ok (k, o ++ [(EMsg WListEnd true, l)])) /\ concat (map snd o) = []).
  { clear. induction ts as [|c ts IH]; intros acc; cbn [map app].
    - exists []. rewrite app_nil_r. cbn [run step]. split; [|reflexivity]. destruct (list_end cb _) as [[k l]|]; reflexivity.
    - cbn [run step bind tag_info k_state k_msg k_tags]. destruct (IH (acc ++ [(Some (c_name c), c_level c)])) as (o & E & C). rewrite E.
      rewrite <- app_assoc. cbn [app]. exists ((EMsg (WTagInfo (Some (c_name c)) (c_level c)) true, []) :: o). split; [|exact C].
      match goal with |- context [list_end cb ?q] => destruct (list_end cb q) as [[k l]|]; reflexivity end. }
  destruct (G []) as (o & E & C). cbn [k_msg]. cbv iota. cbn [bind]. change (send_cb cb (mkCli Connected (Some RList) [])) with (mkCli Connected (Some RList) [], @nil out). cbv iota beta. rewrite E. cbn [app]. clear E G.
  assert (EM : map (fun c => (Some (c_name c), c_level c)) ts = map some_name (tags_of reg)).
  { unfold tags_of. rewrite map_map. reflexivity. }
  rewrite EM. destruct (qsort_ok (tags_of reg)) as (r & ER & P & S).
  { unfold tags_of. fold ts. rewrite Forall_map. eapply Forall_impl; [|exact HT]. intros c (H & _). exact H. }
  unfold list_end. destruct (finish_quiet cb (mkCli Connected (Some RList) (map some_name (tags_of reg))) true Q) as (x & F & Hx).
  destruct (Q (mkCli Connected (Some RList) (map some_name (tags_of reg)))) as (_ & QX). unfold finish in F.
  destruct (cb (mkCli Connected (Some RList) (map some_name (tags_of reg)))) as [kk xx] eqn:CB. cbn [snd] in QX.
  cbn [k_state k_tags] in F. assert (xx = x) as -> by congruence. unfold finish. rewrite CB. assert (FK : mkCli (k_state kk) None (k_tags kk) = mkCli Connected None (map some_name (tags_of reg))) by congruence.
  rewrite FK. cbn [k_tags]. rewrite ER. cbn [bind k_state k_msg]. do 3 eexists. split; [reflexivity|]. split; [reflexivity|]. split; [reflexivity|]. split; [reflexivity|]. split; [|split; [exact P|exact S]].
  cbn [map snd concat]. rewrite map_app, concat_app, C. cbn [map snd concat app]. rewrite app_nil_r.
  cbn [filter]. rewrite filter_app. cbn [filter].
  assert (FX : filter (fun x => match x with Status _ | TagInfo _ _ | Send _ => true | Ret _ => false end) x = []).
  { clear - QX. induction QX as [|y x (e & ->) _ IH]; [reflexivity|exact IH]. }
  rewrite FX. cbn [app]. do 2 f_equal. rewrite map_map. clear. induction r as [|y r IH]; [reflexivity|]. cbn [map filter some_name fst snd]. now f_equal.
Qed.

Definition ex_reg : list cookie := [mkCookie false [110; 101; 116] 6; mkCookie true [] 6; mkCookie false [97] 3; mkCookie false [110] 7].
Example C59_list_ex : Forall (fun c => name (c_name c) /\ 0 <= c_level c <= 7) ex_reg /\
  tags_of ex_reg = [([110; 101; 116], 6); ([97], 3); ([110], 7)] /\
  exists k t, run silent (mkCli Connected None []) (AReq RList true 0 0 :: ESendDone true :: deliver (snd (srv_msg ex_reg (Some RList)))) = Ok (k, t) /\
    concat (map snd t) = [Send RList; Ret 0; Status true; TagInfo (Some [97]) 3; TagInfo (Some [110]) 7; TagInfo (Some [110; 101; 116]) 6].
Proof.
  split; [|split; [reflexivity|]].
  - repeat (constructor; [split; [repeat (constructor; [reflexivity|]); constructor|cbn; lia]|]). constructor.
  - do 2 eexists. split; vm_compute; reflexivity.
Qed.

(** Two clients: the end of the list of another client reaches this one before its own tags: it is told
    done with no tags, and once more later. *)
Theorem C59_broadcast_refuted : exists k t, let answers := snd (srv_msg ex_reg (Some RList)) in
  let others := filter (fun a => match fst a with Everyone => true | Requester => false end) answers in
  run silent (mkCli Connected None []) (AReq RList true 0 0 :: ESendDone true :: deliver others ++ deliver answers) = Ok (k, t) /\
  concat (map snd t) = [Send RList; Ret 0; Status true; Status true; TagInfo (Some [97]) 3; TagInfo (Some [110]) 7; TagInfo (Some [110; 101; 116]) 6].
Proof. do 2 eexists. cbv zeta. split; vm_compute; reflexivity. Qed.

(** What setting levels does. Restricted to registries where no two cookies have the requested name. *)
Theorem C59_set_partial : forall reg tag level, -2147483648 <= level <= 2147483647 ->
  (forall i j a b, nth_error reg i = Some a -> nth_error reg j = Some b -> c_name a = tag -> c_name b = tag -> i = j) ->
  let clamped := Z.max 0 (Z.min 7 level) in
  fst (srv_msg reg (Some (RSetTag tag level))) =
    map (fun c => if list_eq_dec Z.eq_dec (c_name c) tag then mkCookie (c_default c) (c_name c) clamped else c) reg /\
  fst (srv_msg reg (Some (RSetAll level))) =
    map (fun c => if c_default c then c else mkCookie (c_default c) (c_name c) clamped) reg /\
  snd (srv_msg reg (Some (RSetTag tag level))) = [] /\ snd (srv_msg reg (Some (RSetAll level))) = [].
Proof.
  intros reg tag level HL HU clamped. cbn [srv_msg fst snd].
  assert (L : s32 (u32 level) = level).
  { unfold u32, s32. rewrite Z.mod_mod by lia. destruct (Z_le_gt_dec 0 level).
    - rewrite Z.mod_small by lia. destruct (Z.ltb_spec level 2147483648); lia.
    - replace (level mod 4294967296) with (level + 4294967296) by (apply (Z.mod_unique_pos _ _ (-1)); lia).
      destruct (Z.ltb_spec (level + 4294967296) 2147483648); lia. }
  rewrite L. assert (SL : forall c, set_level c level = mkCookie (c_default c) (c_name c) clamped).
  { intros c. unfold set_level, clamped. f_equal. destruct (Z.ltb_spec level 0); [lia|]. destruct (Z.gtb_spec level 7); lia. }
  split; [|split; [|split; reflexivity]].
  - clear L HL. induction reg as [|c reg IH]; [reflexivity|]. cbn [set_tag_level map].
    destruct (bytes_eqb (c_name c) tag) eqn:E.
    + apply bytes_eqb_eq in E. destruct (list_eq_dec Z.eq_dec (c_name c) tag); [|contradiction]. rewrite SL. f_equal.
      assert (N : Forall (fun x => c_name x <> tag) reg).
      { apply Forall_forall. intros x Hx X. apply In_nth_error in Hx. destruct Hx as (n & Hn).
        specialize (HU 0%nat (S n) c x eq_refl Hn E X). discriminate. }
      clear - N. induction N as [|x reg Hx N IH]; [reflexivity|]. cbn [map]. destruct (list_eq_dec Z.eq_dec (c_name x) tag); [contradiction|]. now f_equal.
    + destruct (list_eq_dec Z.eq_dec (c_name c) tag) as [X|X]; [apply bytes_eqb_eq in X; congruence|]. f_equal. apply IH.
      intros i j a b Ha Hb. intros. assert (S i = S j) by (eapply HU; [exact Ha|exact Hb|assumption|assumption]). congruence.
  - apply map_ext. intros c. rewrite SL. destruct (c_default c); reflexivity.
Qed.

Example C59_set_ex : fst (srv_msg ex_reg (Some (RSetTag [97] 9))) =
  [mkCookie false [110; 101; 116] 6; mkCookie true [] 6; mkCookie false [97] 7; mkCookie false [110] 7].
Proof. reflexivity. Qed.

(** Of two cookies with the same name only one changes. *)
Theorem C59_duplicate_refuted : exists reg, reg = [mkCookie false [97] 6; mkCookie false [97] 6] /\
  fst (srv_msg reg (Some (RSetTag [97] 7))) = [mkCookie false [97] 7; mkCookie false [97] 6].
Proof. eexists. split; reflexivity. Qed.

(** ** C72 *)

(** The server ignores what it cannot decode. *)
Theorem C72_server : forall reg, srv_msg reg None = (reg, []).
Proof. reflexivity. Qed.

(** A client that gets only readable tag names never crashes, whatever else happens. *)
Lemma step_safe cb k o : (forall k, k_tags (fst (cb k)) = k_tags k) ->
  Forall (fun t => exists n, fst t = Some n) (k_tags k) ->
  match o with EMsg (WTagInfo None _) _ => False | _ => True end ->
  exists k' l, step cb k o = Ok (k', l) /\ Forall (fun t => exists n, fst t = Some n) (k_tags k').
Proof.
  intros HC HT HO.
  assert (FIN : forall q d, k_tags (fst (finish cb q d)) = k_tags q).
  { intros q d. unfold finish. specialize (HC q). destruct (cb q). exact HC. }
  assert (STOP : k_tags (fst (cli_stop cb k)) = k_tags k).
  { unfold cli_stop. destruct (k_state k); [reflexivity| |]; cbn [k_msg]; destruct (k_msg k); try reflexivity; rewrite FIN; reflexivity. }
  destruct o as [cres| |r new wres sres|sres| |sent|m mem]; cbn [step].
  - destruct (k_state k); do 2 eexists; (split; [reflexivity|exact HT]).
  - destruct (cli_stop cb k) as [k1 l1]. cbn [fst] in STOP. do 2 eexists. split; [reflexivity|]. now rewrite STOP.
  - destruct (cli_request k r new wres sres) as [k1 l1] eqn:E. do 2 eexists. split; [reflexivity|]. revert E. unfold cli_request.
    assert (HR : Forall (fun t : option (list Z) * Z => exists n, fst t = Some n) (match r with RList => [] | _ => k_tags k end)) by (destruct r; auto).
    destruct (k_state k); [|destruct (k_msg k)|destruct (k_msg k)]; destruct new; cbn [negb]; destruct (wres <? 0); try destruct (sres <? 0);
    intros E; match type of E with (?a, _) = _ => assert (k1 = a) as -> by congruence end; first [exact HT | exact HR].
  - destruct (cli_connected k sres) as [k1 l1] eqn:E. do 2 eexists. split; [reflexivity|]. revert E. unfold cli_connected.
    destruct (k_state k); [|destruct (k_msg k)|]; intros E; match type of E with (?a, _) = _ => assert (k1 = a) as -> by congruence end; exact HT.
  - destruct (cli_stop cb k) as [k1 l1]. cbn [fst] in STOP. do 2 eexists. split; [reflexivity|]. now rewrite STOP.
  - destruct (send_cb cb k) as [k1 l1] eqn:E. do 2 eexists. split; [reflexivity|]. revert E. unfold send_cb.
    pose proof (FIN k true) as F. destruct (finish cb k true) as [kf lf]. cbn [fst] in F.
    destruct (k_msg k) as [[]|]; intros E; match type of E with (?a, _) = _ => assert (k1 = a) as -> by congruence end; rewrite ?F; exact HT.
  - destruct m as [[n|] v| |]; [|contradiction| |].
    + do 2 eexists. split; [reflexivity|]. unfold tag_info. destruct mem; [|exact HT]. cbn [k_tags]. apply Forall_app. split; [exact HT|]. constructor; [eexists; reflexivity|constructor].
    + unfold list_end. pose proof (FIN k true) as F. destruct (finish cb k true) as [kf lf]. cbn [fst] in F. rewrite <- F in HT.
      assert (QS : exists r, qsort (k_tags kf) = Ok r /\ Forall (fun t => exists n, fst t = Some n) r).
      { clear - HT. revert HT. generalize (k_tags kf) as l. intros l HT. induction HT as [|[x v] l (n & Hn) HT IH]; [exists []; split; [reflexivity|constructor]|]. cbn [fst] in Hn. subst x. cbn [qsort].
        destruct IH as (r & E & HR). rewrite E. cbn [bind]. clear - HR. induction HR as [|[y w] r (m & Hm) HR IH]; cbn [insert].
        - eexists. split; [reflexivity|]. constructor; [eexists; reflexivity|constructor].
        - cbn [fst] in Hm. subst y. unfold cmp_name. cbn [fst bind]. destruct (strcmp n m <=? 0).
          + eexists. split; [reflexivity|]. repeat (constructor; [eexists; reflexivity|]). exact HR.
          + destruct IH as (q & E & HQ). rewrite E. cbn [bind]. eexists. split; [reflexivity|]. constructor; [eexists; reflexivity|exact HQ]. }
      destruct QS as (r & E & HR). rewrite E. cbn [bind]. do 2 eexists. split; [reflexivity|exact HR].
    + do 2 eexists. split; [reflexivity|exact HT].
Qed.

Theorem C72_client_partial : forall cb ops, (forall k, k_tags (fst (cb k)) = k_tags k) ->
  Forall (fun o => forall v mem, o <> EMsg (WTagInfo None v) mem) ops -> exists k t, run cb cli_new ops = Ok (k, t).
Proof.
  intros cb ops HC HO. assert (HT : Forall (fun t => exists n, fst t = Some n) (k_tags cli_new)) by constructor. revert HT. generalize cli_new as k0.
  induction HO as [|o ops Ho HO IH]; intros k0 HT; [do 2 eexists; reflexivity|]. cbn [run].
  destruct (step_safe cb k0 o HC HT) as (k1 & l & E & HT1).
  { destruct o as [| | | | | |[[]| |] mem]; auto. exact (Ho _ _ eq_refl). }
  rewrite E. cbn [bind]. destruct (IH k1 HT1) as (k2 & t & ->). cbn [bind]. do 2 eexists. reflexivity.
Qed.

(** A tag message that cannot be decoded makes the client compare a NULL name. *)
Theorem C72_client_refuted : run silent cli_new
  [AStart 0; EConnected 0; AReq RList true 0 0; EMsg (WTagInfo (Some [97]) 6) true; EMsg (WTagInfo None 0) true; EMsg WListEnd true] = Bug Oob.
Proof. vm_compute. reflexivity. Qed.

(** ** C73 *)

(** Done is told only when a message was waiting and the transport has called back for it, or at an end of
    list. What is missing: that the transport has sent the message. *)
Theorem C73_done_partial : forall cb k o k' l, quiet cb -> step cb k o = Ok (k', l) -> In (Status true) l ->
  (exists sent r, o = ESendDone sent /\ k_msg k = Some r /\ r <> RList) \/ (exists mem, o = EMsg WListEnd mem).
Proof.
  intros cb k o k' l Q E H.
  assert (FIN : forall q, ~ In (Status true) (snd (finish cb q false))).
  { intros q. unfold finish. destruct (Q q) as (_ & Q2). destruct (cb q) as [kk x]. cbn [snd] in *. intros [X|X]; [discriminate|].
    rewrite Forall_forall in Q2. destruct (Q2 _ X). discriminate. }
  assert (STOP : ~ In (Status true) (snd (cli_stop cb k))).
  { unfold cli_stop. destruct (k_state k); cbn [k_msg]; try (intros []); destruct (k_msg k); try (intros []); apply FIN. }
  destruct o as [cres| |r new wres sres|sres| |sent|m mem]; cbn [step] in E.
  - exfalso. destruct (k_state k); match type of E with Ok (_, ?x) = _ => assert (l = x) as -> by congruence end; destruct H as [H|[]]; discriminate.
  - exfalso. destruct (cli_stop cb k) as [k1 l1]. assert (l = l1 ++ [Ret 0]) as -> by congruence. apply in_app_or in H. destruct H as [H|[H|[]]]; [exact (STOP H)|discriminate].
  - exfalso. assert (E' : cli_request k r new wres sres = (k', l)) by congruence. revert E'. unfold cli_request.
    destruct (k_state k); [|destruct (k_msg k)|destruct (k_msg k)]; destruct new; cbn [negb]; destruct (wres <? 0); try destruct (sres <? 0);
    intros X; match type of X with (_, ?a) = _ => assert (l = a) as -> by congruence end; repeat (destruct H as [H|H]; try discriminate); exact H.
  - exfalso. assert (E' : cli_connected k sres = (k', l)) by congruence. revert E'. unfold cli_connected.
    destruct (k_state k); [|destruct (k_msg k)|]; intros X; match type of X with (_, ?a) = _ => assert (l = a) as -> by congruence end; repeat (destruct H as [H|H]; try discriminate); exact H.
  - exfalso. destruct (cli_stop cb k) as [k1 l1]. assert (l = l1) as -> by congruence. exact (STOP H).
  - left. assert (E' : send_cb cb k = (k', l)) by congruence. revert E'. unfold send_cb. destruct (k_msg k) as [[t v|v|]|]; intros X.
    + exists sent, (RSetTag t v). repeat split; discriminate.
    + exists sent, (RSetAll v). repeat split; discriminate.
    + assert (l = []) as -> by congruence. destruct H.
    + assert (l = []) as -> by congruence. destruct H.
  - right. destruct m as [n v| |]; [|exists mem; reflexivity|]; exfalso; assert (l = []) as -> by congruence; destruct H.
Qed.

Example C73_ex : exists k', step silent (mkCli Connected (Some (RSetAll 7)) []) (ESendDone true) = Ok (k', [Status true]).
Proof. eexists. reflexivity. Qed.

(** The transport calls back with an error or an abort, at a disconnection: the application is told done
    though the request was never sent, and nothing more when the disconnection is seen. *)
Theorem C73_done_refuted : exists k t,
  run silent cli_new [AStart 0; EConnected 0; AReq (RSetAll 7) true 0 0; ESendDone false; EDisconnected] = Ok (k, t) /\
  concat (map snd t) = [Ret 0; Send (RSetAll 7); Ret 0; Status true].
Proof. do 2 eexists. split; vm_compute; reflexivity. Qed.

Print Assumptions C58_once_partial.
Print Assumptions C58_lost_refuted.
Print Assumptions C58_spurious_refuted.
Print Assumptions C58_failed_start_refuted.
Print Assumptions C58_reentrant_refuted.
Print Assumptions C59_list_partial.
Print Assumptions C59_broadcast_refuted.
Print Assumptions C59_set_partial.
Print Assumptions C59_duplicate_refuted.
Print Assumptions C72_server.
Print Assumptions C72_client_partial.
Print Assumptions C72_client_refuted.
Print Assumptions C73_done_partial.
Print Assumptions C73_done_refuted.
