(** Lemmas about the parser. *)
From Coq Require Import ZArith Znumtheory String List Bool Lia ZifyBool ZifyNat.
From Verif Require Import Bytes BytesProofs Ring RingSpec Parse Iov ParseSpec.
Import ListNotations.
Open Scope Z_scope.

Ltac lists := repeat progress (rewrite <- ?app_assoc; cbn [app]); reflexivity.

(** ** Memory *)

Lemma nul_split : forall l : list Z, (exists s r, l = s ++ 0 :: r /\ ~ In 0 s) \/ ~ In 0 l.
Proof.
  induction l as [|x l IH]; [right; intros []|].
  destruct (Z.eq_dec x 0) as [->|Hx]; [left; exists [], l; split; [reflexivity|intros []]|].
  destruct IH as [(s & r & -> & H)|H].
  - left. exists (x :: s), r. split; [reflexivity|]. intros [E|E]; [congruence|tauto].
  - right. intros [E|E]; [congruence|tauto].
Qed.

Lemma load_app : forall pre x post, load (pre ++ x :: post) (zlen pre) = Ok x.
Proof.
  intros pre x post. unfold load. pose proof (zlen_nonneg pre). pose proof (zlen_nonneg post).
  rewrite zlen_app, zlen_cons.
  replace ((0 <=? zlen pre) && (zlen pre <? zlen pre + (1 + zlen post))) with true by lia.
  rewrite znth_app by lia. rewrite Z.ltb_irrefl, Z.sub_diag. reflexivity.
Qed.

Lemma load_app_at : forall mem p pre x post, mem = pre ++ x :: post -> p = zlen pre -> load mem p = Ok x.
Proof. intros; subst; apply load_app. Qed.

Lemma store_app : forall pre x post v, store (pre ++ x :: post) (zlen pre) v = Ok (pre ++ v :: post).
Proof.
  intros pre x post v. unfold store. pose proof (zlen_nonneg pre). pose proof (zlen_nonneg post).
  rewrite mem_write_ok.
  - rewrite ztake_app_exact by reflexivity. change (zlen [v]) with 1.
    replace (pre ++ x :: post) with ((pre ++ [x]) ++ post) by (rewrite <- app_assoc; reflexivity).
    rewrite zdrop_app_exact; [reflexivity|]. rewrite zlen_app. reflexivity.
  - lia.
  - change (zlen [v]) with 1. rewrite zlen_app, zlen_cons. lia.
Qed.

Lemma store_app_at : forall mem p v pre x post, mem = pre ++ x :: post -> p = zlen pre ->
  store mem p v = Ok (pre ++ v :: post).
Proof. intros; subst; apply store_app. Qed.

Lemma strnlen_at : forall rest pre n, n = List.length rest ->
  strnlen (pre ++ rest) (zlen pre) n = Ok (zlen (cstr rest)).
Proof.
  induction rest as [|x rest IH]; intros pre n ->; [reflexivity|].
  cbn [List.length strnlen]. rewrite load_app. cbn [bind cstr].
  destruct (x =? 0); [reflexivity|].
  replace (pre ++ x :: rest) with ((pre ++ [x]) ++ rest) by (rewrite <- app_assoc; reflexivity).
  replace (zlen pre + 1) with (zlen (pre ++ [x])) by (rewrite zlen_app; reflexivity).
  rewrite IH by reflexivity. cbn [bind]. rewrite zlen_cons. f_equal. lia.
Qed.

Lemma strnlen_zlen : forall rest pre,
  strnlen (pre ++ rest) (zlen pre) (Z.to_nat (zlen rest)) = Ok (zlen (cstr rest)).
Proof. intros. apply strnlen_at. unfold zlen. lia. Qed.

Lemma get_token_some : forall pre s r, ~ In 0 s ->
  get_token (pre ++ s ++ 0 :: r) (zlen pre) (zlen (s ++ 0 :: r))
  = Ok (Some (zlen pre, zlen (pre ++ s ++ [0]), zlen r)).
Proof.
  intros pre s r H. unfold get_token. rewrite strnlen_zlen. cbn [bind].
  rewrite cstr_app_nul by exact H. rewrite !zlen_app, zlen_cons. change (zlen [0]) with 1.
  pose proof (zlen_nonneg r).
  destruct (zlen s + 1 >? zlen s + (1 + zlen r)) eqn:E; [lia|]. f_equal. f_equal. f_equal; [f_equal|]; lia.
Qed.

Lemma get_token_none : forall pre s, ~ In 0 s -> get_token (pre ++ s) (zlen pre) (zlen s) = Ok None.
Proof.
  intros pre s H. unfold get_token. rewrite strnlen_zlen. cbn [bind]. rewrite cstr_id by exact H.
  destruct (zlen s + 1 >? zlen s) eqn:E; [reflexivity|lia].
Qed.

Lemma exists_last_dec : forall l : list Z, l = [] \/ exists s x, l = s ++ [x].
Proof.
  intros l. destruct l as [|y l]; [left; reflexivity|right].
  destruct (@exists_last _ (y :: l)) as (s & x & ->); [discriminate|]. exists s, x. reflexivity.
Qed.

(** ** Unformatted payloads *)

Section Unformatted.
Variables sec nsec pid tid : Z.
Let mk msg len := mkPEntry sec nsec ULOG_INFO pid (Const []) tid (Const []) (Const []) msg len false 0.

Lemma unformatted_zero : forall pre rest, rest = [] \/ (exists r, rest = 0 :: r) ->
  parse_unformatted (pre ++ rest) (zlen pre) (zlen rest) sec nsec pid tid
  = Ok (pre ++ rest, mk (Const zero_length_str) 16).
Proof.
  intros pre rest H. unfold parse_unformatted. rewrite strnlen_zlen. cbn [bind].
  assert (cstr rest = []) as -> by (destruct H as [->|(r & ->)]; reflexivity). reflexivity.
Qed.

Lemma unformatted_nul : forall pre s r, ~ In 0 s -> s <> [] ->
  parse_unformatted (pre ++ s ++ 0 :: r) (zlen pre) (zlen (s ++ 0 :: r)) sec nsec pid tid
  = Ok (pre ++ s ++ 0 :: r, mk (InBuf (zlen pre)) (zlen s + 1)).
Proof.
  intros pre s r H Hs. unfold parse_unformatted. rewrite strnlen_zlen. cbn [bind].
  rewrite cstr_app_nul by exact H. pose proof (zlen_nonneg r). pose proof (zlen_nonneg s).
  destruct (zlen s =? 0) eqn:E. { apply Z.eqb_eq in E. apply zlen_zero_nil in E. contradiction. }
  rewrite zlen_app, zlen_cons. destruct (zlen s <? zlen s + (1 + zlen r)) eqn:E2; [|lia].
  rewrite (store_app_at _ _ 0 (pre ++ s) 0 r).
  - cbn [bind]. rewrite <- app_assoc. reflexivity.
  - rewrite <- app_assoc. reflexivity.
  - rewrite zlen_app. lia.
Qed.

Lemma unformatted_cut : forall pre s x, ~ In 0 s -> x <> 0 ->
  parse_unformatted (pre ++ s ++ [x]) (zlen pre) (zlen (s ++ [x])) sec nsec pid tid
  = Ok (pre ++ s ++ [0], mk (InBuf (zlen pre)) (zlen s + 1)).
Proof.
  intros pre s x H Hx. unfold parse_unformatted. rewrite strnlen_zlen. cbn [bind].
  rewrite cstr_id. 2: { rewrite in_app_iff. cbn. intros [A|[A|[]]]; congruence. }
  rewrite zlen_app. change (zlen [x]) with 1. pose proof (zlen_nonneg s).
  destruct (zlen s + 1 =? 0) eqn:E; [lia|]. destruct (zlen s + 1 <? zlen s + 1) eqn:E2; [lia|].
  rewrite (store_app_at _ _ 0 (pre ++ s) x []).
  - cbn [bind]. rewrite <- app_assoc. reflexivity.
  - rewrite <- app_assoc. reflexivity.
  - rewrite zlen_app. lia.
Qed.

End Unformatted.

(** ** What holds of every parse *)

(** Memory changes: at most the last byte, which becomes NUL. *)
Definition last_cut (mem mem' : list Z) : Prop :=
  mem' = mem \/ exists s x, mem = s ++ [x] /\ mem' = s ++ [0].

Definition good_parse (mem mem' : list Z) (e : pentry) (sec nsec pid tid : Z) : Prop :=
  last_cut mem mem' /\ pe_sec e = sec /\ pe_nsec e = nsec /\ pe_pid e = pid /\ pe_tid e = tid /\
  (exists pn tn tg, string_at mem' (pe_pname e) pn /\ string_at mem' (pe_tname e) tn /\
                    string_at mem' (pe_tag e) tg) /\
  (if pe_bin e then exists pre, pe_msg e = InBuf (zlen pre) /\ exists post, mem' = pre ++ post /\ pe_len e = zlen post
   else exists m, string_at mem' (pe_msg e) m /\ pe_len e = zlen m + 1).

Lemma string_at_const : forall mem s, ~ In 0 s -> string_at mem (Const s) s.
Proof. intros mem s H. split; [exact H|reflexivity]. Qed.

Lemma string_at_buf : forall pre s post, ~ In 0 s -> string_at (pre ++ s ++ 0 :: post) (InBuf (zlen pre)) s.
Proof. intros pre s post H. split; [exact H|]. exists pre, post. auto. Qed.

Lemma string_at_eq : forall mem off pre s post, ~ In 0 s -> mem = pre ++ s ++ 0 :: post -> off = zlen pre ->
  string_at mem (InBuf off) s.
Proof. intros; subst. apply string_at_buf. assumption. Qed.

Lemma nil_string : ~ In 0 (@nil Z).
Proof. intros []. Qed.
#[local] Hint Resolve nil_string : core.

Lemma zero_length_no_nul : ~ In 0 zero_length_str.
Proof. vm_compute. intuition congruence. Qed.

Lemma unformatted_good : forall sec nsec pid tid pre rest, exists mem' e,
  parse_unformatted (pre ++ rest) (zlen pre) (zlen rest) sec nsec pid tid = Ok (mem', e) /\
  good_parse (pre ++ rest) mem' e sec nsec pid tid.
Proof.
  intros sec nsec pid tid pre rest.
  assert (K : forall mem' m len str, last_cut (pre ++ rest) mem' -> string_at mem' m str -> len = zlen str + 1 ->
    good_parse (pre ++ rest) mem'
      (mkPEntry sec nsec ULOG_INFO pid (Const []) tid (Const []) (Const []) m len false 0) sec nsec pid tid).
  { intros mem' m len str A B C. split; [exact A|]. do 4 (split; [reflexivity|]). split.
    - exists [], [], []. cbn. repeat split; auto.
    - exists str. auto. }
  destruct (nul_split rest) as [(s & r & -> & H)|H].
  - destruct s as [|x s].
    + do 2 eexists. split; [apply unformatted_zero; right; eexists; reflexivity|].
      eapply K; [left; reflexivity|apply string_at_const, zero_length_no_nul|reflexivity].
    + do 2 eexists. split; [apply unformatted_nul; [exact H|discriminate]|].
      eapply K; [left; reflexivity|apply string_at_buf; exact H|reflexivity].
  - destruct (exists_last_dec rest) as [->|(s & x & ->)].
    + do 2 eexists. split; [apply unformatted_zero; left; reflexivity|].
      eapply K; [left; reflexivity|apply string_at_const, zero_length_no_nul|reflexivity].
    + rewrite in_app_iff in H. cbn in H.
      do 2 eexists. split; [apply unformatted_cut; tauto || (intros ->; tauto)|].
      eapply K; [right; exists (pre ++ s), x; rewrite <- !app_assoc; auto|apply string_at_buf; tauto|reflexivity].
Qed.

Lemma string_at_app : forall mem post q s, string_at mem q s -> string_at (mem ++ post) q s.
Proof.
  intros mem post q s (H & K). split; [exact H|]. destruct q as [off|c]; [|exact K].
  destruct K as (pre & p & -> & <-). exists pre, (p ++ post). split; [|reflexivity].
  rewrite <- !app_assoc. reflexivity.
Qed.

(** The part of the parser behind the names. *)
Definition parse_tail (mem : list Z) (pname tname p size sec nsec pid tid : Z) : M (list Z * pentry) :=
  let unformatted := fun p size => parse_unformatted mem p size sec nsec pid tid in
  if size <? 4 then unformatted p size else
  let* b0 := load mem p in
  let* b1 := load mem (p + 1) in
  let* b2 := load mem (p + 2) in
  let* b3 := load mem (p + 3) in
  let prio := Z.land b0 PRIO_LEVEL_MASK in
  let bin := Z.testbit b0 PRIO_BINARY_SHIFT in
  let color := Z.lor (Z.lor b1 (Z.shiftl b2 8)) (Z.shiftl b3 16) in
  let p := p + 4 in
  let size := size - 4 in
  let* t3 := get_token mem p size in
  match t3 with
  | None => unformatted (p - 4) (size + 4)
  | Some (tag, p, size) =>
    let fin m len := Ok (m, mkPEntry sec nsec prio pid (InBuf pname) tid (InBuf tname)
                                     (InBuf tag) (InBuf p) len bin color) in
    if bin then fin mem size
    else if size =? 0 then unformatted p 0
    else
      let* len := strnlen mem p (Z.to_nat size) in
      if len =? size then let* mem' := store mem (p + size - 1) 0 in fin mem' len
      else fin mem (len + 1)
  end.

Lemma parse_names_same : forall pn r sec nsec pid, ~ In 0 pn ->
  parse_payload (pn ++ 0 :: r) 0 (zlen (pn ++ 0 :: r)) sec nsec pid pid
  = parse_tail (pn ++ 0 :: r) 0 0 (zlen (pn ++ [0])) (zlen r) sec nsec pid pid.
Proof.
  intros pn r sec nsec pid H. unfold parse_payload.
  pose proof (get_token_some [] pn r H) as E. cbn [app] in E. change (zlen (@nil Z)) with 0 in E.
  rewrite E. cbn [bind]. rewrite Z.eqb_refl. reflexivity.
Qed.

Lemma parse_names_diff : forall pn tn r sec nsec pid tid, ~ In 0 pn -> ~ In 0 tn -> pid <> tid ->
  parse_payload (pn ++ 0 :: tn ++ 0 :: r) 0 (zlen (pn ++ 0 :: tn ++ 0 :: r)) sec nsec pid tid
  = parse_tail (pn ++ 0 :: tn ++ 0 :: r) 0 (zlen (pn ++ [0])) (zlen (pn ++ [0] ++ tn ++ [0])) (zlen r) sec nsec pid tid.
Proof.
  intros pn tn r sec nsec pid tid H1 H2 Hne. unfold parse_payload.
  pose proof (get_token_some [] pn (tn ++ 0 :: r) H1) as E. cbn [app] in E. change (zlen (@nil Z)) with 0 in E.
  rewrite E. cbn [bind]. replace (pid =? tid) with false by lia.
  pose proof (get_token_some (pn ++ [0]) tn r H2) as E2. rewrite <- !app_assoc in E2. cbn [app] in E2.
  rewrite E2. cbn [bind]. reflexivity.
Qed.

Lemma tail_loads : forall pre b0 b1 b2 b3 r,
  let mem := pre ++ b0 :: b1 :: b2 :: b3 :: r in let p := zlen pre in
  load mem p = Ok b0 /\ load mem (p + 1) = Ok b1 /\ load mem (p + 2) = Ok b2 /\ load mem (p + 3) = Ok b3.
Proof.
  intros pre b0 b1 b2 b3 r mem p. unfold mem, p. split; [apply load_app|]. repeat split.
  - apply (load_app_at _ _ (pre ++ [b0]) b1 (b2 :: b3 :: r)); [rewrite <- app_assoc; reflexivity|rewrite zlen_app; reflexivity].
  - apply (load_app_at _ _ (pre ++ [b0; b1]) b2 (b3 :: r)); [rewrite <- app_assoc; reflexivity|rewrite zlen_app; reflexivity].
  - apply (load_app_at _ _ (pre ++ [b0; b1; b2]) b3 r); [rewrite <- app_assoc; reflexivity|rewrite zlen_app; reflexivity].
Qed.

(** The tail on a payload with a complete tag. *)
Lemma parse_tail_tag : forall pre b0 b1 b2 b3 tg body pname tname sec nsec pid tid, ~ In 0 tg ->
  let mem := pre ++ [b0; b1; b2; b3] ++ tg ++ 0 :: body in
  let pb := zlen (pre ++ [b0; b1; b2; b3] ++ tg ++ [0]) in
  parse_tail mem pname tname (zlen pre) (zlen ([b0; b1; b2; b3] ++ tg ++ 0 :: body)) sec nsec pid tid
  = let fin m len := Ok (m, mkPEntry sec nsec (Z.land b0 7) pid (InBuf pname) tid (InBuf tname)
                                   (InBuf (zlen pre + 4)) (InBuf pb) len (Z.testbit b0 7)
                                   (Z.lor (Z.lor b1 (Z.shiftl b2 8)) (Z.shiftl b3 16))) in
    if Z.testbit b0 7 then fin mem (zlen body)
    else if zlen body =? 0 then parse_unformatted mem pb 0 sec nsec pid tid
    else
      let* len := strnlen mem pb (Z.to_nat (zlen body)) in
      if len =? zlen body then let* mem' := store mem (pb + zlen body - 1) 0 in fin mem' len
      else fin mem (len + 1).
Proof.
  intros pre b0 b1 b2 b3 tg body pname tname sec nsec pid tid H mem pb. unfold parse_tail.
  assert (L : zlen ([b0; b1; b2; b3] ++ tg ++ 0 :: body) = 4 + zlen (tg ++ 0 :: body)).
  { rewrite zlen_app. reflexivity. }
  rewrite L. pose proof (zlen_nonneg (tg ++ 0 :: body)).
  replace (4 + zlen (tg ++ 0 :: body) <? 4) with false by lia.
  destruct (tail_loads pre b0 b1 b2 b3 (tg ++ 0 :: body)) as (E0 & E1 & E2 & E3).
  change (pre ++ b0 :: b1 :: b2 :: b3 :: tg ++ 0 :: body) with mem in E0, E1, E2, E3.
  rewrite E0, E1, E2, E3. cbn [bind].
  pose proof (get_token_some (pre ++ [b0; b1; b2; b3]) tg body H) as T.
  rewrite <- app_assoc in T.
  change (pre ++ [b0; b1; b2; b3] ++ tg ++ 0 :: body) with mem in T.
  replace (zlen (pre ++ [b0; b1; b2; b3])) with (zlen pre + 4) in T by (rewrite zlen_app; reflexivity).
  replace (4 + zlen (tg ++ 0 :: body) - 4) with (zlen (tg ++ 0 :: body)) by lia.
  rewrite T. cbn [bind]. replace ((pre ++ [b0; b1; b2; b3]) ++ tg ++ [0]) with (pre ++ [b0; b1; b2; b3] ++ tg ++ [0])
    by (rewrite <- app_assoc; reflexivity).
  reflexivity.
Qed.

Lemma parse_tail_good : forall pre rest pname tname pn tn sec nsec pid tid,
  string_at pre (InBuf pname) pn -> string_at pre (InBuf tname) tn ->
  exists mem' e, parse_tail (pre ++ rest) pname tname (zlen pre) (zlen rest) sec nsec pid tid = Ok (mem', e) /\
                 good_parse (pre ++ rest) mem' e sec nsec pid tid.
Proof.
  intros pre rest pname tname pn tn sec nsec pid tid Hp Ht.
  destruct (Z.ltb_spec (zlen rest) 4) as [L|L].
  { unfold parse_tail. replace (zlen rest <? 4) with true by lia. apply unformatted_good. }
  destruct rest as [|b0 [|b1 [|b2 [|b3 rest]]]]; try (exfalso; unfold zlen in L; cbn in L; lia).
  destruct (nul_split rest) as [(tg & body & -> & H)|H].
  - pose proof (parse_tail_tag pre b0 b1 b2 b3 tg body pname tname sec nsec pid tid H) as E. cbv zeta in E.
    cbn [app] in E |- *. rewrite E. clear E.
    set (mem := pre ++ b0 :: b1 :: b2 :: b3 :: tg ++ 0 :: body).
    set (hd := pre ++ b0 :: b1 :: b2 :: b3 :: tg ++ [0]).
    assert (Hm : mem = hd ++ body).
    { unfold mem, hd. rewrite <- app_assoc. cbn [app]. rewrite <- app_assoc. reflexivity. }
    assert (Hn : forall r, string_at (hd ++ r) (InBuf pname) pn /\ string_at (hd ++ r) (InBuf tname) tn /\
                           string_at (hd ++ r) (InBuf (zlen pre + 4)) tg).
    { intros r. unfold hd. rewrite <- !app_assoc. split; [apply string_at_app; exact Hp|].
      split; [apply string_at_app; exact Ht|].
      apply string_at_eq with (pre ++ [b0; b1; b2; b3]) r.
      - exact H.
      - rewrite <- !app_assoc. cbn [app]. rewrite <- app_assoc. reflexivity.
      - rewrite zlen_app. reflexivity. }
    assert (K : forall r len prio bin color, last_cut mem (hd ++ r) ->
      (if bin : bool then len = zlen r else exists m, string_at (hd ++ r) (InBuf (zlen hd)) m /\ len = zlen m + 1) ->
      good_parse mem (hd ++ r) (mkPEntry sec nsec prio pid (InBuf pname) tid (InBuf tname) (InBuf (zlen pre + 4))
                                   (InBuf (zlen hd)) len bin color) sec nsec pid tid).
    { intros r len prio bin color A B. split; [exact A|]. do 4 (split; [reflexivity|]).
      split; [exists pn, tn, tg; apply Hn|]. cbn [pe_bin pe_msg pe_len]. destruct bin; [|exact B].
      exists hd. split; [reflexivity|]. exists r. auto. }
    clearbody mem hd. subst mem.
    destruct (Z.testbit b0 7).
    + do 2 eexists. split; [reflexivity|]. apply K; [left; reflexivity|reflexivity].
    + destruct (zlen body =? 0) eqn:EB.
      { apply Z.eqb_eq in EB. pose proof (unformatted_good sec nsec pid tid hd body) as U. rewrite EB in U. exact U. }
      assert (B0 : zlen body <> 0) by lia. clear EB. rewrite strnlen_zlen. cbn [bind].
      destruct (nul_split body) as [(m & r & -> & Hb)|Hb].
      * rewrite cstr_app_nul by exact Hb. rewrite zlen_app, zlen_cons. pose proof (zlen_nonneg r).
        replace (zlen m =? zlen m + (1 + zlen r)) with false by lia.
        do 2 eexists. split; [reflexivity|]. apply K; [left; reflexivity|].
        exists m. split; [|reflexivity]. apply string_at_buf. exact Hb.
      * rewrite cstr_id by exact Hb. rewrite Z.eqb_refl.
        destruct (exists_last_dec body) as [->|(m & x & ->)]; [exfalso; apply B0; reflexivity|].
        rewrite (store_app_at _ _ 0 (hd ++ m) x []).
        -- cbn [bind]. do 2 eexists. split; [reflexivity|]. rewrite <- app_assoc. apply K.
           ++ right. exists (hd ++ m), x. split; rewrite <- app_assoc; reflexivity.
           ++ exists m. split; [|rewrite zlen_app; reflexivity]. apply string_at_buf.
              rewrite in_app_iff in Hb. tauto.
        -- rewrite <- app_assoc. reflexivity.
        -- rewrite !zlen_app. change (zlen [x]) with 1. lia.
  - unfold parse_tail. replace (zlen (b0 :: b1 :: b2 :: b3 :: rest) <? 4) with false by lia.
    destruct (tail_loads pre b0 b1 b2 b3 rest) as (E0 & E1 & E2 & E3). rewrite E0, E1, E2, E3. cbn [bind].
    pose proof (get_token_none (pre ++ [b0; b1; b2; b3]) rest H) as T. rewrite <- app_assoc in T. cbn [app] in T.
    replace (zlen (pre ++ [b0; b1; b2; b3])) with (zlen pre + 4) in T by (rewrite zlen_app; reflexivity).
    replace (zlen (b0 :: b1 :: b2 :: b3 :: rest) - 4) with (zlen rest) by (rewrite !zlen_cons; lia).
    rewrite T. cbn [bind]. replace (zlen pre + 4 - 4) with (zlen pre) by lia.
    replace (zlen rest + 4) with (zlen (b0 :: b1 :: b2 :: b3 :: rest)) by (rewrite !zlen_cons; lia).
    apply unformatted_good.
Qed.

Lemma parse_payload_good : forall pay sec nsec pid tid, exists mem' e,
  parse_payload pay 0 (zlen pay) sec nsec pid tid = Ok (mem', e) /\ good_parse pay mem' e sec nsec pid tid.
Proof.
  intros pay sec nsec pid tid.
  destruct (nul_split pay) as [(pn & r & -> & H)|H].
  - assert (Hpn : string_at (pn ++ [0]) (InBuf 0) pn).
    { apply string_at_eq with [] []; auto. }
    destruct (Z.eq_dec pid tid) as [->|Hne].
    + rewrite parse_names_same by exact H.
      replace (pn ++ 0 :: r) with ((pn ++ [0]) ++ r) by (rewrite <- app_assoc; reflexivity).
      eapply parse_tail_good; exact Hpn.
    + destruct (nul_split r) as [(tn & r2 & -> & H2)|H2].
      * rewrite parse_names_diff by assumption.
        replace (pn ++ 0 :: tn ++ 0 :: r2) with ((pn ++ [0] ++ tn ++ [0]) ++ r2)
          by lists.
        eapply parse_tail_good.
        -- rewrite app_assoc. apply string_at_app. exact Hpn.
        -- apply string_at_eq with (pn ++ [0]) []; [exact H2|lists|reflexivity].
      * unfold parse_payload.
        pose proof (get_token_some [] pn r H) as E. cbn [app] in E. change (zlen (@nil Z)) with 0 in E.
        rewrite E. cbn [bind]. replace (pid =? tid) with false by lia.
        pose proof (get_token_none (pn ++ [0]) r H2) as E2. rewrite <- app_assoc in E2. cbn [app] in E2.
        rewrite E2. cbn [bind]. replace (pn ++ 0 :: r) with ((pn ++ [0]) ++ r) by (rewrite <- app_assoc; reflexivity).
        apply unformatted_good.
  - unfold parse_payload. pose proof (get_token_none [] pay H) as E. cbn [app] in E.
    change (zlen (@nil Z)) with 0 in E. rewrite E. cbn [bind].
    exact (unformatted_good sec nsec pid tid [] pay).
Qed.

(** ** The priority word *)

Lemma lor_shift : forall a b n, 0 <= n -> 0 <= a < 2 ^ n -> Z.lor a (Z.shiftl b n) = a + b * 2 ^ n.
Proof.
  intros a b n Hn Ha.
  assert (E : Z.land a (Z.shiftl b n) = 0).
  { apply Z.bits_inj'. intros k Hk. rewrite Z.land_spec, Z.bits_0.
    destruct (Z.ltb_spec k n).
    - rewrite (Z.shiftl_spec_low b n k) by lia. apply andb_false_r.
    - assert (Z.testbit a k = false) as ->; [|reflexivity].
      destruct (Z.eq_dec a 0) as [->|]; [apply Z.bits_0|].
      apply Z.bits_above_log2; [lia|]. assert (Z.log2 a < n) by (apply Z.log2_lt_pow2; lia). lia. }
  rewrite <- Z.lxor_lor by exact E. rewrite <- Z.add_nocarry_lxor by exact E.
  rewrite Z.shiftl_mul_pow2 by lia. reflexivity.
Qed.

Lemma level_byte : forall p, Z.land (p mod 256) 7 = level_of p.
Proof.
  intros p. change 7 with (Z.ones 3). rewrite Z.land_ones by lia. change (2 ^ 3) with 8. unfold level_of.
  symmetry. apply Zmod_div_mod; [lia|lia|exists 32; reflexivity].
Qed.

Lemma binary_byte : forall p, Z.testbit (p mod 256) 7 = binary_of p.
Proof.
  intros p. change 256 with (2 ^ 8). rewrite Z.mod_pow2_bits_low by lia.
  rewrite Z.testbit_eqb by lia. reflexivity.
Qed.

Lemma color_bytes : forall p, uint32 p ->
  Z.lor (Z.lor (p / 256 mod 256) (Z.shiftl (p / 256 / 256 mod 256) 8)) (Z.shiftl (p / 256 / 256 / 256 mod 256) 16) = color_of p.
Proof.
  intros p H. unfold uint32 in H. change (2 ^ 32) with 4294967296 in H. unfold color_of.
  assert (0 <= p / 256 < 16777216) as Hq by (split; [apply Z.div_pos; lia|apply Z.div_lt_upper_bound; lia]).
  generalize dependent (p / 256). intros q Hq.
  rewrite !Z.div_div by lia.
  assert (B : forall x, 0 <= x mod 256 < 256) by (intros; apply Z.mod_pos_bound; lia).
  pose proof (B q). pose proof (B (q / 256)). pose proof (B (q / (256 * 256))).
  rewrite (lor_shift (q mod 256) _ 8) by (change (2 ^ 8) with 256; lia).
  change (2 ^ 8) with 256.
  rewrite lor_shift by (change (2 ^ 16) with 65536; lia). change (2 ^ 16) with 65536. change (256 * 256) with 65536.
  rewrite (Z.mod_small (q / 65536)) by (split; [apply Z.div_pos; lia|apply Z.div_lt_upper_bound; lia]).
  pose proof (Z.div_mod q 256 ltac:(lia)). pose proof (Z.div_mod (q / 256) 256 ltac:(lia)) as D.
  rewrite Z.div_div in D by lia. change (256 * 256) with 65536 in D. lia.
Qed.

(** ** Round trip of a well formed payload *)

Definition payload (pid tid : Z) (pn tn : list Z) (prio : Z) (tg body : list Z) : list Z :=
  pn ++ [0] ++ (if pid =? tid then [] else tn ++ [0]) ++ le 4 prio ++ tg ++ [0] ++ body.

(** The message a viewer gets from a body: up to the first NUL, or without the last byte if there
    is none. *)
Definition body_message (bin : bool) (body msg : list Z) : Prop :=
  if bin then body = msg
  else ~ In 0 msg /\ ((exists r, body = msg ++ 0 :: r) \/ (exists x, x <> 0 /\ body = msg ++ [x])).

Lemma payload_shows : forall sec nsec pid tid pn tn prio tg body msg,
  ~ In 0 pn -> ~ In 0 tn -> ~ In 0 tg -> uint32 prio ->
  body_message (binary_of prio) body msg ->
  let pay := payload pid tid pn tn prio tg body in
  exists mem e, parse_payload pay 0 (zlen pay) sec nsec pid tid = Ok (mem, e) /\ zlen mem = zlen pay /\
    shows mem e (mkView sec nsec pid tid (level_of prio) (color_of prio) (binary_of prio)
                        pn (if pid =? tid then pn else tn) tg msg).
Proof.
  intros sec nsec pid tid pn tn prio tg body msg Hpn Htn Htg Hprio Hmsg pay.
  set (b0 := prio mod 256). set (b1 := prio / 256 mod 256). set (b2 := prio / 256 / 256 mod 256).
  set (b3 := prio / 256 / 256 / 256 mod 256).
  set (names := if pid =? tid then pn ++ [0] else pn ++ [0] ++ tn ++ [0]).
  set (tnoff := if pid =? tid then 0 else zlen (pn ++ [0])).
  assert (Hpay : pay = names ++ [b0; b1; b2; b3] ++ tg ++ 0 :: body).
  { unfold pay, payload, names. cbn [le]. fold b0 b1 b2 b3. destruct (pid =? tid); lists. }
  assert (HP : parse_payload pay 0 (zlen pay) sec nsec pid tid
    = parse_tail pay 0 tnoff (zlen names) (zlen ([b0; b1; b2; b3] ++ tg ++ 0 :: body)) sec nsec pid tid).
  { rewrite Hpay. unfold names, tnoff. destruct (Z.eqb_spec pid tid) as [->|Hne].
    - pose proof (parse_names_same pn ([b0; b1; b2; b3] ++ tg ++ 0 :: body) sec nsec tid Hpn) as E.
      rewrite <- app_assoc. cbn [app] in E |- *. exact E.
    - pose proof (parse_names_diff pn tn ([b0; b1; b2; b3] ++ tg ++ 0 :: body) sec nsec pid tid Hpn Htn Hne) as E.
      replace ((pn ++ [0] ++ tn ++ [0]) ++ [b0; b1; b2; b3] ++ tg ++ 0 :: body)
        with (pn ++ 0 :: tn ++ 0 :: [b0; b1; b2; b3] ++ tg ++ 0 :: body) by lists. exact E. }
  assert (HN : string_at names (InBuf 0) pn /\ string_at names (InBuf tnoff) (if pid =? tid then pn else tn)).
  { unfold names, tnoff. destruct (pid =? tid); split.
    - apply string_at_eq with [] []; auto.
    - apply string_at_eq with [] []; auto.
    - apply string_at_eq with [] (tn ++ [0]); auto.
    - apply string_at_eq with (pn ++ [0]) []; [exact Htn|lists|reflexivity]. }
  rewrite HP. clear HP. clearbody pay. rewrite Hpay. rewrite parse_tail_tag by exact Htg. cbv zeta.
  rewrite <- Hpay. set (hd := names ++ [b0; b1; b2; b3] ++ tg ++ [0]).
  assert (Hm : pay = hd ++ body) by (rewrite Hpay; unfold hd; lists).
  assert (Hs : forall r, string_at (hd ++ r) (InBuf 0) pn /\
     string_at (hd ++ r) (InBuf tnoff) (if pid =? tid then pn else tn) /\ string_at (hd ++ r) (InBuf (zlen names + 4)) tg).
  { intros r. unfold hd. rewrite <- app_assoc. split; [apply string_at_app, HN|]. split; [apply string_at_app, HN|].
    apply string_at_eq with (names ++ [b0; b1; b2; b3]) r; [exact Htg|lists|rewrite zlen_app; reflexivity]. }
  assert (K : forall r len, zlen r = zlen body ->
    (if binary_of prio then bytes_at (hd ++ r) (InBuf (zlen hd)) msg /\ len = zlen msg
     else string_at (hd ++ r) (InBuf (zlen hd)) msg /\ len = zlen msg + 1) ->
    exists mem e, Ok (hd ++ r, mkPEntry sec nsec (Z.land b0 7) pid (InBuf 0) tid (InBuf tnoff) (InBuf (zlen names + 4))
       (InBuf (zlen hd)) len (Z.testbit b0 7) (Z.lor (Z.lor b1 (Z.shiftl b2 8)) (Z.shiftl b3 16))) = Ok (mem, e) /\
       zlen mem = zlen pay /\
       shows mem e (mkView sec nsec pid tid (level_of prio) (color_of prio) (binary_of prio)
                        pn (if pid =? tid then pn else tn) tg msg)).
  { intros r len Hr HL. do 2 eexists. split; [reflexivity|]. split; [rewrite Hm, !zlen_app; lia|].
    unfold shows. cbn [pe_sec pe_nsec pe_pid pe_tid pe_prio pe_color pe_bin pe_pname pe_tname pe_tag pe_msg pe_len
      v_sec v_nsec v_pid v_tid v_level v_color v_binary v_pname v_tname v_tag v_message].
    do 4 (split; [reflexivity|]). split; [apply level_byte|]. split; [apply color_bytes; exact Hprio|].
    split; [apply binary_byte|]. destruct (Hs r) as (A & B & C). split; [exact A|]. split; [exact B|]. split; [exact C|exact HL]. }
  unfold b0 at 1. rewrite binary_byte. unfold body_message in Hmsg. rewrite Hm in K |- *.
  destruct (binary_of prio).
  - subst msg. apply K; [reflexivity|]. split; [|reflexivity]. exists (zlen hd), hd, []. rewrite app_nil_r. auto.
  - destruct Hmsg as (H0 & [(r & Hb)|(x & Hx & Hb)]).
    + replace (zlen body =? 0) with false
        by (rewrite Hb, zlen_app, zlen_cons; pose proof (zlen_nonneg r); pose proof (zlen_nonneg msg); lia).
      rewrite strnlen_zlen. cbn [bind].
      assert (cstr body = msg) as -> by (rewrite Hb; apply cstr_app_nul; exact H0).
      replace (zlen msg =? zlen body) with false
        by (rewrite Hb, zlen_app, zlen_cons; pose proof (zlen_nonneg r); lia).
      apply K; [reflexivity|]. split; [|reflexivity]. rewrite Hb. apply string_at_buf. exact H0.
    + assert (Hb0 : ~ In 0 body) by (rewrite Hb, in_app_iff; cbn; intuition congruence).
      replace (zlen body =? 0) with false
        by (rewrite Hb, zlen_app; change (zlen [x]) with 1; pose proof (zlen_nonneg msg); lia).
      rewrite strnlen_zlen. cbn [bind]. rewrite cstr_id by exact Hb0. rewrite Z.eqb_refl.
      rewrite (store_app_at _ _ 0 (hd ++ msg) x []).
      * cbn [bind]. rewrite <- app_assoc. apply K.
        -- rewrite Hb, !zlen_app. reflexivity.
        -- split; [apply string_at_buf; exact H0|]. rewrite Hb, zlen_app. reflexivity.
      * rewrite Hb. lists.
      * rewrite Hb, !zlen_app. change (zlen [x]) with 1. lia.
Qed.

(** ** Whole buffers *)

Lemma string_at_shift : forall pre mem post q s, string_at mem q s ->
  string_at (pre ++ mem ++ post) (shift_ptr (zlen pre) q) s.
Proof.
  intros pre mem post q s (H & K). split; [exact H|]. destruct q as [off|c]; [|exact K].
  destruct K as (a & b & -> & <-). exists (pre ++ a), (b ++ post). split; [lists|apply zlen_app].
Qed.

Lemma bytes_at_shift : forall pre mem post q s, bytes_at mem q s ->
  bytes_at (pre ++ mem ++ post) (shift_ptr (zlen pre) q) s.
Proof.
  intros pre mem post q s (off & a & b & -> & -> & <-). exists (zlen pre + zlen a), (pre ++ a), (b ++ post).
  split; [reflexivity|]. split; [lists|apply zlen_app].
Qed.

Lemma shows_shift : forall pre mem post e v, shows mem e v -> shows (pre ++ mem ++ post) (shift_entry (zlen pre) e) v.
Proof.
  intros pre mem post e v (H1 & H2 & H3 & H4 & H5 & H6 & H7 & H8 & H9 & H10 & H11).
  unfold shows. cbn [shift_entry pe_sec pe_nsec pe_pid pe_tid pe_prio pe_color pe_bin pe_pname pe_tname pe_tag pe_msg pe_len].
  do 7 (split; [assumption|]). do 3 (split; [apply string_at_shift; assumption|]).
  destruct (v_binary v); destruct H11 as (A & B); (split; [|exact B]);
    [apply bytes_at_shift|apply string_at_shift]; exact A.
Qed.

Lemma parse_at_eq : forall pre pay post sec nsec pid tid mem' e,
  parse_payload pay 0 (zlen pay) sec nsec pid tid = Ok (mem', e) -> zlen mem' = zlen pay ->
  parse_at (pre ++ pay ++ post) (zlen pre) (zlen pay) sec nsec pid tid
  = Ok (pre ++ mem' ++ post, shift_entry (zlen pre) e).
Proof.
  intros pre pay post sec nsec pid tid mem' e E L. unfold parse_at.
  pose proof (zlen_nonneg pre). pose proof (zlen_nonneg pay). pose proof (zlen_nonneg post).
  rewrite mem_read_ok by (rewrite ?zlen_app; lia). cbn [bind].
  assert (Hs : zsub (zlen pre) (zlen pay) (pre ++ pay ++ post) = pay).
  { unfold zsub. rewrite zdrop_app_exact by reflexivity. apply ztake_app_exact. reflexivity. }
  rewrite Hs, E. cbn [bind]. rewrite mem_write_ok by (rewrite ?zlen_app; lia). cbn [bind].
  rewrite ztake_app_exact by reflexivity.
  replace (pre ++ pay ++ post) with ((pre ++ pay) ++ post) by lists.
  rewrite zdrop_app_exact by (rewrite zlen_app; lia). reflexivity.
Qed.

Lemma last_cut_len : forall a b, last_cut a b -> zlen b = zlen a.
Proof. intros a b [->|(s & x & -> & ->)]; [reflexivity|]. rewrite !zlen_app. reflexivity. Qed.

Lemma split_at3 : forall (buf : list Z) off n, 0 <= off -> 0 <= n -> off + n <= zlen buf ->
  exists pre pay post, buf = pre ++ pay ++ post /\ zlen pre = off /\ zlen pay = n /\ pay = zsub off n buf.
Proof.
  intros buf off n H1 H2 H3. exists (ztake off buf), (zsub off n buf), (zdrop (off + n) buf).
  split.
  - unfold zsub. rewrite <- (zdrop_zdrop n off) by lia. rewrite !ztake_zdrop. reflexivity.
  - rewrite zlen_ztake, zlen_zsub. split; [lia|]. split; [lia|reflexivity].
Qed.

Lemma parse_at_good : forall buf off n sec nsec pid tid, 0 <= off -> 0 <= n -> off + n <= zlen buf ->
  exists pre pay post pay' e, buf = pre ++ pay ++ post /\ zlen pre = off /\ zlen pay = n /\
    parse_at buf off n sec nsec pid tid = Ok (pre ++ pay' ++ post, shift_entry off e) /\
    good_parse pay pay' e sec nsec pid tid.
Proof.
  intros buf off n sec nsec pid tid H1 H2 H3.
  destruct (split_at3 buf off n H1 H2 H3) as (pre & pay & post & E & L1 & L2 & _).
  destruct (parse_payload_good pay sec nsec pid tid) as (mem' & e & P & G).
  exists pre, pay, post, mem', e. split; [exact E|]. split; [exact L1|]. split; [exact L2|]. split; [|exact G].
  subst buf. subst off. subst n. apply parse_at_eq; [exact P|]. apply last_cut_len, G.
Qed.

Definition is_byte (b : Z) : Prop := 0 <= b < 256.

Lemma of_le_bound : forall l, Forall is_byte l -> 0 <= of_le l < 256 ^ zlen l.
Proof.
  induction l as [|b l IH]; intros H; [cbn; lia|]. inversion_clear H as [|? ? Hb Hl]. specialize (IH Hl).
  rewrite zlen_cons. cbn [of_le]. unfold is_byte in Hb. pose proof (zlen_nonneg l).
  rewrite Z.pow_add_r by lia. change (256 ^ 1) with 256. nia.
Qed.

Lemma Forall_zsub : forall (P : Z -> Prop) off n l, Forall P l -> Forall P (zsub off n l).
Proof.
  intros P off n l H. rewrite Forall_forall in *. intros x Hx. apply H.
  unfold zsub, ztake, zdrop in Hx.
  rewrite <- (firstn_skipn (Z.to_nat off) l), in_app_iff. right.
  rewrite <- (firstn_skipn (Z.to_nat n) (skipn (Z.to_nat off) l)), in_app_iff. left. exact Hx.
Qed.

Lemma zsub_zsub_head : forall (buf : list Z) off n, 0 <= off -> 0 <= n -> off + n <= 24 ->
  zsub off n (zsub 0 24 buf) = zsub off n buf.
Proof.
  intros buf off n H1 H2 H3. unfold zsub. rewrite zdrop_0. unfold ztake, zdrop.
  rewrite skipn_firstn_comm. rewrite firstn_firstn. f_equal. lia.
Qed.

Lemma raw_cases : forall buf, Forall is_byte buf ->
  (24 <= zlen buf /\ zlen buf = hdr_size buf + hdr_len buf /\
   ulog_parse_raw buf = (let* (buf', e) := parse_at buf (hdr_size buf) (hdr_len buf) (hdr_sec buf) (hdr_nsec buf)
                             (hdr_pid buf) (hdr_tid buf) in Ok (buf', Some e)))
  \/ (~ (24 <= zlen buf /\ zlen buf = hdr_size buf + hdr_len buf) /\ ulog_parse_raw buf = Ok (buf, None)).
Proof.
  intros buf HB. unfold ulog_parse_raw.
  destruct (Z.ltb_spec (zlen buf) 24) as [L|L]; [right; split; [lia|reflexivity]|].
  rewrite mem_read_ok by lia. cbn [bind].
  unfold hdr_size, hdr_len, hdr_sec, hdr_nsec, hdr_pid, hdr_tid. rewrite !zsub_zsub_head by lia.
  fold (hdr_size buf) (hdr_len buf).
  assert (0 <= hdr_len buf) by (apply of_le_bound, Forall_zsub, HB).
  destruct (Z.ltb_spec (zlen buf) (hdr_size buf)); [right; split; [lia|reflexivity]|].
  destruct (Z.eqb_spec (hdr_len buf) (zlen buf - hdr_size buf)) as [E|E]; cbn [negb].
  - left. split; [exact L|]. split; [lia|reflexivity].
  - right. split; [lia|reflexivity].
Qed.

Lemma buf_eq : forall buf, 24 <= zlen buf -> ulog_parse_buf buf =
  parse_at buf (hdr_size buf) (hdr_len buf) (hdr_sec buf) (hdr_nsec buf) (hdr_pid buf) (hdr_tid buf).
Proof.
  intros buf L. unfold ulog_parse_buf. rewrite mem_read_ok by lia. cbn [bind].
  unfold hdr_size, hdr_len, hdr_sec, hdr_nsec, hdr_pid, hdr_tid. rewrite !zsub_zsub_head by lia. reflexivity.
Qed.

Lemma s32_id : forall x, int32 x -> s32 x = x.
Proof.
  intros x H. unfold int32 in H. change (2 ^ 31) with 2147483648 in H. unfold s32.
  destruct (Z.ltb_spec x 0).
  - assert (x mod 4294967296 = x + 4294967296) as ->.
    { symmetry. apply Z.mod_unique with (-1); lia. }
    destruct (Z.ltb_spec (x + 4294967296) 2147483648); lia.
  - rewrite Z.mod_small by lia. destruct (Z.ltb_spec x 2147483648); lia.
Qed.

Lemma s32_le4 : forall x, int32 x -> s32 (of_le (le 4 x)) = x.
Proof.
  intros x H. rewrite of_le_le. change (256 ^ Z.of_nat 4) with 4294967296.
  rewrite <- (s32_id x H) at 2. unfold s32. rewrite Z.mod_mod by lia. reflexivity.
Qed.

Definition meta (pid tid sec nsec euid : Z) : list Z := le 4 pid ++ le 4 tid ++ le 4 sec ++ le 4 nsec ++ le 4 euid.

Lemma hdr_fields : forall n pid tid sec nsec euid pay, 0 <= n < 65536 ->
  int32 pid -> int32 tid -> int32 sec -> int32 nsec ->
  let buf := le 2 n ++ le 2 24 ++ meta pid tid sec nsec euid ++ pay in
  hdr_len buf = n /\ hdr_size buf = 24 /\ hdr_pid buf = pid /\ hdr_tid buf = tid /\ hdr_sec buf = sec /\ hdr_nsec buf = nsec.
Proof.
  intros n pid tid sec nsec euid pay Hn Hp Ht Hs Hns buf.
  assert (E : forall a b c k m, buf = a ++ b ++ c -> zlen a = k -> zlen b = m -> zsub k m buf = b).
  { intros a b c k m -> <- <-. unfold zsub. rewrite zdrop_app_exact by reflexivity. apply ztake_app_exact. reflexivity. }
  unfold hdr_len, hdr_size, hdr_pid, hdr_tid, hdr_sec, hdr_nsec. unfold buf, meta in *.
  rewrite (E [] (le 2 n) (le 2 24 ++ meta pid tid sec nsec euid ++ pay) 0 2) by (unfold meta; lists).
  rewrite (E (le 2 n) (le 2 24) (meta pid tid sec nsec euid ++ pay) 2 2) by (unfold meta; lists).
  rewrite (E (le 2 n ++ le 2 24) (le 4 pid) (le 4 tid ++ le 4 sec ++ le 4 nsec ++ le 4 euid ++ pay) 4 4) by lists.
  rewrite (E (le 2 n ++ le 2 24 ++ le 4 pid) (le 4 tid) (le 4 sec ++ le 4 nsec ++ le 4 euid ++ pay) 8 4) by lists.
  rewrite (E (le 2 n ++ le 2 24 ++ le 4 pid ++ le 4 tid) (le 4 sec) (le 4 nsec ++ le 4 euid ++ pay) 12 4) by lists.
  rewrite (E (le 2 n ++ le 2 24 ++ le 4 pid ++ le 4 tid ++ le 4 sec) (le 4 nsec) (le 4 euid ++ pay) 16 4) by lists.
  rewrite !s32_le4 by assumption. rewrite of_le_le. change (256 ^ Z.of_nat 2) with 65536.
  rewrite Z.mod_small by lia. repeat split.
Qed.

Lemma enc_parsed : forall pid tid sec nsec euid pay v,
  int32 pid -> int32 tid -> int32 sec -> int32 nsec -> zlen pay < 65536 ->
  (exists mem e, parse_payload pay 0 (zlen pay) sec nsec pid tid = Ok (mem, e) /\ zlen mem = zlen pay /\ shows mem e v) ->
  parsed_as (enc 2 (mkEntry (meta pid tid sec nsec euid) pay)) v.
Proof.
  intros pid tid sec nsec euid pay v Hp Ht Hs Hns HL (mem & e & P & L & S).
  unfold enc. cbn [e_meta e_payload]. change (2 <? 2) with false. cbn iota.
  pose proof (zlen_nonneg pay).
  destruct (hdr_fields (zlen pay) pid tid sec nsec euid pay ltac:(lia) Hp Ht Hs Hns) as (E1 & E2 & E3 & E4 & E5 & E6).
  set (hd := le 2 (zlen pay) ++ le 2 24 ++ meta pid tid sec nsec euid).
  assert (Hb : le 2 (zlen pay) ++ le 2 24 ++ meta pid tid sec nsec euid ++ pay = hd ++ pay ++ []) by (rewrite app_nil_r; unfold hd; lists).
  assert (Hh : zlen hd = 24) by reflexivity.
  assert (Hl : zlen (hd ++ pay ++ []) = 24 + zlen pay) by (rewrite !zlen_app, Hh; change (zlen (@nil Z)) with 0; lia).
  rewrite Hb in *.
  exists (hd ++ mem ++ []), (shift_entry 24 e). split.
  - unfold ulog_parse_raw. rewrite Hl. destruct (Z.ltb_spec (24 + zlen pay) 24); [lia|].
    rewrite mem_read_ok by lia. cbn [bind].
    unfold hdr_size, hdr_len, hdr_sec, hdr_nsec, hdr_pid, hdr_tid in *. rewrite !zsub_zsub_head by lia.
    rewrite E1, E2, E3, E4, E5, E6. destruct (Z.ltb_spec (24 + zlen pay) 24); [lia|].
    replace (zlen pay =? 24 + zlen pay - 24) with true by lia. cbn [negb].
    rewrite <- Hh at 1. rewrite (parse_at_eq hd pay [] sec nsec pid tid mem e P L). cbn [bind]. rewrite Hh. reflexivity.
  - split; [rewrite Hl, !zlen_app, Hh, L; change (zlen (@nil Z)) with 0; lia|].
    rewrite <- Hh. apply shows_shift. exact S.
Qed.
