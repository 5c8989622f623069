(** The tag registry: properties C29 to C34 and C60.

    [reaches cf s tr]: some schedule of any number of threads making any calls leads to the
    memory [s], with the trace of events [tr]. *)
From Coq Require Import ZArith String List Bool Lia ZifyBool ZifyNat Arith.
From Verif Require Import Bytes BytesProofs Parse Cookies CookiesSpec CookiesProofs CookiesLive.
Import ListNotations.
Open Scope Z_scope.

(** ** Facts about single events *)
Lemma inits_mono : forall a b c, In c (inits a) -> In c (inits (a ++ b)).
Proof. intros a b c H. rewrite inits_app. apply in_app_iff. left. exact H. Qed.

Lemma single : forall (e1 e2 : list event) x y, e1 ++ x :: e2 = [y] -> e1 = [] /\ x = y /\ e2 = [].
Proof. intros [|a e1] e2 x y H; [inversion H; auto|]. inversion H. destruct e1; discriminate. Qed.
Lemma pair_of : forall (e1 e2 : list event) x y z, e1 ++ x :: e2 = [y; z] -> (e1 = [] /\ x = y /\ e2 = [z]) \/ (e1 = [y] /\ x = z /\ e2 = []).
Proof.
  intros [|a e1] e2 x y z H; [inversion H; auto|]. inversion H. destruct (single _ _ _ _ H2) as (-> & -> & ->). right. auto.
Qed.
Lemma none_of : forall (e1 e2 : list event) x, e1 ++ x :: e2 = [] -> False.
Proof. intros [|a e1] e2 x H; discriminate. Qed.

(** Every event other than those of a call's end has a precise origin. *)
Ltac origin H :=
  unfold step, after in H;
  repeat match type of H with
  | context [match ?x with _ => _ end] => let E := fresh "Q" in destruct x eqn:E
  end;
  match type of H with (?a, ?b) = (?c, ?d) => assert (d = b) by congruence; clear H end;
  match goal with
  | E : _ = [] |- _ => apply none_of in E; destruct E
  | E : _ = [_] |- _ => apply single in E; destruct E as (-> & E & ->); try discriminate E
  | E : _ = [_; _] |- _ => apply pair_of in E; destruct E as [(-> & E & ->)|(-> & E & ->)]; try discriminate E
  end.

Lemma ev_uses : forall cf s tr1 x tr2 c, reaches cf s (tr1 ++ x :: tr2) -> uses c x -> In c (inits tr1).
Proof.
  intros cf s tr1 x tr2 c R U. destruct (event_step cf s tr1 x tr2 R) as (s1 & tr & t & o & s2 & e1 & e2 & R1 & H & ->).
  pose proof (reaches_inv cf s1 tr R1) as I. pose proof (i_pc _ _ _ I t) as P. apply inits_mono.
  origin H; inversion H0; subst x; cbn in U; try contradiction; subst;
    (destruct P as [?|(tra & o' & trb & E & _ & C)]; [discriminate|]); cbn [cond] in C; rewrite <- E in C; tauto.
Qed.

Lemma ev_log : forall cf s tr1 t c prio b tr2, reaches cf s (tr1 ++ EvLog t c prio b :: tr2) ->
  b = (Z.land prio 7 <=? trace_level c tr1) /\ 0 <= trace_level c tr1 <= 7.
Proof.
  intros cf s tr1 t c prio b tr2 R. pose proof (ev_uses cf s tr1 _ tr2 c R eq_refl) as U.
  destruct (event_step cf s _ _ _ R) as (s1 & tr & t0 & o & s2 & e1 & e2 & R1 & H & ->).
  pose proof (reaches_inv cf s1 tr R1) as I.
  origin H. inversion H0. subst. rewrite app_nil_r in *. rewrite <- (i_level _ _ _ I). split; [reflexivity|].
  apply (i_in _ _ _ I). exact U.
Qed.

Lemma ev_get : forall cf s tr1 t c v tr2, reaches cf s (tr1 ++ EvGet t c v :: tr2) -> v = trace_level c tr1.
Proof.
  intros cf s tr1 t c v tr2 R. destruct (event_step cf s _ _ _ R) as (s1 & tr & t0 & o & s2 & e1 & e2 & R1 & H & ->).
  pose proof (reaches_inv cf s1 tr R1) as I. origin H. inversion H0. subst. rewrite app_nil_r. apply (i_level _ _ _ I).
Qed.

Lemma split_app : forall (x y : list event) a b, x ++ y = a ++ b -> (exists m, x = a ++ m /\ b = m ++ y) \/ (exists m, a = x ++ m /\ y = m ++ b).
Proof. intros x y a b H. apply app_eq_app in H. destruct H as (l & [(A & B)|(A & B)]); [left|right]; exists l; auto. Qed.

(** Two positions of the last call of a thread are the same. *)
Lemma last_call_unique : forall t tr1 o tr2 tr1' o' tr2', tr1 ++ EvCall t o :: tr2 = tr1' ++ EvCall t o' :: tr2' ->
  no_call t tr2 -> no_call t tr2' -> tr1 = tr1' /\ o = o' /\ tr2 = tr2'.
Proof.
  intros t tr1. induction tr1 as [|x tr1 IH]; intros o tr2 [|y tr1'] o' tr2' H N N'; cbn in H.
  - inversion H. auto.
  - inversion H. subst. exfalso. apply (N o'). apply in_app_iff. right. left. reflexivity.
  - inversion H. subst. exfalso. apply (N' o). apply in_app_iff. right. left. reflexivity.
  - inversion H as [[A B]]. destruct (IH _ _ _ _ _ B N N') as (-> & -> & ->). auto.
Qed.

(** ** C29 *)

(** The list in memory is well formed and without repetition, and holds every tag whose use has
    completed. *)
Theorem C29_registered_once : forall cf s tr, reaches cf s tr ->
  exists l, tag_list s l /\ NoDup l /\ (forall x c, In x tr -> uses c x -> In c l).
Proof.
  intros cf s tr R. pose proof (reaches_inv cf s tr R) as I. exists (pend s ++ rev (inits tr)).
  split; [apply (i_chain _ _ _ I)|]. split.
  - assert (N : NoDup (rev (inits tr))) by (apply NoDup_rev; apply (i_nodup _ _ _ I)).
    unfold pend. destruct (s_lock s) as [t|]; [|exact N]. pose proof (i_pc _ _ _ I t) as P.
    destruct (s_th s t); try exact N. destruct P as [?|(tr1 & o & tr2 & E & _ & C)]; [discriminate|]. cbn [cond] in C.
    rewrite <- E in C. constructor; [rewrite <- in_rev; tauto|exact N].
  - intros x c Hin U. apply in_app_iff. right. rewrite <- in_rev. apply in_split in Hin. destruct Hin as (a & b & ->).
    apply inits_mono. apply (ev_uses cf s a x b); assumption.
Qed.

(** A tag is initialised and its hook called at most once; its level is -1 before and valid
    afterwards. *)
Theorem C29_initialised_once : forall cf s tr, reaches cf s tr ->
  NoDup (inits tr) /\ (forall c, (hooks c tr <= 1)%nat) /\ (forall c, (0 < hooks c tr)%nat -> In c (inits tr)) /\
  (forall c, ~ In c (inits tr) -> s_level s c = -1) /\ (forall c, In c (inits tr) -> 0 <= s_level s c <= 7).
Proof.
  intros cf s tr R. pose proof (reaches_inv cf s tr R) as I. repeat split; intros; apply I; assumption.
Qed.

(** When no thread is in the critical section the list is exactly the tags initialised, the most
    recent first. *)
Theorem C29_list_is_history : forall cf s tr, reaches cf s tr -> s_lock s = None -> tag_list s (rev (inits tr)).
Proof.
  intros cf s tr R L. pose proof (i_chain _ _ _ (reaches_inv cf s tr R)) as H. unfold pend in H. rewrite L in H. exact H.
Qed.

(** ** Example: two threads log concurrently with tag 1, one of them then changes the level *)
Definition ex_cf : cfg := mkCfg (fun c => match c with O => [] | 1%nat => bytes_of_string "net" | _ => bytes_of_string "gps" end)
  (fun v => if bytes_eqb v (bytes_of_string "ULOG_LEVEL_net") then Some (bytes_of_string "W")
            else if bytes_eqb v (bytes_of_string "ULOG_LEVEL") then Some (bytes_of_string "D") else None).
(** Thread 7 registers the hook 9; threads 1 and 2 both find tag 1 unset, then both go on;
    thread 3 uses tag 2; thread 1 sets the level of tag 1 by name. *)
Definition th (t : nat) (o : call) : nat * call := (t, o).
Definition ex_sched : list (nat * call) :=
  repeat (th 7 (CHook 9)) 4 ++
  [(th 1 (CLog 1 4)); (th 2 (CLog 1 5)); (th 1 (CLog 1 4)); (th 2 (CLog 1 5)); (th 1 (CLog 1 4)); (th 2 (CLog 1 5))] ++
  repeat (th 1 (CLog 1 4)) 8 ++ repeat (th 2 (CLog 1 5)) 5 ++ repeat (th 3 (CGet 2)) 12 ++
  repeat (th 1 (CLog 1 4)) 1 ++ repeat (th 1 (CSetTag (bytes_of_string "net") 9)) 9 ++
  repeat (th 2 (CLog 1 7)) 3 ++ repeat (th 3 CForeach) 7 ++ repeat (th 3 (CNames 1)) 6.
Definition ex_trace : list event := snd (run ex_cf init ex_sched).
Definition ex_final : state := fst (run ex_cf init ex_sched).
Lemma ex_reaches : reaches ex_cf ex_final ex_trace.
Proof. exists ex_sched. unfold ex_final, ex_trace. destruct (run ex_cf init ex_sched). reflexivity. Qed.
Definition is_end (e : event) : bool := match e with EvCall _ _ => false | _ => true end.
Example C29_ex : filter is_end ex_trace =
  [EvHooked 7; EvInit 1 1 4; EvRunHook 9 1; EvLog 2 1 5 false; EvInit 3 2 7; EvRunHook 9 2; EvGet 3 2 7; EvLog 1 1 4 true;
   EvSet 1 1 9; EvTag 1 (bytes_of_string "net") 0; EvLog 2 1 7 true; EvVisit 3 2; EvVisit 3 1; EvForeach 3;
   EvNames 3 1 [bytes_of_string "gps"]].
Proof. vm_compute. reflexivity. Qed.
Example C29_ex_list : s_lock ex_final = None /\ inits ex_trace = [1; 2]%nat /\ tag_list ex_final [2; 1]%nat.
Proof. vm_compute. repeat split. Qed.

(** ** C30 *)

Lemma last_set : forall c tr2 v, ~ In c (inits tr2) -> (forall t' r, ~ In (EvSet t' c r) tr2) -> fold_left (level_event c) tr2 v = v.
Proof.
  intros c. induction tr2 as [|e tr2 IH]; intros v Ni N; [reflexivity|]. cbn [fold_left].
  assert (level_event c v e = v) as ->.
  { destruct e; cbn [level_event]; try reflexivity; destruct (Nat.eqb_spec c0 c) as [->|]; try reflexivity; exfalso.
    - apply Ni. left. reflexivity.
    - apply (N t req). left. reflexivity. }
  apply IH.
  - intros Hi. apply Ni. destruct e; cbn [inits]; try exact Hi. right. exact Hi.
  - intros t' r Hi. apply (N t' r). right. exact Hi.
Qed.

(** After ulog_set_level (or ulog_set_tag_level) assigned a level, that level stays, whatever
    initialisations run, until the next assignment. *)
Theorem C30_set_level_not_lost : forall cf s tr1 t c req tr2, reaches cf s (tr1 ++ EvSet t c req :: tr2) ->
  (forall t' r, ~ In (EvSet t' c r) tr2) -> s_level s c = Z.max 0 (Z.min 7 req).
Proof.
  intros cf s tr1 t c req tr2 R N. pose proof (reaches_inv _ _ _ R) as I. rewrite (i_level _ _ _ I), trace_level_app.
  cbn [fold_left level_event]. rewrite Nat.eqb_refl. apply last_set; [|exact N].
  pose proof (ev_uses cf s tr1 _ tr2 c R eq_refl) as U. pose proof (i_nodup _ _ _ I) as D. rewrite inits_app in D. cbn [inits] in D.
  intros Hi. clear -U D Hi. induction (inits tr1) as [|x l IH]; [destruct U|]. cbn [app] in D. inversion D. subst.
  destruct U as [->|U]; [apply H1; apply in_app_iff; right; exact Hi|apply IH; assumption].
Qed.

(** ulog_get_level returns the last level set, or the initial level. *)
Theorem C30_get_level : forall cf s tr1 t c v tr2, reaches cf s (tr1 ++ EvGet t c v :: tr2) -> v = trace_level c tr1.
Proof. exact ev_get. Qed.

Example C30_ex : exists tr1 tr2, ex_trace = tr1 ++ EvSet 1 1 9 :: tr2 /\ (forall t r, ~ In (EvSet t 1 r) tr2) /\ s_level ex_final 1 = 7.
Proof.
  exists (firstn 13 ex_trace), (skipn 14 ex_trace). split; [vm_compute; reflexivity|]. split; [|vm_compute; reflexivity].
  intros t r H. vm_compute in H. repeat (destruct H as [H|H]; [discriminate H|]). exact H.
Qed.

(** ** C31 *)
Lemma parse_level_spec : forall v, parse_level (first_char v) = level_of_value v.
Proof.
  intros [|c v]; [reflexivity|]. cbn [first_char level_of_value]. unfold parse_level, isdigit, isupper, ULOG_DEBUG.
  destruct ((48 <=? c) && (c <=? 57)) eqn:E1.
  - destruct (c - 48 >? 7) eqn:E; lia.
  - destruct ((65 <=? c) && (c <=? 90)) eqn:E2.
    + assert (K : In c (map (fun n => 65 + Z.of_nat n) (seq 0 26))).
      { apply in_map_iff. exists (Z.to_nat (c - 65)). split; [lia|]. apply in_seq. lia. }
      cbn [seq map In] in K. repeat (destruct K as [<-|K]; [reflexivity|]). destruct K.
    + repeat match goal with |- context [if c =? ?n then _ else _] => destruct (Z.eqb_spec c n); [lia|] end. reflexivity.
Qed.

Lemma env_level_spec : forall cf c d, zlen (c_name cf c) <= 68 ->
  (let e := env_level cf c in if e <? 0 then if d <? 0 then ULOG_INFO else d else e) = initial_level (c_env cf) (c_name cf c) d.
Proof.
  intros cf c d H. unfold env_level, initial_level.
  rewrite (ztake_all 79) by (rewrite zlen_app; change (zlen (bytes_of_string "ULOG_LEVEL_")) with 11; lia).
  assert (P : forall v, 0 <= level_of_value v).
  { intros [|x v]; cbn [level_of_value]; [lia|]. destruct ((48 <=? x) && (x <=? 57)) eqn:E; [lia|].
    repeat match goal with |- context [if x =? ?n then _ else _] => destruct (x =? n); [lia|] end. lia. }
  assert (E6 : (if d <? 0 then ULOG_INFO else d) = (if d >=? 0 then d else 6)).
  { unfold ULOG_INFO. destruct (Z.ltb_spec d 0); destruct (d >=? 0) eqn:?; lia. }
  destruct (first_char (c_name cf c) =? 0).
  - cbn zeta. change (-1 <? 0) with true. cbv iota. destruct (c_env cf (bytes_of_string "ULOG_LEVEL")) as [w|].
    + rewrite parse_level_spec. pose proof (P w). replace (level_of_value w <? 0) with false by lia. reflexivity.
    + change (-1 <? 0) with true. cbv iota. exact E6.
  - destruct (c_env cf (bytes_of_string "ULOG_LEVEL_" ++ c_name cf c)) as [v|]; cbn zeta.
    + rewrite parse_level_spec. pose proof (P v). replace (level_of_value v <? 0) with false by lia.
      replace (level_of_value v <? 0) with false by lia. reflexivity.
    + change (-1 <? 0) with true. cbv iota. destruct (c_env cf (bytes_of_string "ULOG_LEVEL")) as [w|].
      * rewrite parse_level_spec. pose proof (P w). replace (level_of_value w <? 0) with false by lia. reflexivity.
      * change (-1 <? 0) with true. cbv iota. exact E6.
Qed.

(** The level a tag gets on first use follows the documented precedence, the level of the empty
    tag being the one at some moment of the call that initialises the tag.  Missing from the full
    statement: tag names longer than 68 characters (refuted below). *)
Theorem C31_initial_level_partial : forall cf s tr1 t c v tr2, reaches cf s (tr1 ++ EvInit t c v :: tr2) ->
  0 <= v <= 7 /\
  (zlen (c_name cf c) <= 68 ->
   exists tra o trb trc, tr1 = (tra ++ EvCall t o :: trb) ++ trc /\ no_call t (trb ++ trc) /\
     v = initial_level (c_env cf) (c_name cf c) (trace_level 0 (tra ++ EvCall t o :: trb))).
Proof.
  intros cf s tr1 t c v tr2 R. destruct (event_step cf s _ _ _ R) as (s1 & tr & t0 & o & s2 & e1 & e2 & R1 & H & ->).
  pose proof (reaches_inv cf s1 tr R1) as I. pose proof (i_pc _ _ _ I t0) as P.
  origin H. inversion H0. subst. rewrite app_nil_r. destruct P as [?|(tra & o' & trb & E & Nc & C)]; [discriminate|].
  cbn [cond] in C. destruct C as (_ & _ & C3 & (trp & (rest & Er) & Ev) & _). split; [exact C3|]. intros Hlen.
  exists tra, o', trp, rest. split; [rewrite E, Er; symmetry; apply app_cons_assoc|]. split; [rewrite <- Er; exact Nc|].
  rewrite <- (env_level_spec _ _ _ Hlen). exact Ev.
Qed.

Example C31_ex : exists tr1 tr2, ex_trace = tr1 ++ EvInit 3 2 7 :: tr2 /\ zlen (c_name ex_cf 2) <= 68.
Proof. exists (firstn 8 ex_trace), (skipn 9 ex_trace). split; [vm_compute; reflexivity|vm_compute; discriminate]. Qed.
Example C31_ex_levels : map level_of_value [bytes_of_string "W"; bytes_of_string "9"; bytes_of_string "Debug"; []; bytes_of_string "x"] = [4; 7; 7; 0; 0].
Proof. reflexivity. Qed.

(** For longer names the lookup uses a truncated variable name: the level asked for the tag is
    ignored. *)
Definition long_name : list Z := zrepeat 97 69.
Definition long_cf : cfg := mkCfg (fun _ => long_name)
  (fun v => if bytes_eqb v (bytes_of_string "ULOG_LEVEL_" ++ long_name) then Some (bytes_of_string "D") else None).
Theorem C31_long_names_refuted : exists cf s tr1 t c v tr2, reaches cf s (tr1 ++ EvInit t c v :: tr2) /\
  c_env cf (bytes_of_string "ULOG_LEVEL_" ++ c_name cf c) = Some (bytes_of_string "D") /\ v = 6.
Proof.
  exists long_cf, (fst (run long_cf init (repeat (th 0 (CInit 0)) 9))), [EvCall 0 (CInit 0)], 0%nat, 0%nat, 6, [].
  split; [|split; [vm_compute; reflexivity|reflexivity]]. exists (repeat (th 0 (CInit 0)) 9).
  assert (E : snd (run long_cf init (repeat (th 0 (CInit 0)) 9)) = [EvCall 0 (CInit 0); EvInit 0 0 6]) by (vm_compute; reflexivity).
  destruct (run long_cf init (repeat (th 0 (CInit 0)) 9)) as [a b]. cbn [fst snd] in *. rewrite E. reflexivity.
Qed.

(** ** C32 *)

(** A message goes to the writer exactly when its priority (three low bits) is at most the level
    of its tag, that is the last level set, clamped to 0..7, or the initial level. *)
Theorem C32_filter : forall cf s tr1 t c prio b tr2, reaches cf s (tr1 ++ EvLog t c prio b :: tr2) ->
  (b = true <-> prio mod 8 <= trace_level c tr1) /\ 0 <= trace_level c tr1 <= 7.
Proof.
  intros cf s tr1 t c prio b tr2 R. destruct (ev_log cf s tr1 t c prio b tr2 R) as (-> & Rg). split; [|exact Rg].
  change 7 with (Z.ones 3). rewrite Z.land_ones by lia. change (2 ^ 3) with 8. lia.
Qed.
(** Emergency messages always pass, and a tag at Debug level filters nothing. *)
Theorem C32_extremes : forall cf s tr1 t c prio b tr2, reaches cf s (tr1 ++ EvLog t c prio b :: tr2) ->
  prio mod 8 = 0 \/ trace_level c tr1 = 7 -> b = true.
Proof.
  intros cf s tr1 t c prio b tr2 R H. destruct (C32_filter cf s tr1 t c prio b tr2 R) as (E & Rg). apply E.
  pose proof (Z.mod_pos_bound prio 8). lia.
Qed.
Example C32_ex : exists tr1 tr2, ex_trace = tr1 ++ EvLog 2 1 5 false :: tr2 /\ trace_level 1 tr1 = 4.
Proof. exists (firstn 6 ex_trace), (skipn 7 ex_trace). split; vm_compute; reflexivity. Qed.
Example C32_ex2 : exists tr1 tr2, ex_trace = tr1 ++ EvLog 2 1 7 true :: tr2 /\ trace_level 1 tr1 = 7.
Proof. exists (firstn 17 ex_trace), (skipn 18 ex_trace). split; vm_compute; reflexivity. Qed.

(** ** C33 *)

(** [tr1] is the trace before the call, [tr2] the events during the call.  Success: exactly one
    level is assigned by the call, that of a registered tag of that name (the most recently
    registered one if several share the name); failure: nothing is assigned and no tag of that
    name was registered when the call started. *)
Theorem C33_set_by_name : forall cf s tr1 t n req tr2 n' ret tr3,
  reaches cf s (tr1 ++ EvCall t (CSetTag n req) :: tr2 ++ EvTag t n' ret :: tr3) -> no_call t tr2 ->
  n' = n /\
  ((ret = 0 /\ exists c tra, prefix tra tr2 /\ sets t tr2 = [(c, req)] /\ c_name cf c = n /\ In c (inits (tr1 ++ tra)) /\
      find (fun q => bytes_eqb (c_name cf q) n) (rev (inits (tr1 ++ tra))) = Some c) \/
   (ret = -1 /\ sets t tr2 = [] /\ forall c, In c (inits tr1) -> c_name cf c <> n)).
Proof.
  intros cf s tr1 t n req tr2 n' ret tr3 R N.
  replace (tr1 ++ EvCall t (CSetTag n req) :: tr2 ++ EvTag t n' ret :: tr3)
    with ((tr1 ++ EvCall t (CSetTag n req) :: tr2) ++ EvTag t n' ret :: tr3) in R by apply app_cons_assoc.
  destruct (event_step cf s _ _ _ R) as (s1 & tr & t0 & o & s2 & e1 & e2 & R1 & H & E).
  pose proof (reaches_inv cf s1 tr R1) as I. pose proof (i_pc _ _ _ I t0) as P.
  origin H; inversion H0; subst; (destruct P as [?|(tra & o' & trb & Et & Nc & C)]; [discriminate|]); cbn [cond kmatch] in C.
  - (* found *)
    destruct C as ((-> & trp & Pp & Lk) & Cs & Ci). rewrite Et in E. rewrite app_cons_assoc in E.
    assert (Ntrb : no_call t0 (trb ++ [EvSet t0 c level])) by (apply no_call_app; [exact Nc|intros x [Hx|[]]; discriminate]).
    destruct (last_call_unique _ _ _ _ _ _ _ E N Ntrb) as (-> & Eo & ->). inversion Eo. subst. clear E Eo.
    split; [reflexivity|]. left. split; [reflexivity|]. exists c, trp. split; [apply prefix_app; exact Pp|].
    split; [rewrite sets_app, Cs; cbn; rewrite Nat.eqb_refl; reflexivity|].
    unfold lookup_tag in Lk. destruct (find_some _ _ Lk) as (F1 & F2).
    split; [apply bytes_eqb_eq; exact F2|]. split; [apply in_rev; exact F1|exact Lk].
  - (* not found *)
    destruct C as (-> & Cs & Lk). rewrite app_nil_r in E. rewrite Et in E.
    destruct (last_call_unique _ _ _ _ _ _ _ E N Nc) as (-> & Eo & ->). inversion Eo. subst. clear E Eo.
    split; [reflexivity|]. right. split; [reflexivity|]. split; [exact Cs|].
    intros c Hi Hn. unfold lookup_tag in Lk. pose proof (find_none _ _ Lk c) as F. rewrite <- in_rev in F.
    rewrite Hn, bytes_eqb_refl in F. assert (true = false); [|discriminate]. apply F. apply inits_mono. exact Hi.
Qed.
Example C33_ex : exists tr1 tr2 tr3, ex_trace = tr1 ++ EvCall 1 (CSetTag (bytes_of_string "net") 9) :: tr2 ++ EvTag 1 (bytes_of_string "net") 0 :: tr3 /\
  no_call 1 tr2 /\ sets 1 tr2 = [(1%nat, 9)].
Proof.
  exists (firstn 12 ex_trace), [EvSet 1 1 9], (skipn 15 ex_trace). split; [vm_compute; reflexivity|]. split; [|reflexivity].
  intros o [H|[]]. discriminate.
Qed.

(** ** C34 *)

(** ulog_get_tag_names fills the array with the names of the registered tags, the most recently
    registered first, as many as fit, and returns their number; it never writes outside of the
    array. *)
Theorem C34_names : forall cf s tr1 t m names tr2, reaches cf s (tr1 ++ EvNames t m names :: tr2) ->
  names = firstn (Z.to_nat m) (map (c_name cf) (rev (inits tr1))).
Proof.
  intros cf s tr1 t m names tr2 R. destruct (event_step cf s _ _ _ R) as (s1 & tr & t0 & o & s2 & e1 & e2 & R1 & H & ->).
  pose proof (reaches_inv cf s1 tr R1) as I. pose proof (i_pc _ _ _ I t0) as P.
  origin H. inversion H0. subst. rewrite app_nil_r. destruct P as [?|(tra & o' & trb & E & Nc & C)]; [discriminate|].
  cbn [cond] in C. rewrite <- E in C. tauto.
Qed.
Theorem C34_names_in_bounds : forall cf s tr t, reaches cf s tr -> ~ In (EvOob t) tr.
Proof. intros cf s tr t R. apply (i_oob _ _ _ (reaches_inv cf s tr R)). Qed.

Lemma NoDup_app_left : forall (a b : list nat), NoDup (a ++ b) -> NoDup a.
Proof.
  induction a as [|x a IH]; intros b H; [constructor|]. cbn [app] in H. inversion H. subst. constructor; [|apply (IH b); assumption].
  intros Hi. apply H2. apply in_app_iff. left. exact Hi.
Qed.

(** ulog_foreach calls its callback on the tags registered at some moment of the call (hence on
    every tag registered before the call), the empty tag excepted, each exactly once. *)
Theorem C34_foreach : forall cf s tr1 t tr2 tr3,
  reaches cf s (tr1 ++ EvCall t CForeach :: tr2 ++ EvForeach t :: tr3) -> no_call t tr2 ->
  (exists tra, prefix tra tr2 /\ visits t tr2 = filter (fun c => negb (Nat.eqb c 0)) (rev (inits (tr1 ++ tra)))) /\
  NoDup (visits t tr2) /\ ~ In 0%nat (visits t tr2) /\ (forall c, c <> 0%nat -> In c (inits tr1) -> In c (visits t tr2)).
Proof.
  intros cf s tr1 t tr2 tr3 R N. pose proof (i_nodup _ _ _ (reaches_inv _ _ _ R)) as Nd.
  replace (tr1 ++ EvCall t CForeach :: tr2 ++ EvForeach t :: tr3)
    with ((tr1 ++ EvCall t CForeach :: tr2) ++ EvForeach t :: tr3) in R by apply app_cons_assoc.
  destruct (event_step cf s _ _ _ R) as (s1 & tr & t0 & o & s2 & e1 & e2 & R1 & H & E).
  pose proof (reaches_inv cf s1 tr R1) as I. pose proof (i_pc _ _ _ I t0) as P.
  assert (V : exists tra, prefix tra tr2 /\ visits t tr2 = nonzero (rev (inits (tr1 ++ tra)))).
  { origin H. inversion H0. subst. rewrite app_nil_r in E. destruct P as [?|(tra & o' & trb & Et & Nc & C)]; [discriminate|].
    rewrite Et in E. destruct (last_call_unique _ _ _ _ _ _ _ E N Nc) as (-> & Eo & ->). cbn [cond] in C.
    destruct C as (_ & trp & l2 & Pp & Ch & _ & Vi). exists trp. split; [exact Pp|].
    destruct l2 as [|x l2]; [|destruct Ch; discriminate]. cbn [nonzero filter] in Vi. rewrite app_nil_r in Vi. exact Vi. }
  destruct V as (tra & (trb & Eb) & V). split; [exists tra; split; [exists trb; exact Eb|exact V]|]. rewrite V. unfold nonzero.
  split; [|split].
  - apply NoDup_filter. apply NoDup_rev. rewrite Eb in Nd. rewrite inits_app in Nd. cbn [inits] in Nd. rewrite !inits_app in Nd.
    rewrite <- !app_assoc in Nd. rewrite app_assoc in Nd. rewrite inits_app. apply NoDup_app_left in Nd. exact Nd.
  - intros Hi. apply filter_In in Hi. destruct Hi as (_ & Hi). discriminate.
  - intros c Hc Hi. apply filter_In. split; [rewrite <- in_rev; apply inits_mono; exact Hi|]. destruct (Nat.eqb_spec c 0); [contradiction|reflexivity].
Qed.
Example C34_ex : exists tr1 tr2 tr3, ex_trace = tr1 ++ EvCall 3 CForeach :: tr2 ++ EvForeach 3 :: tr3 /\ no_call 3 tr2 /\
  inits tr1 = [1; 2]%nat /\ visits 3 tr2 = [2; 1]%nat.
Proof.
  exists (firstn 18 ex_trace), [EvVisit 3 2; EvVisit 3 1], (skipn 22 ex_trace). split; [vm_compute; reflexivity|]. split; [|vm_compute; split; reflexivity].
  intros o H. vm_compute in H. repeat (destruct H as [H|H]; [discriminate H|]). exact H.
Qed.
Example C34_ex_names : exists tr1 tr2, ex_trace = tr1 ++ EvNames 3 1 [bytes_of_string "gps"] :: tr2 /\ inits tr1 = [1; 2]%nat.
Proof. exists (firstn 23 ex_trace), []. split; vm_compute; reflexivity. Qed.

(** ** C60 *)

(** No call can be blocked for good: in every reachable state, for every thread, there is a
    continuation after which its call has returned. *)
Theorem C60_calls_can_complete : forall cf s tr t, reaches cf s tr -> exists sched, s_th (fst (run cf s sched)) t = Idle.
Proof.
  intros cf s tr t R. apply (can_finish cf (rank (s_th s t)) s tr t); [lia|]. apply reaches_inv. exact R.
Qed.
Example C60_ex : s_th (fst (run ex_cf init (firstn 8 ex_sched ++ repeat (th 2 CForeach) 3))) 2%nat <> Idle.
Proof. vm_compute. discriminate. Qed.

Print Assumptions C29_registered_once.
Print Assumptions C29_initialised_once.
Print Assumptions C29_list_is_history.
Print Assumptions C30_set_level_not_lost.
Print Assumptions C30_get_level.
Print Assumptions C31_initial_level_partial.
Print Assumptions C31_long_names_refuted.
Print Assumptions C32_filter.
Print Assumptions C32_extremes.
Print Assumptions C33_set_by_name.
Print Assumptions C34_names.
Print Assumptions C34_names_in_bounds.
Print Assumptions C34_foreach.
Print Assumptions C60_calls_can_complete.
