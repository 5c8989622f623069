(** C162: the tags of a program that opens and closes libraries. *)
From Coq Require Import ZArith String List Bool Arith Lia ZifyBool ZifyNat.
From Verif Require Import Bytes Unload UnloadSpec UnloadProofs.
Import ListNotations.
Open Scope Z_scope.

(** As long as no library is closed whose tags are in use, every function ends without a bad access, and finds exactly
    the tags in use, the latest first, with their levels. *)
Theorem C162_kept_partial : forall env l fuel,
  all_along legal env world0 l -> all_along keeps env world0 l -> (length l <= fuel)%nat ->
  exists s, run fuel env start l = Ok (s, snd (expectations env world0 l)).
Proof. intros env l fuel L K F. apply (sim_run true); [apply sim0|exact L|exact K|exact F]. Qed.

Definition ha : list Z := [104; 97].
Definition plug : list Z := [112; 108; 117; 103].
Example C162_kept_example :
  let l := [Dlopen [(1%nat, ha)]; Dlopen [(2%nat, plug); (3%nat, [])]; Init 1; SetLevel 3 9; Names 5; Dlclose [2%nat]; Dlopen [(2%nat, plug)]; GetLevel 2;
            SetTag plug 1; SetTag [1] 1; GetLevel 2; Each] in
  all_along legal (fun _ => -1) world0 l /\ all_along keeps (fun _ => -1) world0 l /\
  snd (expectations (fun _ => -1) world0 l) =
    [Done; Done; Done; Done; Tags [[]; ha]; Done; Done; Value 6; Value 0; Value (-1); Value 1; Cookies [2; 3; 1]%nat].
Proof.
  cbn. repeat split; try discriminate; try (repeat constructor; cbn; intuition congruence);
    intros; intuition (subst; cbn; congruence).
Qed.

Lemma run_direct : forall env l s n m, Forall direct l -> run n env s l = run m env s l.
Proof.
  induction l as [|o l IH]; intros s n m D; [reflexivity|]. inversion D as [|? ? Ho D']; subst. cbn [run].
  replace (step n env s o) with (step m env s o) by (destruct o; try contradiction; reflexivity).
  destruct (step m env s o) as [[s1 x]|b]; cbn [bind]; [|reflexivity]. rewrite (IH s1 n m D'). reflexivity.
Qed.
(** Whatever is closed and opened again, the calls that do not go through the tags go on working: a tag keeps its level
    as long as its library is there, and starts afresh with it. *)
Theorem C162_direct : forall env l fuel,
  all_along legal env world0 l -> Forall direct l ->
  exists s, run fuel env start l = Ok (s, snd (expectations env world0 l)).
Proof.
  intros env l fuel L D.
  assert (K : forall w, all_along (fun w o => if false then keeps w o else direct o) env w l).
  { clear L. induction D as [|o l Ho D IH]; intros w; [exact I|]. split; [exact Ho|apply IH]. }
  destruct (sim_run false env l start world0 (length l) (sim0 _) L (K _) ltac:(cbn; lia)) as (s & E). exists s.
  rewrite <- E. apply run_direct. exact D.
Qed.
Example C162_direct_example :
  let l := [Dlopen [(2%nat, plug)]; SetLevel 2 3; Dlclose [2%nat]; Dlopen [(2%nat, plug)]; GetLevel 2; SetLevel 0 4; Dlopen [(1%nat, ha)]; GetLevel 1] in
  all_along legal (fun _ => -1) world0 l /\ Forall direct l /\
  snd (expectations (fun _ => -1) world0 l) = [Done; Done; Done; Done; Value 6; Done; Done; Value 4].
Proof.
  cbn. repeat split; try discriminate; try (repeat constructor; cbn; intuition congruence);
    intros; intuition (subst; cbn; congruence).
Qed.

(** A library that used its tag was closed: every later walk of the list accesses memory that is not there any more,
    in the thread of whoever asks for the tags or sets the level of another one. *)
Theorem C162_closed_refuted : forall env fuel, (3 <= fuel)%nat -> 0 <= env ha -> 0 <= env plug ->
  let l := [Dlopen [(1%nat, ha)]; Dlopen [(2%nat, plug)]; Init 1; Init 2; Dlclose [2%nat]] in
  all_along legal env world0 l /\
  (exists s o, run fuel env start l = Ok (s, o)) /\
  run fuel env start (l ++ [Each]) = Bug Oob /\ run fuel env start (l ++ [SetTag ha 3]) = Bug Oob /\
  run fuel env start (l ++ [Names 1]) = Bug Oob.
Proof.
  intros env fuel F A B l. destruct fuel as [|[|[|f]]]; try lia. subst l. split.
  - cbn. repeat split; try discriminate; try (repeat constructor; cbn; intuition congruence); intros; intuition (subst; cbn; congruence).
  - cbn. replace (env ha <? 0) with false by lia. replace (env plug <? 0) with false by lia. cbn.
    replace (env ha <? 0) with false by lia. replace (env plug <? 0) with false by lia. cbn.
    repeat split. eexists. eexists. reflexivity.
Qed.
Example C162_closed_example : 0 <= (fun _ : list Z => 5) ha.
Proof. lia. Qed.

Lemma loop_each : forall fuel s e, s_mem s 2%nat = Some e -> e_next e = Some 2%nat -> foreach fuel s (Some 2%nat) = Bug Hang.
Proof.
  induction fuel as [|f IH]; intros s e H N; [reflexivity|]. cbn [foreach]. unfold get. rewrite H. cbn [bind].
  rewrite N, (IH s e H N). reflexivity.
Qed.
Lemma loop_search : forall fuel s e name, s_mem s 2%nat = Some e -> e_next e = Some 2%nat -> bytes_eqb (e_name e) name = false ->
  search fuel s name (Some 2%nat) = Bug Hang.
Proof.
  induction fuel as [|f IH]; intros s e name H N D; [reflexivity|]. cbn [search]. unfold get. rewrite H. cbn [bind].
  rewrite D, N. exact (IH s e name H N D).
Qed.

(** A library closed and opened again at the same place, its tag the latest in use: with its next use it follows
    itself in the list. The tags before it are lost, ulog_foreach never ends, and neither does ulog_set_tag_level with the name of another
    tag, with the lock held. *)
Theorem C162_reopened_refuted : forall env, 0 <= env ha -> 0 <= env plug ->
  let l := [Dlopen [(1%nat, ha)]; Dlopen [(2%nat, plug)]; Init 1; Init 2; Dlclose [2%nat]; Dlopen [(2%nat, plug)]; Init 2] in
  all_along legal env world0 l /\
  (forall fuel, exists s o, run fuel env start l = Ok (s, o)) /\
  (forall fuel, run fuel env start (l ++ [Each]) = Bug Hang) /\
  (forall fuel, run fuel env start (l ++ [SetTag ha 3]) = Bug Hang) /\
  (forall fuel, exists s o, run fuel env start (l ++ [Names 3]) = Ok (s, o ++ [Tags [plug; plug; plug]])).
Proof.
  intros env A B l. subst l. split; [|split; [|split; [|split]]].
  - cbn. repeat split; try discriminate; try (repeat constructor; cbn; intuition congruence); intros; intuition (subst; cbn; congruence).
  - intros fuel. cbn. replace (env ha <? 0) with false by lia. replace (env plug <? 0) with false by lia. cbn.
    replace (env ha <? 0) with false by lia. replace (env plug <? 0) with false by lia. cbn.
    eexists. eexists. reflexivity.
  - intros fuel. cbn -[foreach]. replace (env ha <? 0) with false by lia. replace (env plug <? 0) with false by lia. cbn -[foreach].
    replace (env ha <? 0) with false by lia. replace (env plug <? 0) with false by lia. cbn -[foreach].
    erewrite loop_each; reflexivity.
  - intros fuel. cbn -[search]. replace (env ha <? 0) with false by lia. replace (env plug <? 0) with false by lia. cbn -[search].
    replace (env ha <? 0) with false by lia. replace (env plug <? 0) with false by lia. cbn -[search].
    unfold set_tag_level. cbn -[search]. erewrite loop_search; reflexivity.
  - intros fuel. cbn. replace (env ha <? 0) with false by lia. replace (env plug <? 0) with false by lia. cbn.
    replace (env ha <? 0) with false by lia. replace (env plug <? 0) with false by lia. cbn.
    eexists. exists [Done; Done; Done; Done; Done; Done; Done]. reflexivity.
Qed.
Example C162_reopened_example : 0 <= (fun _ : list Z => 5) plug.
Proof. lia. Qed.

Print Assumptions C162_kept_partial.
Print Assumptions C162_direct.
Print Assumptions C162_closed_refuted.
Print Assumptions C162_reopened_refuted.
