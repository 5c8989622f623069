(** Property C152: what tasks read while others write. *)
From Coq Require Import ZArith String List Bool Lia ZifyBool ZifyNat Arith.
From Verif Require Import Bytes BytesProofs Ring RingSpec RingRefine RingHistory RingInv RingObs WaitQ WaitQProofs PropsWaitQ LinSpec LinProofs PropsLin ConcSpec ConcProofs.
Import ListNotations.
Open Scope Z_scope.

Lemma history_entry : forall l s u c, In (Inv u c) (history s l) -> entry_point c = true.
Proof.
  induction l as [|[t ac] l IH]; intros s u c Hi; cbn [history] in Hi; [contradiction|].
  destruct (wstep s (t, ac)) as [s1|]; [|contradiction].
  apply in_app_or in Hi. destruct Hi as [Hi|Hi]; [|eapply IH; eassumption].
  unfold event in Hi. destruct (nth_error (s_ths s) t) as [th|]; [|contradiction].
  destruct (nth_error (s_ths s1) t) as [th'|]; [|contradiction].
  apply in_app_or in Hi. destruct Hi as [Hi|Hi].
  - destruct ac as [c'| |]; try contradiction. destruct (t_pc th); try contradiction.
    destruct (entry_point c') eqn:Ee; [|contradiction]. destruct Hi as [Hi|[]]. injection Hi as -> ->. exact Ee.
  - exfalso. destruct (t_rets th') as [|x r]; [contradiction|].
    destruct (Nat.eqb (length r) (length (t_rets th))); [|contradiction]. destruct Hi as [Hi|[]]. discriminate.
Qed.

Lemma setup : forall nm mem pow2 n l fid, init_ok nm mem pow2 -> Forall user_event l ->
  opened_once (history (wstart nm mem pow2 n) l) fid -> sees_all (history (wstart nm mem pow2 n) l) fid ->
  unflushed (history (wstart nm mem pow2 n) l) ->
  exists s tr h, wrun (wstart nm mem pow2 n) l = Ok s /\ Setup (history (wstart nm mem pow2 n) l) tr h nm fid.
Proof.
  intros nm mem pow2 n l fid Hi Hu H1 H2 H3.
  destruct (made_serial true nm mem pow2 n l Hi Hu ltac:(discriminate)) as (s' & E' & tr & Hh & Hx & Hr).
  assert (Ho : Forall user_op (map fst (effs tr))).
  { apply Forall_map, Forall_forall. intros [o x] Hin. cbn [fst]. destruct (effs_in _ _ _ Hin) as (u & Hu').
    apply (explained_user true u (filter (of u) tr) u o x (Hx u)).
    - intros v c Hc. apply filter_In in Hc. apply (history_user l (wstart nm mem pow2 n) v c Hu). rewrite <- Hh.
      apply filter_In. split; [apply Hc|reflexivity].
    - apply filter_In. split; [exact Hu'|]. apply Nat.eqb_refl. }
  destruct (history_opened nm mem pow2 _ Hi Ho) as (h & d & (X1 & X2) & X3 & X4). exists s', tr, h. split; [exact E'|]. constructor; try assumption.
  - change (s_dev (wstart nm mem pow2 n)) with (init_dev nm mem pow2) in Hr. rewrite Hr in X2. injection X2 as _ X2. clear - X1 X2. revert h X1 X2.
    induction (effs tr) as [|[o x] l IH]; intros h X1 X2; destruct h as [|[o' x'] h]; try discriminate; [reflexivity|].
    cbn [map fst snd] in *. injection X1 as -> X1. injection X2 as -> X2. f_equal. apply IH; assumption.
  - intros t c Hc. eapply history_entry. exact Hc.
  - intros pre. apply X4.
Qed.

(** Any number of tasks, any schedule: what the reads on a file give comes from writes, each from a
    write of its own that started before the read returned, in the order of the writes; and
    if no loss was told, nothing before a message that was read is missing. *)
Theorem C152_sources : forall nm mem pow2 n l fid, init_ok nm mem pow2 -> Forall user_event l ->
  opened_once (history (wstart nm mem pow2 n) l) fid -> sees_all (history (wstart nm mem pow2 n) l) fid ->
  unflushed (history (wstart nm mem pow2 n) l) ->
  exists s src, wrun (wstart nm mem pow2 n) l = Ok s /\ sourced (history (wstart nm mem pow2 n) l) fid src /\
    (reads_returned (history (wstart nm mem pow2 n) l) fid -> no_notice (history (wstart nm mem pow2 n) l) fid ->
     gapless (history (wstart nm mem pow2 n) l) fid src).
Proof.
  intros nm mem pow2 n l fid Hi Hu H1 H2 H3. destruct (setup nm mem pow2 n l fid Hi Hu H1 H2 H3) as (s & tr & h & E & S).
  set (H := history (wstart nm mem pow2 n) l) in *.
  destruct (choose (fun r k => exists pe pw, Src H tr h fid r pe pw k)
    (fun r => forall i t c b, call_at H i r t (CRead c) (OutData b) -> ra_fid c = fid -> notice b)) with (n := length H) as (src & Hs).
  { intros r. destruct (per_read H tr h nm fid r S) as [(pe & pw & k & X)|X]; [left; eauto|right; exact X]. }
  exists s, src. split; [exact E|]. split; [apply (src_facts H tr h nm fid src S Hs)|]. intros HR HN. apply (gaps H tr h nm fid src S Hs HR HN).
Qed.

(** ** Example *)

Definition exc_w1 := mkW 2 exq_task 1 2 (IterUbuf (mkSeg [72; 105] 2)).
Definition exc_w2 := mkW 3 exq_task 3 4 (IterUbuf (mkSeg [72; 111] 2)).
Definition exc_sched : list (nat * act) :=
  [(0%nat, Call (COther (OpOpen 1 true false true false)))] ++ alone 0 3 ++
  [(1%nat, Call (COther (OpOpen 2 false true false false)))] ++ alone 1 3 ++
  [(2%nat, Call (COther (OpOpen 3 false true false false)))] ++ alone 2 3 ++
  [(0%nat, Call (CRead exq_read))] ++ alone 0 6 ++
  [(1%nat, Call (CWrite exc_w1)); (1%nat, Go); (2%nat, Call (CWrite exc_w2))] ++ alone 2 6 ++ alone 1 6 ++
  alone 0 12 ++
  [(0%nat, Call (CRead exq_read))] ++ alone 0 12.

Definition exc_hist (b1 b2 : list Z) : list label :=
  [Inv 0 (COther (OpOpen 1 true false true false)); Res 0 (OutVal 0);
   Inv 1 (COther (OpOpen 2 false true false false)); Res 1 (OutVal 0);
   Inv 2 (COther (OpOpen 3 false true false false)); Res 2 (OutVal 0);
   Inv 0 (CRead exq_read); Inv 1 (CWrite exc_w1); Inv 2 (CWrite exc_w2); Res 2 (OutVal 2); Res 1 (OutVal 2);
   Res 0 (OutData b1); Inv 0 (CRead exq_read); Res 0 (OutData b2)].

Lemma exc_hist_ok : forall b1 b2, opened_once (exc_hist b1 b2) 1 /\ sees_all (exc_hist b1 b2) 1 /\ unflushed (exc_hist b1 b2) /\
  reads_returned (exc_hist b1 b2) 1 /\ call_at (exc_hist b1 b2) 6 11 0 (CRead exq_read) (OutData b1) /\
  call_at (exc_hist b1 b2) 12 13 0 (CRead exq_read) (OutData b2).
Proof.
  intros b1 b2.
  assert (C1 : call_at (exc_hist b1 b2) 6 11 0 (CRead exq_read) (OutData b1)).
  { repeat (split; [reflexivity || lia|]). intros q l Hq Hl.
    assert (Q : (q = 7 \/ q = 8 \/ q = 9 \/ q = 10)%nat) by lia. destruct Q as [->|[->|[->| ->]]]; injection Hl as <-; discriminate. }
  assert (C2 : call_at (exc_hist b1 b2) 12 13 0 (CRead exq_read) (OutData b2)).
  { repeat (split; [reflexivity || lia|]). intros q l Hq Hl. lia. }
  split; [|split; [|split; [|split; [|split; [exact C1|exact C2]]]]].
  - assert (X : forall i t c, nth_error (exc_hist b1 b2) i = Some (Inv t c) -> opens 1 c = true -> i = O).
    { intros i t c Hi Ho. do 14 (destruct i as [|i]; [try reflexivity; cbn [nth_error exc_hist] in Hi; try discriminate; injection Hi as <- <-; discriminate|]). destruct i; discriminate. }
    intros i j t u c c' Hi Hj Oi Oj. rewrite (X _ _ _ Hi Oi), (X _ _ _ Hj Oj). reflexivity.
  - intros t rd wr all nomem Hi. unfold exc_hist in Hi. repeat (destruct Hi as [Hi|Hi]; [try discriminate; congruence|]). contradiction.
  - intros t f u Hi. unfold exc_hist in Hi. repeat (destruct Hi as [Hi|Hi]; [discriminate|]). contradiction.
  - intros i t c Hi _. do 14 (destruct i as [|i]; [cbn [nth_error exc_hist] in Hi; try discriminate; injection Hi as <- <-; eauto|]). destruct i; discriminate.
Qed.

(** Task 0 reads, task 1 begins to write and is overtaken by task 2; task 0 reads again. *)
Example C152_ex : exists s b1 b2, init_ok ex_nm ex_init 14 /\ Forall user_event exc_sched /\
  wrun (wstart ex_nm ex_init 14 3) exc_sched = Ok s /\ history (wstart ex_nm ex_init 14 3) exc_sched = exc_hist b1 b2 /\
  opened_once (exc_hist b1 b2) 1 /\ sees_all (exc_hist b1 b2) 1 /\ unflushed (exc_hist b1 b2) /\ reads_returned (exc_hist b1 b2) 1 /\
  b1 = enc 2 (requested false exq_task 3 4 (wa_it exc_w2)) /\ b2 = enc 2 (requested false exq_task 1 2 (wa_it exc_w1)) /\
  call_at (exc_hist b1 b2) 6 11 0 (CRead exq_read) (OutData b1) /\ call_at (exc_hist b1 b2) 12 13 0 (CRead exq_read) (OutData b2).
Proof.
  assert (Hu : Forall user_event exc_sched) by (repeat constructor).
  assert (Hn : no_raw exc_sched) by (repeat constructor).
  destruct (C150_no_raw ex_nm ex_init 14 3 exc_sched ex_init_ok Hu Hn) as (_ & s & E & _).
  assert (HH : history (wstart ex_nm ex_init 14 3) exc_sched =
    exc_hist (enc 2 (requested false exq_task 3 4 (wa_it exc_w2))) (enc 2 (requested false exq_task 1 2 (wa_it exc_w1)))) by (vm_compute; reflexivity).
  exists s, (enc 2 (requested false exq_task 3 4 (wa_it exc_w2))), (enc 2 (requested false exq_task 1 2 (wa_it exc_w1))).
  destruct (exc_hist_ok (enc 2 (requested false exq_task 3 4 (wa_it exc_w2))) (enc 2 (requested false exq_task 1 2 (wa_it exc_w1)))) as (A1 & A2 & A3 & A4 & A5 & A6).
  split; [exact ex_init_ok|]. split; [exact Hu|].  split; [exact E|]. split; [exact HH|].
  split; [exact A1|]. split; [exact A2|]. split; [exact A3|]. split; [exact A4|]. split; [reflexivity|]. split; [reflexivity|].
  split; [exact A5|exact A6].
Qed.

Print Assumptions C152_sources.
