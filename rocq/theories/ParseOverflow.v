(** A reader that does not read while more than 2^31 entries are written. *)
From Coq Require Import ZArith String List Bool Lia ZifyBool ZifyNat.
From Verif Require Import Bytes BytesProofs Ring RingSpec RingRefine RingHistory RingObs Parse Iov ParseSpec ParseProofs ParseE2E.
Import ListNotations.
Open Scope Z_scope.

Definition ov_nm : list Z := bytes_of_string "ulog_main".
Definition ov_mem : list Z := zrepeat 170 16384.
Definition ov_task : task := mkTask 100 100 (bytes_of_string "prog") (bytes_of_string "prog") 1000.
Definition ov_seg : seg := mkSeg (zrepeat 65 5000) 5000.
Definition ov_write : op := OpWrite 1 ov_task 12 34 (IterUbuf ov_seg).
Definition ov_entry : entry := requested false ov_task 12 34 (IterUbuf ov_seg).
(** Open a writer and a reader, fill the buffer, then write [n] entries more. *)
Definition ov_fill : list op :=
  [OpOpen 1 false true false false; OpOpen 2 true false true false; ov_write; ov_write; ov_write].
Definition ov_ops (n : nat) : list op := ov_fill ++ repeat ov_write n.

Definition ov_state (e : entry) (n : Z) : adev :=
  mkADev 16384 ov_nm [e; e; e] n
    [(1, mkAFile true false None); (2, mkAFile false false (Some (mkAReader [e; e; e] n true 2)))].

Lemma ov_room : forall e n, esize e = 4100 -> make_room 16384 (esize e) [e; e; e] = ([e; e], 1) /\
  on_files (aappend e) (on_files (amake_room 16384 (esize e)) (a_files (ov_state e n))) = a_files (ov_state e (n + 1)).
Proof.
  intros e n H.
  assert (E : make_room 16384 (esize e) [e; e; e] = ([e; e], 1)).
  { unfold make_room. cbn [total fold_right drop_oldest]. rewrite !H. reflexivity. }
  split; [exact E|]. cbn [ov_state a_files on_files map fst snd amake_room a_rd a_q a_lost a_all a_ver a_wr a_raw].
  rewrite E. reflexivity.
Qed.

Lemma ov_step : forall n, astep (ov_state ov_entry n) ov_write = (ov_state ov_entry (n + 1), AVal 4071).
Proof.
  intros n. unfold ov_write. cbn [astep]. unfold ov_state at 1. cbn [a_files alookup]. rewrite Z.eqb_refl. cbn [a_wr a_raw].
  unfold awrite. cbn [andb]. fold ov_entry.
  assert (H : esize ov_entry = 4100) by (vm_compute; reflexivity).
  assert (H0 : zlen (e_payload ov_entry) =? 0 = false) by (vm_compute; reflexivity).
  assert (H1 : accepted false ov_task (IterUbuf ov_seg) = 4071) by (vm_compute; reflexivity).
  assert (H2 : iter_fault (IterUbuf ov_seg) 4071 = false) by (vm_compute; reflexivity).
  rewrite H1. generalize dependent ov_entry. intros e H H0. rewrite H0.
  destruct (ov_room e n H) as (A & B).
  change (a_cap (ov_state e n)) with 16384. change (a_keep (ov_state e n)) with [e; e; e].
  rewrite A. rewrite H2. rewrite B. reflexivity.
Qed.

Lemma ov_fill_run : arun (init_adev ov_nm 14) ov_fill = (ov_state ov_entry 0, [AVal 0; AVal 0; AVal 4071; AVal 4071; AVal 4071]).
Proof. vm_compute. reflexivity. Qed.

Lemma arun_app : forall o1 o2 a, arun a (o1 ++ o2) =
  let (a1, x1) := arun a o1 in let (a2, x2) := arun a1 o2 in (a2, x1 ++ x2).
Proof.
  induction o1 as [|o o1 IH]; intros o2 a; cbn [app arun]. { destruct (arun a o2); reflexivity. }
  destruct (astep a o) as [a1 x]. rewrite IH. destruct (arun a1 o1) as [a2 xs]. destruct (arun a2 o2). reflexivity.
Qed.

Lemma ov_run : forall k n, arun (ov_state ov_entry n) (repeat ov_write k) = (ov_state ov_entry (n + Z.of_nat k), repeat (AVal 4071) k).
Proof.
  induction k as [|k IH]; intros n; cbn [repeat arun].
  - rewrite Z.add_0_r. reflexivity.
  - rewrite ov_step. rewrite IH. replace (n + 1 + Z.of_nat k) with (n + Z.of_nat (S k)) by lia. reflexivity.
Qed.

Lemma map_repeat : forall A B (g : A -> B) x k, map g (repeat x k) = repeat (g x) k.
Proof. induction k as [|k IH]; cbn; [reflexivity|rewrite IH; reflexivity]. Qed.

Lemma ov_users : forall k, Forall user_op (ov_ops k).
Proof.
  intros k. apply Forall_app. split; [repeat constructor|]. apply Forall_forall. intros x Hx. apply repeat_spec in Hx.
  subst. exact I.
Qed.

Lemma ov_init : init_ok ov_nm ov_mem 14.
Proof. split; [lia|]. split; [vm_compute; reflexivity|]. vm_compute. discriminate. Qed.

(** After [k] writes too many: the reader has lost [k] entries, is owed 3 and gets the report
    first. *)
Lemma ov_reached : forall k, exists d d',
  run (init_dev ov_nm ov_mem 14) (ov_ops k)
    = Ok (d, [OutVal 0; OutVal 0; OutVal 4071; OutVal 4071; OutVal 4071] ++ repeat (OutVal 4071) k) /\
  owes d 2 (Z.of_nat k) [ov_entry; ov_entry; ov_entry] /\
  ((0 < k)%nat -> step d (OpReadBody 2 0 8192 8192)
    = Ok (d', OutData (enc 2 (report ov_nm (Z.of_nat k) ov_entry)))).
Proof.
  intros k.
  destruct (init_R ov_nm ov_mem 14 ov_init) as (I1 & I2).
  destruct (run_R (ov_ops k) (init_dev ov_nm ov_mem 14) (init_adev ov_nm 14) (ov_users k) I1 I2) as (d & E & HR & Hv).
  unfold ov_ops in E, HR, Hv. rewrite arun_app, ov_fill_run, ov_run in E, HR, Hv. cbn [fst snd] in E, HR, Hv.
  destruct (step_R d (ov_state ov_entry (0 + Z.of_nat k)) (OpReadBody 2 0 8192 8192) I HR Hv) as (d' & Es & _).
  exists d, d'. split.
  - unfold ov_ops. rewrite E. rewrite map_app, map_repeat. reflexivity.
  - split.
    + exact (owes_R d _ 2 _ _ HR Hv eq_refl eq_refl eq_refl).
    + intros Hk. rewrite Es. rewrite Z.add_0_l. clear - Hk. generalize ov_entry. intros e.
      cbn [astep ov_state a_files alookup]. change (1 =? 2) with false. change (2 =? 2) with true. cbn iota.
      unfold aread, visible. cbn [a_all a_q a_lost a_ver a_name].
      destruct (Z.of_nat k >? 0) eqn:Ek; [|lia].
      assert (L : enc_len 2 (report ov_nm (Z.of_nat k) e) <= 8192).
      { unfold enc_len. change (2 <? 2) with false. cbn [report e_payload]. rewrite !zlen_app. pose proof (zlen_dec_d (s32 (Z.of_nat k))).
        change (zlen (bytes_of_string " log entries dropped")) with 20. change (zlen ov_nm) with 9.
        change (zlen [0]) with 1. change (zlen [10; 0]) with 2. change (zlen [4; 0; 0; 0]) with 4. lia. }
      change (a_name (ov_state e (Z.of_nat k))) with ov_nm.
      destruct (Z.ltb_spec 8192 (enc_len 2 (report ov_nm (Z.of_nat k) e))); [lia|]. reflexivity.
Qed.
