(** How much a device keeps (lemmas for C16, C102, C105): the backlog of a new reader is everything
    accepted since the last flush, or has more than the size of the buffer less 12300 bytes. *)
From Coq Require Import ZArith String List Bool Lia ZifyBool ZifyNat.
From Verif Require Import Bytes BytesProofs Ring RingSpec RingHistory RingRefine RingInv RingObs RingLemmas.
Import ListNotations.
Open Scope Z_scope.

Definition enough (a : adev) : Prop := Forall wf_entry (a_keep a) /\ (a_gone a = 0 \/ a_cap a - 12300 < total (a_keep a)).

Lemma drop_left : forall q need, Forall wf_entry q -> 0 < need ->
  let (q', n) := drop_oldest need q in Forall wf_entry q' /\ total q - need - 4100 < total q' /\ 0 <= n.
Proof.
  induction q as [|e q IH]; intros need W Hn; cbn [drop_oldest].
  - cbn [total fold_right]. repeat split; auto; lia.
  - inversion W as [|? ? We Wq]; subst. pose proof (esize_max e We). pose proof (esize_pos e). rewrite total_cons.
    destruct (Z.ltb_spec (esize e) need) as [L|L].
    + specialize (IH (need - esize e) Wq ltac:(lia)). destruct (drop_oldest (need - esize e) q) as [q' n].
      destruct IH as (A & B & C). repeat split; auto; lia.
    + repeat split; auto; lia.
Qed.
Lemma room_left cap need q : Forall wf_entry q -> 0 < need <= 4100 ->
  let (q', n) := make_room cap need q in Forall wf_entry q' /\ (n = 0 /\ q' = q \/ cap - 12300 < total q').
Proof.
  intros W Hn. unfold make_room. destruct (Z.ltb_spec (total q + need) cap) as [L|L]; [auto|].
  pose proof (drop_left q need W ltac:(lia)) as D. destruct (drop_oldest need q) as [q' n]. destruct D as (A & B & C). split; [exact A|right; lia].
Qed.
Lemma total_snoc q e : total (q ++ [e]) = total q + esize e.
Proof. induction q as [|x q IH]; cbn [app]; rewrite ?total_cons, ?IH; [cbn; lia|lia]. Qed.
Lemma awrite_enough a raw t sec nsec it : enough a -> enough (fst (awrite a raw t sec nsec it)).
Proof.
  intros (W & K). unfold awrite. destruct (raw && (zlen (iter_bytes it) <? 20)) eqn:E0; [split; auto|].
  pose proof (requested_wf raw t sec nsec it E0) as We. set (e := requested raw t sec nsec it) in *.
  destruct (zlen (e_payload e) =? 0); [split; auto|].
  pose proof (room_left (a_cap a) (esize e) (a_keep a) W ltac:(pose proof (esize_max e We); pose proof (esize_pos e); lia)) as H.
  destruct (make_room (a_cap a) (esize e) (a_keep a)) as [keep n]. destruct H as (A & B). pose proof (esize_pos e).
  destruct (iter_fault it (accepted raw t it)); cbn [fst]; unfold enough; cbn [a_keep a_gone a_cap].
  - split; [exact A|]. destruct B as [[-> ->]|B]; [|auto]. destruct K as [->|K]; auto.
  - split; [apply Forall_app; auto|]. rewrite total_snoc. destruct B as [[-> ->]|B]; [|right; lia]. destruct K as [->|K]; [auto|right; lia].
Qed.
Lemma astep_enough a o : enough a -> enough (fst (astep a o)).
Proof.
  intros H. assert (X : forall fs, enough (mkADev (a_cap a) (a_name a) (a_keep a) (a_gone a) fs)) by (intros fs; exact H).
  destruct o as [f1 rd wr al nm|f1|f1 nb sg|f1 eu ct va|f1 t sec nsec it|f1 eu|f1 c eu]; cbn [astep].
  - destruct (alookup f1 (a_files a)); [exact H|]. destruct (rd && nm); [exact H|apply X].
  - destruct (alookup f1 (a_files a)); [apply X|exact H].
  - destruct (alookup f1 (a_files a)) as [[w m [r|]]|]; exact H.
  - destruct (alookup f1 (a_files a)) as [[w m [r|]]|]; try exact H. destruct (aread _ _ _ _ _) as [r' x]. apply X.
  - destruct (alookup f1 (a_files a)) as [f|]; [|exact H]. destruct (a_wr f); [now apply awrite_enough|exact H].
  - destruct (alookup f1 (a_files a)) as [[w m [r|]]|]; auto; apply X.
  - destruct (alookup f1 (a_files a)) as [f|]; [|exact H]. unfold aioctl.
    destruct c as [| | | | |arg|arg st cp|], (a_rd f) as [r|]; try exact H; try apply X;
      try (destruct (a_wr f); [|exact H]; split; [constructor|left; reflexivity]);
      try (destruct arg as [v|]; try exact H).
    + destruct (_ || _); [apply X|exact H].
    + destruct (negb (a_wr f)); [exact H|]. destruct (st && negb cp); [exact H|]. destruct (_ || _); [apply X|exact H].
    + destruct (negb (a_wr f)); [exact H|]. destruct (st && negb cp); exact H.
    + destruct (negb (a_wr f)); [exact H|]. destruct (st && negb cp); [exact H|]. destruct (_ || _); [apply X|exact H].
    + destruct (negb (a_wr f)); [exact H|]. destruct (st && negb cp); exact H.
Qed.
Lemma arun_enough ops : forall a, enough a -> enough (fst (arun a ops)).
Proof.
  induction ops as [|o ops IH]; intros a H; cbn [arun]; [exact H|].
  pose proof (astep_enough a o H) as H1. destruct (astep a o) as [a1 x]. cbn [fst] in H1. specialize (IH a1 H1).
  destruct (arun a1 ops) as [a2 xs]. exact IH.
Qed.

(** [history_good] with what is kept. *)
Lemma history_kept : forall nm mem pow2 ops, init_ok nm mem pow2 -> Forall user_op ops ->
  exists h d a, explains h nm mem pow2 ops d /\ R d a /\ vers_ok a /\ Inv (ledger_of h) a /\
    a_name a = nm /\ a_cap a = 2 ^ pow2 /\ (a_gone a = 0 \/ 2 ^ pow2 - 12300 < total (a_keep a)).
Proof.
  intros nm mem pow2 ops Hi Hu. destruct (init_R nm mem pow2 Hi) as [HR Hv].
  destruct (run_R ops _ _ Hu HR Hv) as (d & E & HR' & Hv').
  pose proof (arun_enough ops (init_adev nm pow2)) as K.
  destruct (arun (init_adev nm pow2) ops) as [a xs] eqn:Ea. cbn [fst snd] in *.
  destruct (arun_good ops ledger0 _ _ _ (Inv_init nm pow2) Hv Ea) as (G1 & G2 & G3 & G4 & G5 & G6).
  destruct K as (_ & K); [split; [constructor|left; reflexivity]|]. rewrite G6 in K. cbn [a_cap init_adev] in K, G6.
  exists (with_ops ops xs), d, a. split; [|split; [exact HR'|]; split; [exact Hv'|]; split; [exact G2|]; split; [exact G5|]; split; [exact G6|exact K]].
  split; [exact G3|]. rewrite E. do 2 f_equal. rewrite <- G4 at 1. rewrite map_map. reflexivity.
Qed.
