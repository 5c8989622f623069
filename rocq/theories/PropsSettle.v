(** C108: once the other processes are silent, everything is shown. *)
From Coq Require Import ZArith String List Bool Lia ZifyBool ZifyNat Arith.
From Verif Require Import Bytes BytesProofs Ring RingSpec RingHistory Parse ParseSpec Iov Cat CatSpec CatProofs Render Live LiveSpec LiveProofs LiveDump LiveText
  SaidSpec PropsSaid FollowSpec FollowProofs PropsFollow Busy BusySpec BusyProofs BusyRun PropsBusy BusyLive.
Import ListNotations.
Open Scope Z_scope.
#[local] Arguments shown_from : simpl never.
#[local] Arguments delivered : simpl never.

Lemma poll_none uid : forall fds i b, ~ In true fds -> busy_poll uid i fds b = (b, map (fun _ => false) fds).
Proof.
  induction fds as [|a fds IH]; intros i b H; [reflexivity|]. cbn [busy_poll]. destruct a; [destruct H; now left|].
  rewrite (IH (S i) b) by (intros X; apply H; now right). reflexivity.
Qed.
Lemma rounds_add {W} (en : env W) : forall a b w c, rounds (a + b) en w c = (let* (w, c) := rounds a en w c in rounds b en w c).
Proof.
  induction a as [|a IH]; intros b w c; [reflexivity|]. cbn [Nat.add rounds].
  destruct (process_devices en w c) as [[[w1 c1] r]|e]; cbn [bind]; [apply IH|reflexivity].
Qed.

Section Settled.
Variables (csv : bool) (uid : Z) (gs : list LiveSpec.log) (ls : list (list said)) (sched : list (list (nat * op))).
Hypothesis names_ok : Forall (fun g => c_string (g_nm g) /\ zlen (g_nm g) <= 15) gs.
Hypothesis same_len : length ls = length gs.
Hypothesis sched_ok : Forall (Forall (fun io => forall g, nth_error gs (fst io) = Some g -> polite (g_fid g) (snd io))) sched.

Definition left (w : busy * list got) : nat := length (snd (fst w)).
Definition TF (w : busy * list got) (f : nat -> nat) : Prop :=
  exists uss, B uid gs ls sched uss (fst w) /\
    (forall i, map val (delivered i (snd w)) = filter (wanted csv) (fst (uss i))) /\
    (forall i, Forall (fun p => fd_entry (snd p) <> None) (delivered i (snd w))) /\ forall i, snd (uss i) = f i.
Lemma TF_T w f : TF w f -> T csv uid gs ls sched w.
Proof. intros (uss & H1 & H2 & H3 & _). exists uss. auto. Qed.
Lemma T_TF w : T csv uid gs ls sched w -> exists f, TF w f.
Proof. intros (uss & H1 & H2 & H3). exists (fun i => snd (uss i)), uss. auto. Qed.

Lemma nil_len {A} (l : list A) : length l = O -> l = [].
Proof. destruct l; [reflexivity|discriminate]. Qed.
Lemma TF_poll w f fds : TF w f -> exists w' rev f', e_poll (tap (busy_env csv uid)) w fds = (w', inr rev) /\ TF w' f' /\
  ((left w' < left w)%nat \/
   (left w' = left w /\ (forall j, f' j = f j) /\ (In true fds -> left w = O /\
      forall j, (j < length gs)%nat -> nth j rev false = nth j fds false && negb (Nat.eqb (f j) 0)))).
Proof.
  intros HF. pose proof HF as (uss & HB & HD & HE & Hf). destruct w as [b l]. cbn [fst snd] in *.
  destruct (in_dec Bool.bool_dec true fds) as [Hin|Hout].
  - destruct (poll_busy uid gs ls sched same_len sched_ok fds 0 uss b HB) as (b' & r & uss' & E & HB' & [Sm1 Sm2] & L1 & L2 & Hr).
    specialize (L2 Hin). exists (b', l), r, (fun i => snd (uss' i)). cbn. rewrite E. split; [reflexivity|].
    split; [exists uss'; cbn [fst snd]; split; [exact HB'|]; split; [intros i; now rewrite Sm1|]; split; [exact HE|reflexivity]|].
    unfold left; cbn [fst]. destruct (snd b) as [|x y] eqn:Eb; [right|left; cbn in *; lia].
    split; [cbn in *; lia|]. split; [intros j; now rewrite (Sm2 eq_refl)|]. intros _. split; [reflexivity|]. intros j Hj.
    rewrite <- Hf. apply Hr; [reflexivity|exact Hj].
  - exists (b, l), (map (fun _ => false) fds), f. cbn. rewrite (poll_none uid fds 0 b Hout). split; [reflexivity|]. split; [exact HF|].
    right. split; [reflexivity|]. split; [reflexivity|]. intros X; now destruct Hout.
Qed.
Lemma TF_recv w f i : TF w f -> (i < length gs)%nat -> exists w' x f', e_recv (tap (busy_env csv uid)) w i = (w', x) /\ x <> RxFail /\ TF w' f' /\
  (left w' <= left w)%nat /\ (left w = O -> (0 < f i)%nat -> (f' i < f i)%nat /\ forall j, j <> i -> f' j = f j).
Proof.
  intros (uss & HB & HD & HE & Hf) Hi. destruct w as [b l]. cbn [fst snd] in *.
  destruct (recv_busy csv uid gs ls sched names_ok same_len sched_ok uss b i HB Hi) as (b' & x & uss' & E & HB' & L & Hx).
  cbn. rewrite E. eexists _, x, (fun i => snd (uss' i)). split; [reflexivity|].
  unfold left; cbn [fst snd]. destruct Hx as [(-> & [Sm _] & Z0)|(bs & u & Hr & -> & U1 & U2 & U3)].
  - split; [discriminate|]. rewrite app_nil_r.
    split; [exists uss'; cbn [fst snd]; split; [exact HB'|]; split; [intros j; now rewrite Sm|]; split; [exact HE|reflexivity]|].
    split; [lia|]. intros E0 Hpos. specialize (Z0 (nil_len _ E0)). rewrite Hf in Z0. lia.
  - destruct (T_more csv l uss uss' i bs u Hr U1 U2 HD HE) as (D' & E' & X). split; [exact X|].
    split; [exists uss'; cbn [fst snd]; split; [exact HB'|]; split; [exact D'|]; split; [exact E'|reflexivity]|].
    split; [lia|]. intros E0 Hpos. destruct (U3 (nil_len _ E0)) as [U4 U5]. rewrite <- !Hf. split; [lia|]. intros j Hj. now rewrite (U5 j Hj), Hf.
Qed.

(** A round, and any number of them. *)
Definition SL (N : Z) (n : nat) (w : busy * list got) (c : ctx) (f : nat -> nat) : Prop := S_ok csv uid gs ls sched N n w c /\ TF w f.
Hypothesis some_device : gs <> [].
Notation len := (length gs).
Lemma SL_process N n w l c f : SL N n (w, l) c f ->
  exists w' l' c' r f', process_devices (busy_env csv uid) w c = Ok (w', c', r) /\ SL N n (w', l') c' f' /\
    ((left (w', l') < left (w, l))%nat \/ (left (w', l') = left (w, l) /\ (work len f' c' < work len f c)%nat) \/
     (work len f c = O /\ idle len left (w', l') f' c')).
Proof.
  intros (HS & HF). pose proof HS as (_ & I & F & M & HBI). cbn [snd] in F.
  destruct (process_devices_inv (busy_env csv uid) n w c (busy_sane csv uid) I) as (w' & c' & r & E & _).
  destruct (tap_process (busy_env csv uid) w l c) as (l' & Et). rewrite E in Et.
  destruct (FI_process N (busy_env csv uid) n w l c w' l' c' r (busy_sane csv uid) I F M Et) as (I' & F' & M').
  destruct (live_round (tap (busy_env csv uid)) n len TF left (tap_sane _ (busy_sane csv uid)) TF_poll TF_recv (w, l) f c (w', l') c' r) as (f' & HF' & Hm);
    [|exact I|exact (bi_n _ _ _ HBI)|exact HF|exact Et|].
  { destruct gs; [congruence|cbn; lia]. }
  exists w', l', c', r, f'. split; [exact E|]. split; [|exact Hm]. split; [|exact HF']. split; [eapply TF_T; exact HF'|]. split; [exact I'|]. split; [exact F'|].
  split; [exact M'|]. eapply (devs_process (busy_env csv uid)); eassumption.
Qed.
Lemma SL_idle N n : forall k w l c f, SL N n (w, l) c f -> idle len left (w, l) f c ->
  exists w' l' c' f', rounds k (busy_env csv uid) w c = Ok (w', c') /\ SL N n (w', l') c' f' /\ idle len left (w', l') f' c'.
Proof.
  induction k as [|k IH]; intros w l c f HS HI; cbn [rounds]; [eauto 8|].
  destruct (SL_process N n w l c f HS) as (w1 & l1 & c1 & r & f1 & E & H1 & Hm). rewrite E. cbn [bind]. apply (IH w1 l1 c1 f1 H1).
  destruct HI as (I1 & I2 & I3). destruct Hm as [Hm|[(_ & Hm)|(_ & Hm)]]; [lia|lia|exact Hm].
Qed.
Lemma SL_settles N n : forall a b w l c f, SL N n (w, l) c f -> (left (w, l) <= a)%nat -> (work len f c <= b)%nat ->
  exists k w' l' c' f', rounds k (busy_env csv uid) w c = Ok (w', c') /\ SL N n (w', l') c' f' /\ idle len left (w', l') f' c'.
Proof.
  induction a as [|a IHa]; induction b as [|b IHb]; intros w l c f HS Ha Hb;
    destruct (SL_process N n w l c f HS) as (w1 & l1 & c1 & r & f1 & E & H1 & Hm).
  all: assert (Go : (exists k w' l' c' f', rounds k (busy_env csv uid) w1 c1 = Ok (w', c') /\ SL N n (w', l') c' f' /\ idle len left (w', l') f' c') ->
         exists k w' l' c' f', rounds k (busy_env csv uid) w c = Ok (w', c') /\ SL N n (w', l') c' f' /\ idle len left (w', l') f' c')
       by (intros (k & X); exists (S k); cbn [rounds]; rewrite E; cbn [bind]; exact X).
  all: apply Go; clear Go.
  all: destruct Hm as [Hm|[(Hm1 & Hm2)|(_ & Hm)]].
  all: try (exists O; cbn [rounds]; now eauto 8).
  all: try lia.
  - apply (IHb w1 l1 c1 f1 H1); lia.
  - apply (IHa (work len f1 c1) w1 l1 c1 f1 H1); lia.
  - apply (IHa (work len f1 c1) w1 l1 c1 f1 H1); lia.
  - apply (IHb w1 l1 c1 f1 H1); lia.
Qed.
End Settled.

(** What is left over when nothing is left to read. *)
Lemma leftover uid all tl0 tl gap q : wt uid all gap q = O -> (q = [] -> stuck tl0 tl gap) ->
  (forall m, In (m, false) gap -> vis uid all m = false) ->
  map fst gap ++ q = [] \/ (exists x m, map fst gap ++ q = x ++ [m] /\ vis uid all m = false) \/ tl = tl0.
Proof.
  intros W0 S0 G. destruct q as [|m q _] using rev_ind.
  - rewrite app_nil_r. destruct (S0 eq_refl) as [->|[(g0 & m & ->)|E]]; [now left| |auto].
    right; left. exists (map fst g0), m. rewrite map_app. split; [reflexivity|]. apply G, in_or_app. right; now left.
  - right; left. exists (map fst gap ++ q), m. split; [apply app_assoc|].
    destruct (vis uid all m) eqn:V; [exfalso|reflexivity]. unfold wt in W0. rewrite filter_app in W0. cbn [filter] in W0. rewrite V in W0.
    destruct (filter (vis uid all) q); cbn in W0; lia.
Qed.

(** As in C107, but the other processes become silent. Then there is a round after which, and ever
    after, they have made all their calls and everything is shown: the reader was told about every
    message accepted by the driver, but for some whose last one belongs to another user (or nothing
    was logged since the reader opened the device, and nothing is visible to it); and all that it was
    told is shown, but for entries that precede the tail. *)
Theorem C108_settles : forall csv uid gs ls sched N,
  Forall (started uid) gs -> Forall2 was_told gs ls -> Forall (fun g => c_string (g_nm g)) gs -> 0 <= N -> gs <> [] ->
  (forall batch i o g, In batch sched -> In (i, o) batch -> nth_error gs i = Some g -> polite (g_fid g) o) ->
  exists k0, forall k, (k0 <= k)%nat ->
  exists b' c', rounds k (busy_env csv uid) (map g_node gs, sched) (open_ctx N (map g_mark gs)) = Ok (b', c') /\
  snd b' = [] /\
  forall i g l, nth_error gs i = Some g -> nth_error ls i = Some l ->
  exists n' tr tl told unread us dropped,
    nth_error (fst b') i = Some n' /\
    run (fst (g_node g)) (map fst tr) = Ok (fst n', map snd tr) /\
    of_others (g_fid g) (map fst tr) = calls_on i sched /\
    timeline (map Some l) tr tl /\
    tl = told ++ map Some unread /\
    tells (sees uid g) (g_nm g) (fun m => In (Some m) tl) told us /\
    (unread = [] \/ (exists x m, unread = x ++ [m] /\ sees uid g m = false) \/ tl = map Some l) /\
    (exists d', step (fst n') (OpPoll (g_fid g) uid) = Ok (d', OutPoll false)) /\
    filter (wanted csv) us = dropped ++ entries_of i (entries (c_out c')) /\
    (dropped <> [] -> 0 < N).
Proof.
  intros csv uid gs ls sched N Hst Htold Hnm HN Hne Hpol.
  assert (Hlen : length ls = length gs) by (clear - Htold; induction Htold; cbn; congruence).
  assert (Hnames : Forall (fun g => c_string (g_nm g) /\ zlen (g_nm g) <= 15) gs).
  { rewrite Forall_forall in *. intros g Hg. split; [now apply Hnm|]. destruct (Hst g Hg) as ((_ & _ & H) & _). lia. }
  assert (Hsched : Forall (Forall (fun io => forall g, nth_error gs (fst io) = Some g -> polite (g_fid g) (snd io))) sched).
  { apply Forall_forall. intros batch Hb. apply Forall_forall. intros [i o] Hi g Hg. eapply Hpol; eauto. }
  pose proof (S_start csv uid gs ls sched N Hst Htold HN) as H0.
  destruct (T_TF csv uid gs ls sched _ (proj1 H0)) as (f & HF).
  destruct (SL_settles csv uid gs ls sched Hnames Hlen Hsched Hne N _ _ _ _ _ _ f (conj H0 HF) (le_n _) (le_n _)) as (k0 & w0 & l0 & c0 & f0 & E0 & H1 & Hi).
  exists k0. intros k Hk. replace k with (k0 + (k - k0))%nat by lia.
  destruct (SL_idle csv uid gs ls sched Hnames Hlen Hsched Hne N _ (k - k0) _ _ _ _ H1 Hi) as (b' & l' & c' & f' & E & (HS & HF') & (I1 & I2 & I3)).
  exists b', c'. rewrite rounds_add, E0. cbn [bind]. split; [exact E|]. unfold left in I1. cbn [fst] in I1. apply nil_len in I1. split; [exact I1|].
  destruct HS as (_ & I & F & M & _). destruct HF' as (uss & (done & Es & HL & HJ) & HD & HE & Hf). cbn [fst snd] in *.
  rewrite I1, app_nil_r in Es. subst done. intros i g l Eg El.
  assert (Hi' : (i < length gs)%nat) by (apply nth_error_Some; congruence).
  destruct (nth_error (fst b') i) as [n'|] eqn:En; [|apply nth_error_None in En; lia].
  assert (W0 : snd (uss i) = O).
  { rewrite Hf. pose proof (sum_le (length gs) f' i Hi'). unfold work in I2. lia. }
  pose proof (HJ i g l n' Eg El En) as HJi.
  assert (Ep : exists d', step (fst n') (OpPoll (g_fid g) uid) = Ok (d', OutPoll false)).
  { destruct n' as [d fid]. pose proof HJi as (Ef & _). cbn [snd] in Ef. subst fid. destruct (J_poll _ _ _ _ _ _ HJi) as (d' & Es & _). exists d'.
    cbn [fst]. rewrite Es, W0. reflexivity. }
  destruct HJi as (_ & tr & tl & told & gap & q & a & Er & Eo & Tm & _ & _ & HK & TS & Wt).
  destruct (fi_dev _ _ _ F i) as (dr & D & Zd).
  assert (Q0 : c_rq c' ++ c_pq c' = []).
  { rewrite (fi_now _ _ _ F (M I3)). cbn [app]. apply nil_len. unfold work in I2. lia. }
  rewrite Q0 in D. unfold on in D. cbn [filter map] in D. rewrite app_nil_r in D.
  exists n', tr, tl, told, (map fst gap ++ q), (fst (uss i)), (map val dr).
  split; [reflexivity|]. split; [exact Er|]. split; [exact Eo|]. split; [exact Tm|]. split; [apply HK|]. split; [exact TS|].
  split. { apply (leftover uid (g_all g) (map Some l) tl gap q); [congruence|apply HK|apply HK]. }
  split; [exact Ep|].
  assert (FE : Forall (fun p => fd_entry (snd p) <> None) (shown_from i (c_out c'))).
  { specialize (HE i). rewrite D in HE. apply Forall_app in HE. apply HE. }
  split; [rewrite <- HD, D, map_app, (entries_from i _ FE); reflexivity|].
  intros X. apply Zd. intros ->. now apply X.
Qed.

(** The logs of C107: seven rounds are enough, and one more changes nothing. *)
Example C108_ex : Forall (started 0) [ex_g1; ex_g2] /\ Forall2 was_told [ex_g1; ex_g2] [[ex_m1; ex_m3]; [ex_m2]] /\
  Forall (fun g => c_string (g_nm g)) [ex_g1; ex_g2] /\ [ex_g1; ex_g2] <> [] /\
  (forall batch i o g, In batch ex_sched -> In (i, o) batch -> nth_error [ex_g1; ex_g2] i = Some g -> polite (g_fid g) o).
Proof. destruct C107_ex as (H1 & H2 & H3 & H4). split; [exact H1|]. split; [exact H2|]. split; [exact H3|]. split; [discriminate|exact H4]. Qed.
Example C108_out : ex_follow 7 = ex_follow 8 /\ ex_follow 7 = Some [(0%nat, shown ex_m1); (0%nat, shown ex_m3); (0%nat, shown ex_m4)].
Proof. vm_compute. split; reflexivity. Qed.
Print Assumptions C108_settles.
