(** Property C121: C++ streams and threads. *)
From Coq Require Import ZArith String List Bool Lia ZifyBool Arith.
From Verif Require Import Bytes BytesProofs Stream StreamThreads.
Import ListNotations.
Open Scope Z_scope.

(** What thread [t] does, less its single characters (lost anyway, C57), until it ends. *)
Fixpoint doings (t : nat) (l : list top) : list op :=
  match l with
  | [] => []
  | Do i o :: r => if Nat.eqb i t then match o with Put _ _ => doings t r | _ => o :: doings t r end else doings t r
  | End i :: r => if Nat.eqb i t then [] else doings t r
  end.
(** Nothing is done by [t] after it ended. *)
Fixpoint orderly (t : nat) (l : list top) : Prop :=
  match l with
  | [] => True
  | End i :: r => if Nat.eqb i t then Forall (fun x => match x with Do j _ | End j => j <> t end) r else orderly t r
  | _ :: r => orderly t r
  end.
Definition logs_of (t : nat) (e : list (nat * event)) : list event := map snd (filter (fun x => Nat.eqb (fst x) t) e).

Lemma bad_mono cap : forall l w, (forall i, w_bad (fst (wrun cap w l)) i = false) -> forall i, w_bad w i = false.
Proof.
  induction l as [|x l IH]; intros w H; [exact H|]. cbn [wrun] in H. destruct (wstep cap w x) as [w1 e1] eqn:E. destruct (wrun cap w1 l) as [w2 e2] eqn:E2.
  cbn [fst] in H. specialize (IH w1). rewrite E2 in IH. cbn [fst] in IH. specialize (IH H).
  intros i. specialize (IH i). destruct (w_bad w i) eqn:B; [|reflexivity]. exfalso.
  destruct x as [t o|t]; cbn [wstep] in E.
  - destruct (step cap _ o) as [s ev] eqn:S. injection E as <- <-. cbn in IH.
    assert (X : st_bad s i = true); [|congruence]. destruct o as [tg|lv x|lv c|lv]; cbn in S.
    + injection S as <- <-. exact B.
    + destruct (w_bad w lv); injection S as <- <-; exact B.
    + destruct (w_bad w lv); [injection S as <- <-; exact B|]. destruct (w_fill w lv <? CPP_BUF_SIZE); injection S as <- <-; cbn; [exact B|].
      unfold upd. destruct (i =? lv); auto.
    + destruct (w_bad w lv); [injection S as <- <-; exact B|]. unfold sync in S. cbn in S. destruct (fst (w_key w t)) as [[|c cs]|]; injection S as <- <-; exact B.
  - injection E as <- <-. cbn in IH. congruence.
Qed.
Lemma logs_app t a b : logs_of t (a ++ b) = logs_of t a ++ logs_of t b.
Proof. unfold logs_of. now rewrite filter_app, map_app. Qed.
Lemma logs_same t ev : logs_of t (map (fun e => (t, e)) ev) = ev.
Proof. unfold logs_of. induction ev as [|e ev IH]; [reflexivity|]. cbn. rewrite Nat.eqb_refl. cbn. now rewrite IH. Qed.
Lemma logs_other t i ev : i <> t -> logs_of t (map (fun e => (i, e)) ev) = [].
Proof. intros N. unfold logs_of. induction ev as [|e ev IH]; [reflexivity|]. cbn. destruct (Nat.eqb_spec i t); [congruence|exact IH]. Qed.

Lemma others_only cap t : forall l w, Forall (fun x => match x with Do j _ | End j => j <> t end) l ->
  logs_of t (snd (wrun cap w l)) = [] /\ w_key (fst (wrun cap w l)) t = w_key w t.
Proof.
  induction l as [|x l IH]; intros w F; [split; reflexivity|]. inversion F; subst. cbn [wrun]. destruct (wstep cap w x) as [w1 e1] eqn:E. specialize (IH w1 H2).
  destruct (wrun cap w1 l) as [w2 e2]. cbn [fst snd] in *. rewrite logs_app. destruct IH as [-> ->]. rewrite app_nil_r.
  destruct x as [i o|i]; cbn [wstep] in E.
  - destruct (step cap _ o) as [s ev]. injection E as <- <-. split; [now apply logs_other|]. cbn. unfold set_key. destruct (Nat.eqb_spec t i); [congruence|reflexivity].
  - injection E as <- <-. split; [reflexivity|]. cbn. unfold set_key. destruct (Nat.eqb_spec t i); [congruence|reflexivity].
Qed.

(** One thread alone, from a state where no badbit is set and only strings and tags matter. *)
Lemma alone cap : forall l w t a, (forall i, w_bad (fst (wrun cap w l)) i = false) -> orderly t l ->
  st_str a = fst (w_key w t) -> st_tag a = snd (w_key w t) -> (forall i, st_bad a i = false) ->
  logs_of t (snd (wrun cap w l)) = snd (run cap a (doings t l)).
Proof.
  induction l as [|x l IH]; intros w t a NB O A1 A2 A3; [reflexivity|].
  pose proof (bad_mono cap (x :: l) w NB) as B0. cbn [wrun] in *. destruct (wstep cap w x) as [w1 e1] eqn:E.
  destruct (wrun cap w1 l) as [w2 e2] eqn:E2. cbn [fst snd] in *. rewrite logs_app.
  assert (NB1 : forall i, w_bad (fst (wrun cap w1 l)) i = false) by (rewrite E2; exact NB).
  assert (E2' : e2 = snd (wrun cap w1 l)) by (rewrite E2; reflexivity).
  assert (W2' : w2 = fst (wrun cap w1 l)) by (rewrite E2; reflexivity).
  destruct x as [i o|i]; cbn [doings orderly] in *.
  - cbn [wstep] in E. destruct (step cap _ o) as [s ev] eqn:S. injection E as <- <-. destruct (Nat.eqb_spec i t) as [->|N].
    + rewrite logs_same. set (w1 := mkWorld _ _ _) in *. assert (K : w_key w1 t = (st_str s, st_tag s)) by (subst w1; cbn; unfold set_key; now rewrite Nat.eqb_refl).
      destruct o as [tg|lv y|lv c|lv]; cbn in S.
      * injection S as <- <-. cbn [app run step]. destruct (run cap (mkState (st_str a) (Some tg) (st_fill a) (st_bad a)) (doings t l)) as [s2 e3] eqn:R. cbn.
        rewrite E2', (IH w1 t (mkState (st_str a) (Some tg) (st_fill a) (st_bad a))); auto; [now rewrite R|rewrite K; exact A1|rewrite K; reflexivity].
      * rewrite B0 in S. injection S as <- <-. cbn [app run step]. rewrite A3. destruct (run cap _ (doings t l)) as [s2 e3] eqn:R. cbn.
        rewrite E2', (IH w1 t (mkState (xsputn cap (st_str a) y) (st_tag a) (st_fill a) (st_bad a))); auto; [now rewrite R|rewrite K; cbn; now rewrite A1|rewrite K; exact A2].
      * rewrite B0 in S. destruct (w_fill w lv <? CPP_BUF_SIZE); injection S as <- <-; cbn [app].
        -- rewrite E2'. apply IH; auto; rewrite K; auto.
        -- rewrite E2'. apply IH; auto; rewrite K; auto.
      * rewrite B0 in S. cbn [run step]. rewrite A3. unfold sync in *. cbn in S. rewrite A1, A2.
        destruct (fst (w_key w t)) as [[|c cs]|]; injection S as <- <-; cbn [run app]; destruct (run cap _ (doings t l)) as [s2 e3] eqn:R; cbn [snd app];
          rewrite E2'; [| |]; try f_equal; (erewrite (IH w1 t); [rewrite R; reflexivity| | | | |]; auto; rewrite K; auto).
    + rewrite (logs_other t i ev N). cbn [app]. rewrite E2'. apply IH; auto; cbn; unfold set_key; destruct (Nat.eqb_spec t i); congruence.
  - cbn [wstep] in E. injection E as <- <-. cbn [logs_of filter map app]. destruct (Nat.eqb_spec i t) as [->|N].
    + rewrite E2'. apply others_only. exact O.
    + rewrite E2'. apply IH; auto; cbn; unfold set_key; destruct (Nat.eqb_spec t i); congruence.
Qed.

(** ** C121 *)

(** However the threads interleave, as long as no stream has gone bad: what a thread logs is what it
    would log alone, whatever the others write, flush, tag or put. *)
Theorem C121_apart_partial : forall cap l t, orderly t l -> (forall i, w_bad (fst (wrun cap winit l)) i = false) ->
  logs_of t (snd (wrun cap winit l)) = snd (run cap init (doings t l)).
Proof. intros cap l t O NB. apply alone; auto. Qed.

(** No stream goes bad when nothing is put character by character. *)
Theorem C121_good : forall cap l, Forall (fun x => match x with Do _ (Put _ _) => False | _ => True end) l -> forall i, w_bad (fst (wrun cap winit l)) i = false.
Proof.
  intros cap l F i. assert (H : w_bad winit i = false) by reflexivity. revert H. generalize winit. induction F as [|x l Fx F IH]; intros w H; [exact H|].
  cbn [wrun]. destruct (wstep cap w x) as [w1 e1] eqn:E. specialize (IH w1). destruct (wrun cap w1 l) as [w2 e2]. cbn [fst] in *. apply IH. clear IH.
  destruct x as [t o|t]; cbn [wstep] in E; [|injection E as <- <-; exact H]. destruct (step cap _ o) as [s ev] eqn:S. injection E as <- <-. cbn.
  destruct o as [tg|lv y|lv c|lv]; cbn in S; [| |destruct Fx|].
  - injection S as <- <-. exact H.
  - destruct (w_bad w lv); injection S as <- <-; exact H.
  - destruct (w_bad w lv); [injection S as <- <-; exact H|]. unfold sync in S. cbn in S. destruct (fst (w_key w t)) as [[|c cs]|]; injection S as <- <-; exact H.
Qed.

(** A thread that puts characters without flushing silences the others on that stream, for good. *)
Theorem C121_bad_refuted : exists l, l = repeat (Do 1 (Put 6 120)) 513 ++ [Do 2 (Write 6 [97]); Do 2 (Flush 6)] /\
  snd (wrun 512 winit l) = [] /\ snd (run 512 init (doings 2 l)) = [Log 6 None [97]].
Proof. eexists. split; [reflexivity|]. split; vm_compute; reflexivity. Qed.

(** Memory: strings are created and freed in turn, and an ended thread has none. *)
Fixpoint balanced (live : nat -> bool) (m : list mem) : option (nat -> bool) :=
  match m with
  | [] => Some live
  | New t :: r => if live t then None else balanced (fun i => if Nat.eqb i t then true else live i) r
  | Delete t :: r => if live t then balanced (fun i => if Nat.eqb i t then false else live i) r else None
  end.
Lemma balanced_app : forall a b v, balanced v (a ++ b) = match balanced v a with Some v' => balanced v' b | None => None end.
Proof. induction a as [|x a IH]; intros b v; [reflexivity|]. destruct x as [t|t]; cbn [app balanced]; destruct (v t); auto. Qed.
Lemma heap_run cap : forall l w v, (forall t, v t = match fst (w_key w t) with Some _ => true | None => false end) ->
  exists v', balanced v (wheap cap w l) = Some v' /\ forall t, v' t = match fst (w_key (fst (wrun cap w l)) t) with Some _ => true | None => false end.
Proof.
  induction l as [|x l IH]; intros w v V; [exists v; auto|]. cbn [wheap wrun]. destruct (wstep cap w x) as [w1 e1] eqn:E. rewrite balanced_app. cbn [fst].
  assert (ST : exists v1, balanced v (wmem cap w x) = Some v1 /\ forall t, v1 t = match fst (w_key w1 t) with Some _ => true | None => false end).
  { destruct x as [t o|t]; cbn [wstep] in E.
    - destruct (step cap _ o) as [s ev] eqn:S. injection E as <- <-. cbn [w_key]. unfold set_key.
      assert (KEEP : (match st_str s with Some _ => true | None => false end) = v t -> exists v1, balanced v [] = Some v1 /\
         forall i, v1 i = match fst (if Nat.eqb i t then (st_str s, st_tag s) else w_key w i) with Some _ => true | None => false end).
      { intros Q. exists v. split; [reflexivity|]. intros i. destruct (Nat.eqb_spec i t) as [->|N]; [now rewrite <- Q|apply V]. }
      pose proof (V t) as Vt. destruct o as [tg|lv y|lv c|lv]; cbn in S; cbn [wmem].
      + injection S as <- <-. apply KEEP. cbn. now rewrite Vt.
      + destruct (w_bad w lv).
        * injection S as <- <-. cbn in KEEP. destruct (fst (w_key w t)) eqn:K; apply KEEP; now rewrite Vt.
        * injection S as <- <-. cbn [st_str st_tag] in *. destruct (fst (w_key w t)) eqn:K; cbn [xsputn] in *.
          -- apply KEEP. now rewrite Vt.
          -- cbn [balanced]. rewrite Vt. eexists. split; [reflexivity|]. intros i. cbn beta. destruct (Nat.eqb i t); [reflexivity|apply V].
      + destruct (w_bad w lv); [injection S as <- <-|destruct (w_fill w lv <? CPP_BUF_SIZE); injection S as <- <-]; apply KEEP; cbn; now rewrite Vt.
      + destruct (w_bad w lv); [injection S as <- <-; apply KEEP; cbn; now rewrite Vt|]. unfold sync in S. cbn in S.
        destruct (fst (w_key w t)) as [[|c cs]|]; injection S as <- <-; apply KEEP; cbn; now rewrite Vt.
    - injection E as <- <-. cbn [w_key wmem]. unfold set_key. pose proof (V t) as Vt. destruct (fst (w_key w t)) eqn:K; cbn [balanced]; rewrite ?Vt.
      + eexists. split; [reflexivity|]. intros i. cbn beta. destruct (Nat.eqb i t); [reflexivity|apply V].
      + exists v. split; [reflexivity|]. intros i. destruct (Nat.eqb_spec i t) as [->|N]; [exact Vt|apply V]. }
  destruct ST as (v1 & -> & V1). destruct (IH w1 v1 V1) as (v' & B & V'). exists v'. split; [exact B|]. destruct (wrun cap w1 l). exact V'.
Qed.
Lemma wrun_snoc cap : forall l w x, fst (wrun cap w (l ++ [x])) = fst (wstep cap (fst (wrun cap w l)) x).
Proof.
  induction l as [|y l IH]; intros w x; cbn [app wrun].
  - cbn [fst]. destruct (wstep cap w x) as [w1 e1]. reflexivity.
  - destruct (wstep cap w y) as [w1 e1]. specialize (IH w1 x). destruct (wrun cap w1 (l ++ [x])), (wrun cap w1 l). exact IH.
Qed.
Lemma destroy_run : forall n w t v, (forall i, v i = match fst (w_key w i) with Some _ => true | None => false end) -> (0 < n)%nat ->
  exists v', balanced v (snd (destroy n w t)) = Some v' /\ forall i, v' i = if Nat.eqb i t then false else v i.
Proof.
  assert (Z : forall n w t, fst (w_key w t) = None -> snd (destroy n w t) = []).
  { induction n as [|n IH]; intros w t K; [reflexivity|]. cbn [destroy]. rewrite K. specialize (IH w t K). destruct (destroy n w t). exact IH. }
  intros [|n] w t v V Hn; [lia|]. cbn [destroy]. pose proof (V t) as Vt. destruct (fst (w_key w t)) eqn:K.
  - set (w1 := mkWorld _ _ _). assert (K1 : fst (w_key w1 t) = None) by (subst w1; cbn; unfold set_key; now rewrite Nat.eqb_refl).
    specialize (Z n w1 t K1). destruct (destroy n w1 t) as [w2 m2]. cbn [snd] in *. subst m2. cbn. rewrite Vt. eexists. split; reflexivity.
  - specialize (Z n w t K). destruct (destroy n w t) as [w2 m2]. cbn [snd] in *. subst m2. exists v. split; [reflexivity|].
    intros i. destruct (Nat.eqb_spec i t) as [->|N]; [exact Vt|reflexivity].
Qed.

(** No string is freed twice or lost: at the end of the process, after its static streams are destroyed, the only
    strings left are those of other threads that wrote something and have not ended. *)
Theorem C121_memory : forall cap l main n, (0 < n)%nat ->
  let w := fst (wrun cap winit l) in
  exists live, balanced (fun _ => false) (wheap cap winit l ++ snd (destroy n w main)) = Some live /\
    forall t, live t = true -> t <> main /\ exists l1 lv s l2, l = l1 ++ Do t (Write lv s) :: l2 /\ ~ In (End t) l2.
Proof.
  intros cap l main n Hn w. destruct (heap_run cap l winit (fun _ => false)) as (v & B & V); [reflexivity|].
  destruct (destroy_run n w main v V Hn) as (v' & B' & V'). exists v'. rewrite balanced_app, B. split; [exact B'|].
  intros t L. rewrite V' in L. destruct (Nat.eqb_spec t main) as [E|N]; [discriminate L|]. split; [exact N|].
  rewrite V in L. fold w in L. assert (K : fst (w_key w t) <> None) by (destruct (fst (w_key w t)); discriminate).
  subst w. clear - K. revert K. induction l as [|x l IH] using rev_ind; intros K; [cbn in K; congruence|]. rewrite wrun_snoc in K.
  destruct (wrun cap winit l) as [w e]. cbn [fst] in *. destruct (fst (w_key w t)) as [str|] eqn:W.
  - destruct IH as (l1 & lv & s & l2 & -> & N); [discriminate|]. exists l1, lv, s, (l2 ++ [x]). split; [now rewrite <- app_assoc|].
    intros I. apply in_app_iff in I. destruct I as [I|[->|[]]]; [exact (N I)|]. cbn in K. unfold set_key in K. rewrite Nat.eqb_refl in K. apply K. reflexivity.
  - clear IH. destruct x as [i o|i]; cbn [wstep] in K.
    + destruct (step cap _ o) as [s ev] eqn:S. cbn in K. unfold set_key in K. destruct (Nat.eqb_spec t i) as [->|N]; [|congruence]. cbn in K.
      destruct o as [tg|lv y|lv c|lv]; cbn in S.
      * injection S as <- <-. cbn in K. congruence.
      * exists l, lv, y, []. split; [reflexivity|intros []].
      * destruct (w_bad w lv); [|destruct (w_fill w lv <? CPP_BUF_SIZE)]; injection S as <- <-; cbn in K; congruence.
      * destruct (w_bad w lv); [injection S as <- <-; cbn in K; congruence|]. unfold sync in S. cbn in S. rewrite W in S. injection S as <- <-. cbn in K. congruence.
    + cbn in K. unfold set_key in K. destruct (Nat.eqb_spec t i); cbn in K; congruence.
Qed.

Definition ex_l : list top := [Do 1 (Tag [116]); Do 1 (Write 6 [97; 98]); Do 2 (Write 3 [99]); Do 1 (Put 6 10); Do 2 (Flush 3); Do 1 (Flush 6); End 2].
Example C121_apart_ex : orderly 1 ex_l /\ (forall i, w_bad (fst (wrun 512 winit ex_l)) i = false) /\ logs_of 1 (snd (wrun 512 winit ex_l)) = [Log 6 (Some [116]) [97; 98]] /\
  logs_of 2 (snd (wrun 512 winit ex_l)) = [Log 3 None [99]] /\ wheap 512 winit ex_l = [New 1; New 2; Delete 2].
Proof. split; [repeat constructor|]. split; [intros i; reflexivity|]. repeat split. Qed.

Print Assumptions C121_apart_partial.
Print Assumptions C121_good.
Print Assumptions C121_bad_refuted.
Print Assumptions C121_memory.
