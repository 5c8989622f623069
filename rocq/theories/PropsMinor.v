(** Property C148: devices opened, added and listed at the same time. *)
From Coq Require Import ZArith String List Bool Lia ZifyBool ZifyNat Arith.
From Verif Require Import Bytes BytesProofs Minor.
Import ListNotations.
Open Scope Z_scope.

(** ** Vocabulary *)
Definition done (c : job * pc) : Prop := exists a, snd c = Fin a.
(** Only log_main is opened; nothing is added. *)
Definition only_main (m0 : Z) (j : job) : Prop := match j with Open m => m = m0 | _ => True end.
Definition no_add (j : job) : Prop := match j with Add _ => False | _ => True end.

(** ** Invariant *)
Definition holds_logs (c : job * pc) : bool :=
  match c with (Add _, P1) | (Add _, P2) | (Add _, P3 _) | (Open _, P2) | (Show, P1) => true | _ => false end.
Definition holds_mtx (c : job * pc) : bool :=
  match c with (Add _, P2) | (Open _, P1) | (Open _, P2) => true | _ => false end.
Definition pending (c : option (job * pc)) : list device := match c with Some (Add n, P3 m) => [(n, m)] | _ => [] end.
Definition legal (c : job * pc) : Prop :=
  match c with (Open _, P3 _) | (Show, P2) | (Show, P3 _) => False | _ => True end.
Record inv (m0 : Z) (jobs : list job) (s : st) : Prop := mkInv {
  i_logs : forall t c, nth_error (s_calls s) t = Some c -> (holds_logs c = true <-> s_logs s = Some t);
  i_mtx : forall t c, nth_error (s_calls s) t = Some c -> (holds_mtx c = true <-> s_mtx s = Some t);
  i_logs_in : forall t, s_logs s = Some t -> exists c, nth_error (s_calls s) t = Some c;
  i_mtx_in : forall t, s_mtx s = Some t -> exists c, nth_error (s_calls s) t = Some c;
  i_misc : s_misc s = s_table s ++ match s_logs s with Some t => pending (nth_error (s_calls s) t) | None => [] end;
  i_nodup : NoDup (map snd (s_misc s));
  i_legal : forall t c, nth_error (s_calls s) t = Some c -> legal c;
  i_jobs : map fst (s_calls s) = jobs;
  i_main : exists l, s_table s = (bytes_of_string "ulog_main", m0) :: l }.

Lemma nth_put {A} t (x : A) l u : nth_error (put t x l) u = if Nat.eqb t u then match nth_error l u with Some _ => Some x | None => None end else nth_error l u.
Proof. revert t u. induction l as [|y l IH]; intros [|t] [|u]; cbn; try reflexivity; try (destruct (Nat.eqb t u); reflexivity). apply IH. Qed.
Lemma map_put t j p p' l : nth_error l t = Some (j, p) -> map fst (put t (j, p') l) = map (@fst job pc) l.
Proof. revert t. induction l as [|y l IH]; intros [|t]; cbn; try discriminate. - intros E. inversion E. reflexivity. - intros E. rewrite (IH t E). reflexivity. Qed.

Lemma NoDup_snoc {A} (l : list A) x : NoDup l -> ~ In x l -> NoDup (l ++ [x]).
Proof.
  induction 1 as [|y l Hy Hl IH]; intros Hx; cbn; [constructor; [intros []|constructor]|]. constructor.
  - rewrite in_app_iff. intros [H|[<-|[]]]; [exact (Hy H)|apply Hx; left; reflexivity].
  - apply IH. intros H. apply Hx. right. exact H.
Qed.

Lemma NoDup_left {A} (l r : list A) : NoDup (l ++ r) -> NoDup l.
Proof.
  induction l as [|x l IH]; intros Nd; [constructor|]. cbn [app] in Nd. apply NoDup_cons_iff in Nd. destruct Nd as [H1 H2].
  constructor; [|apply IH, H2]. intros H. apply H1, in_app_iff. left. exact H.
Qed.

Lemma init_inv m0 jobs : inv m0 jobs (init m0 jobs).
Proof.
  unfold init. split; cbn [s_calls s_logs s_mtx s_misc s_table]; try discriminate.
  - intros t c E. rewrite nth_error_map in E. destruct (nth_error jobs t) as [j|]; [|discriminate]. inversion E. destruct j; cbn; split; discriminate.
  - intros t c E. rewrite nth_error_map in E. destruct (nth_error jobs t) as [j|]; [|discriminate]. inversion E. destruct j; cbn; split; discriminate.
  - reflexivity.
  - repeat constructor. intros [].
  - intros t c E. rewrite nth_error_map in E. destruct (nth_error jobs t) as [j|]; [|discriminate]. inversion E. destruct j; exact Logic.I.
  - rewrite map_map. apply map_id.
  - exists []. reflexivity.
Qed.

(** A call moves on, and the owners change as its new place says. *)
Lemma move_inv m0 jobs table misc logs mtx calls t j p p' table' misc' logs' mtx' :
  inv m0 jobs (mkSt table misc logs mtx calls) -> nth_error calls t = Some (j, p) -> legal (j, p') ->
  (logs' = if holds_logs (j, p') then Some t else if holds_logs (j, p) then None else logs) ->
  (mtx' = if holds_mtx (j, p') then Some t else if holds_mtx (j, p) then None else mtx) ->
  (holds_logs (j, p') = true -> holds_logs (j, p) = true \/ logs = None) ->
  (holds_mtx (j, p') = true -> holds_mtx (j, p) = true \/ mtx = None) ->
  misc' = table' ++ match logs' with Some u => pending (nth_error (put t (j, p') calls) u) | None => [] end ->
  NoDup (map snd misc') -> (exists l, table' = (bytes_of_string "ulog_main", m0) :: l) ->
  inv m0 jobs (mkSt table' misc' logs' mtx' (put t (j, p') calls)).
Proof.
  intros [I1 I2 I3 I4 I5 I6 I7 I8 I9] E L EL EM HL HM Em Nd Mn. cbn [s_calls s_logs s_mtx s_misc s_table] in *.
  split; cbn [s_calls s_logs s_mtx s_misc s_table]; try assumption.
  - intros u c. rewrite nth_put. destruct (Nat.eqb_spec t u) as [<-|N].
    + rewrite E. intros X. inversion X; subst c. rewrite EL. destruct (holds_logs (j, p')); [tauto|].
      split; [discriminate|]. destruct (holds_logs (j, p)) eqn:H; [discriminate|]. intros Y. apply (I1 t _ E) in Y. congruence.
    + intros X. rewrite (I1 u c X), EL. destruct (holds_logs (j, p')) eqn:H'.
      * destruct (HL eq_refl) as [Y|Y]; [apply (I1 t _ E) in Y; split; congruence|split; congruence].
      * destruct (holds_logs (j, p)) eqn:H; [|tauto]. apply (I1 t _ E) in H. split; congruence.
  - intros u c. rewrite nth_put. destruct (Nat.eqb_spec t u) as [<-|N].
    + rewrite E. intros X. inversion X; subst c. rewrite EM. destruct (holds_mtx (j, p')); [tauto|].
      split; [discriminate|]. destruct (holds_mtx (j, p)) eqn:H; [discriminate|]. intros Y. apply (I2 t _ E) in Y. congruence.
    + intros X. rewrite (I2 u c X), EM. destruct (holds_mtx (j, p')) eqn:H'.
      * destruct (HM eq_refl) as [Y|Y]; [apply (I2 t _ E) in Y; split; congruence|split; congruence].
      * destruct (holds_mtx (j, p)) eqn:H; [|tauto]. apply (I2 t _ E) in H. split; congruence.
  - intros u X. rewrite nth_put. destruct (Nat.eqb_spec t u) as [<-|N]; [rewrite E; eauto|].
    rewrite EL in X. destruct (holds_logs (j, p')); [congruence|]. destruct (holds_logs (j, p)); [discriminate|]. auto.
  - intros u X. rewrite nth_put. destruct (Nat.eqb_spec t u) as [<-|N]; [rewrite E; eauto|].
    rewrite EM in X. destruct (holds_mtx (j, p')); [congruence|]. destruct (holds_mtx (j, p)); [discriminate|]. auto.
  - intros u c. rewrite nth_put. destruct (Nat.eqb_spec t u) as [<-|N]; [rewrite E; intros X; inversion X; subst; exact L|apply I7].
  - rewrite (map_put _ _ _ _ _ E). exact I8.
Qed.

(** The call a mutex belongs to, from the invariant. *)
Lemma inv_step old m0 jobs s t free : inv m0 jobs s -> inv m0 jobs (step old s t free).
Proof.
  intros I. destruct s as [table misc logs mtx calls]. unfold step. destruct (nth_error calls t) as [[j p]|] eqn:E; [|exact I].
  pose proof I as [I1 I2 I3 I4 I5 I6 I7 I8 I9]. cbn [s_calls s_logs s_mtx s_misc s_table] in *.
  assert (HL : holds_logs (j, p) = true -> logs = Some t) by (intros H; apply (I1 t _ E); exact H).
  assert (HM : holds_mtx (j, p) = true -> mtx = Some t) by (intros H; apply (I2 t _ E); exact H).
  assert (G : forall x, (holds_logs (j, x) = holds_logs (j, p) \/ (holds_logs (j, x) = false) \/ logs = None) -> pending (Some (j, p)) = [] -> pending (Some (j, x)) = [] ->
     misc = table ++ match (if holds_logs (j, x) then Some t else if holds_logs (j, p) then None else logs) with Some u => pending (nth_error (put t (j, x) calls) u) | None => [] end).
  { intros x Hx P Px. rewrite I5. f_equal. destruct (holds_logs (j, x)) eqn:Q.
    - rewrite nth_put, Nat.eqb_refl, E, Px. destruct Hx as [Hx|[Hx| ->]]; [|discriminate|reflexivity]. rewrite (HL (eq_sym Hx)), E. exact P.
    - destruct (holds_logs (j, p)) eqn:Q2.
      + rewrite (HL eq_refl), E, P. reflexivity.
      + destruct logs as [u|]; [|reflexivity]. rewrite nth_put. destruct (Nat.eqb_spec t u) as [<-|]; [|reflexivity].
        assert (Z : holds_logs (j, p) = true) by (apply (I1 t _ E); reflexivity). congruence. }
  assert (K : forall x logs' mtx', legal (j, x) ->
     (logs' = if holds_logs (j, x) then Some t else if holds_logs (j, p) then None else logs) ->
     (mtx' = if holds_mtx (j, x) then Some t else if holds_mtx (j, p) then None else mtx) ->
     (holds_logs (j, x) = true -> holds_logs (j, p) = true \/ logs = None) ->
     (holds_mtx (j, x) = true -> holds_mtx (j, p) = true \/ mtx = None) ->
     pending (Some (j, p)) = [] -> pending (Some (j, x)) = [] -> inv m0 jobs (mkSt table misc logs' mtx' (put t (j, x) calls))).
  { intros x logs' mtx' L EL EM A1 A2 P Px. apply (move_inv _ _ _ _ _ _ _ _ _ _ _ _ _ _ _ I E L EL EM A1 A2); [|exact I6|exact I9].
    rewrite EL. apply G; try assumption. destruct (holds_logs (j, x)); [|auto]. destruct (A1 eq_refl); auto. }
  destruct j as [n|m|].
  - destruct p as [| | |m|a]; try (destruct logs, mtx; exact I).
    + destruct logs; [destruct mtx; exact I|]. apply K; cbn; auto.
    + assert (HL1 := HL eq_refl). subst logs. destruct mtx as [o|].
      * match goal with |- context [if ?b then _ else _] => destruct b end; [|exact I]. apply K; cbn; auto; discriminate.
      * match goal with |- context [if ?b then _ else _] => destruct b end; apply K; cbn; auto; discriminate.
    + assert (HL1 := HL eq_refl). assert (HM1 := HM eq_refl). subst logs mtx. destruct free as [m|]; [|apply K; cbn; auto; discriminate].
      destruct (existsb (fun d => snd d =? m) misc) eqn:Ex; [apply K; cbn; auto; discriminate|].
      refine (move_inv _ _ _ _ _ _ _ _ _ P2 (P3 m) _ _ _ _ I E Logic.I eq_refl eq_refl _ _ _ _ I9); cbn [holds_logs holds_mtx]; auto.
      * rewrite nth_put, Nat.eqb_refl, E. rewrite E in I5. cbn [pending] in *. rewrite app_nil_r in I5. rewrite I5. reflexivity.
      * rewrite map_app. cbn [map]. apply NoDup_snoc; [exact I6|]. intros Hin. apply in_map_iff in Hin. destruct Hin as (d & Hd & Hin).
        assert (X : existsb (fun d => snd d =? m) misc = true) by (apply existsb_exists; exists d; split; [exact Hin|apply Z.eqb_eq; exact Hd]). congruence.
    + assert (HL1 := HL eq_refl). subst logs. rewrite E in I5. cbn [pending] in I5.
      assert (R : inv m0 jobs (mkSt (table ++ [(n, m)]) misc None mtx (put t (Add n, Fin (Added true)) calls))).
      { refine (move_inv _ _ _ _ _ _ _ _ _ (P3 m) (Fin (Added true)) _ _ _ _ I E Logic.I eq_refl eq_refl _ _ _ I6 _); cbn [holds_logs holds_mtx]; try discriminate.
        - rewrite app_nil_r. exact I5.
        - destruct I9 as (l & ->). eexists. reflexivity. }
      destruct mtx; exact R.
  - destruct p as [| | |m'|a]; try (destruct logs, mtx; exact I).
    + destruct mtx; [destruct logs; exact I|]. destruct logs; apply K; cbn; auto.
    + assert (HM1 := HM eq_refl). subst mtx.
      assert (R : inv m0 jobs match with_minor m misc with
      | None => mkSt table misc logs None (put t (Open m, Fin (Opened None)) calls)
      | Some n =>
        if negb old then mkSt table misc logs None (put t (Open m, Fin (Opened (Some n))) calls)
        else match table with
             | main :: _ =>
               if snd main =? m then mkSt table misc logs None (put t (Open m, Fin (Opened (Some (fst main)))) calls)
               else match logs with
                    | None => mkSt table misc (Some t) (Some t) (put t (Open m, P2) calls)
                    | Some _ => mkSt table misc logs (Some t) calls
                    end
             | [] => mkSt table misc logs (Some t) calls
             end
      end).
      { destruct (with_minor m misc); [|apply K; cbn; auto; discriminate]. destruct (negb old); [apply K; cbn; auto; discriminate|].
        destruct table as [|main table]; [exact I|]. destruct (snd main =? m); [apply K; cbn; auto; discriminate|].
        destruct logs; [exact I|]. apply K; cbn; auto. }
      destruct logs; exact R.
    + assert (HL1 := HL eq_refl). assert (HM1 := HM eq_refl). subst logs mtx. apply K; cbn; auto; discriminate.
  - destruct p as [| | |m'|a]; try (destruct logs, mtx; exact I).
    + destruct logs; [destruct mtx; exact I|]. apply K; cbn; auto.
    + assert (HL1 := HL eq_refl). subst logs. destruct mtx; apply K; cbn; auto; discriminate.
Qed.

Lemma inv_run old m0 jobs l : forall s, inv m0 jobs s -> inv m0 jobs (run old s l).
Proof. induction l as [|[t f] l IH]; intros s I; [exact I|]. apply IH, inv_step, I. Qed.

(** ** What an open returns *)
Lemma with_minor_in m l n : NoDup (map snd l) -> In (n, m) l -> with_minor m l = Some n.
Proof.
  unfold with_minor. induction l as [|[n' m'] l IH]; intros Nd H; [destruct H|]. cbn [map snd find] in *. inversion Nd as [|? ? N1 N2]; subst.
  destruct (Z.eqb_spec m' m) as [->|Ne].
  - destruct H as [H|H]; [inversion H; reflexivity|]. exfalso. apply N1. apply in_map_iff. exists (n, m). auto.
  - destruct H as [H|H]; [inversion H; congruence|]. apply IH; assumption.
Qed.
Lemma in_with_minor m l n : with_minor m l = Some n -> In (n, m) l.
Proof.
  unfold with_minor. destruct (find (fun d => snd d =? m) l) as [[n' m']|] eqn:F; [|discriminate]. intros E. inversion E; subst. apply find_some in F. cbn in F.
  destruct F as [F G]. replace m with m' by lia. exact F.
Qed.
(** Devices stay. *)
Lemma table_step old s t f : exists x, s_table (step old s t f) = s_table s ++ x.
Proof.
  destruct s as [table misc logs mtx calls]. unfold step. destruct (nth_error calls t) as [[j p]|]; [|exists []; symmetry; apply app_nil_r].
  destruct j as [n|m|], p as [| | |m'|a], logs, mtx; cbn [s_table];
    repeat match goal with |- context [if ?b then _ else _] => destruct b | |- context [match ?x with _ => _ end] => destruct x end; cbn [s_table];
    first [exists []; symmetry; apply app_nil_r|eexists; reflexivity].
Qed.
(** Changing one call only. *)
Lemma step_other old s t f u : t <> u -> nth_error (s_calls (step old s t f)) u = nth_error (s_calls s) u.
Proof.
  intros N. destruct s as [table misc logs mtx calls]. unfold step. destruct (nth_error calls t) as [[j p]|]; [|reflexivity].
  assert (P : forall x, nth_error (put t x calls) u = nth_error calls u) by (intros x; rewrite nth_put; destruct (Nat.eqb_spec t u); [contradiction|reflexivity]).
  destruct j as [n|m|], p as [| | |m'|a], logs, mtx; cbn [s_calls];
    repeat match goal with |- context [if ?b then _ else _] => destruct b | |- context [match ?x with _ => _ end] => destruct x end; cbn [s_calls]; auto.
Qed.

(** While the device with this minor number is in the table: an open of it goes on to return it. *)
Definition on_way (m : Z) (n : list Z) (c : job * pc) : Prop :=
  fst c = Open m /\ match snd c with P0 | P1 | P2 => True | Fin a => a = Opened (Some n) | P3 _ => False end.
Lemma on_way_step old m0 jobs s t f u m n c : inv m0 jobs s -> In (n, m) (s_table s) -> nth_error (s_calls s) u = Some c -> on_way m n c ->
  exists c', nth_error (s_calls (step old s t f)) u = Some c' /\ on_way m n c'.
Proof.
  intros I Hin E W. destruct (Nat.eq_dec t u) as [->|N]; [|rewrite step_other by exact N; eauto].
  assert (In1 : In (n, m) (s_misc s)) by (rewrite (i_misc _ _ _ I); apply in_app_iff; auto).
  assert (Wm := with_minor_in _ _ _ (i_nodup _ _ _ I) In1).
  assert (Nt : NoDup (map snd (s_table s))).
  { pose proof (i_nodup _ _ _ I) as Nd. rewrite (i_misc _ _ _ I), map_app in Nd. exact (NoDup_left _ _ Nd). }
  assert (Wt := with_minor_in _ _ _ Nt Hin).
  destruct c as [j p]. destruct W as [Hj Hp]. cbn [fst snd] in *. subst j.
  destruct s as [table misc logs mtx calls]. cbn [s_calls s_table s_misc] in *. unfold step. rewrite E.
  assert (P : forall x, nth_error (put u x calls) u = Some x) by (intros x; rewrite nth_put, Nat.eqb_refl, E; reflexivity).
  destruct p as [| | |m'|a]; try contradiction.
  - destruct mtx; [|destruct logs]; [destruct logs| |]; cbn [s_calls]; rewrite ?P; eexists; (split; [first [exact E|reflexivity]|split; [reflexivity|exact Logic.I]]).
  - rewrite Wm. assert (G : forall st', st' = (if negb old then mkSt table misc logs None (put u (Open m, Fin (Opened (Some n))) calls)
        else match table with
             | main :: _ =>
               if snd main =? m then mkSt table misc logs None (put u (Open m, Fin (Opened (Some (fst main)))) calls)
               else match logs with
                    | None => mkSt table misc (Some u) mtx (put u (Open m, P2) calls)
                    | Some _ => mkSt table misc logs mtx calls
                    end
             | [] => mkSt table misc logs mtx calls
             end) -> exists c', nth_error (s_calls st') u = Some c' /\ on_way m n c').
    { intros st' ->. destruct (negb old); [cbn [s_calls]; rewrite P; eexists; split; [reflexivity|split; reflexivity]|].
      destruct table as [|[nm mm] table]; [eexists; split; [exact E|split; [reflexivity|exact Logic.I]]|]. cbn [snd fst].
      destruct (Z.eqb_spec mm m) as [->|Ne].
      - cbn [s_calls]. rewrite P. eexists. split; [reflexivity|]. split; [reflexivity|]. cbn [snd]. unfold with_minor in Wt. cbn [find snd] in Wt. rewrite Z.eqb_refl in Wt. cbn in Wt. congruence.
      - destruct logs; cbn [s_calls]; rewrite ?P; eexists; (split; [first [exact E|reflexivity]|split; [reflexivity|exact Logic.I]]). }
    destruct logs, mtx; apply G; reflexivity.
  - rewrite Wt. destruct logs, mtx; cbn [s_calls]; rewrite P; eexists; (split; [reflexivity|split; reflexivity]).
  - subst a. destruct logs, mtx; cbn [s_calls]; eexists; (split; [exact E|split; reflexivity]).
Qed.

(** Whoever opens the node of a device that was added before gets this device and no error,
    however many devices are added, opened and listed at the same time; on every kernel. *)
Theorem C148_opened : forall old m0 jobs before after t m n a,
  let s := run old (init m0 jobs) before in
  nth_error (s_calls s) t = Some (Open m, P0) -> In (n, m) (s_table s) ->
  nth_error (s_calls (run old s after)) t = Some (Open m, Fin a) -> a = Opened (Some n).
Proof.
  intros old m0 jobs before after t m n a s E Hin F. assert (I : inv m0 jobs s) by (apply inv_run, init_inv).
  assert (W : on_way m n (Open m, P0)) by (split; [reflexivity|exact Logic.I]). clearbody s. revert s I E W Hin F. generalize P0. intros p s. revert p s.
  induction after as [|[u f] after IH]; intros p s I E W Hin F.
  - cbn [run] in F. rewrite F in E. inversion E; subst. destruct W as [_ W]. exact W.
  - cbn [run] in F. destruct (on_way_step old m0 jobs s u f t m n _ I Hin E W) as ([j p'] & E' & W'). assert (j = Open m) as -> by apply W'.
    apply (IH p' (step old s u f)); try assumption; [apply inv_step, I|]. destruct (table_step old s u f) as (x & ->). apply in_app_iff. auto.
Qed.
Print Assumptions C148_opened.

(** And nobody gets the device of another minor number. *)
Lemma misc_step old s t f : exists x, s_misc (step old s t f) = s_misc s ++ x.
Proof.
  destruct s as [table misc logs mtx calls]. unfold step. destruct (nth_error calls t) as [[j p]|]; [|exists []; symmetry; apply app_nil_r].
  destruct j as [n|m|], p as [| | |m'|a], logs, mtx; cbn [s_misc];
    repeat match goal with |- context [if ?b then _ else _] => destruct b | |- context [match ?x with _ => _ end] => destruct x end; cbn [s_misc];
    first [exists []; symmetry; apply app_nil_r|eexists; reflexivity].
Qed.
Definition right (s : st) : Prop := forall t m n, nth_error (s_calls s) t = Some (Open m, Fin (Opened (Some n))) -> In (n, m) (s_misc s).
Lemma right_step old m0 jobs s t f : inv m0 jobs s -> right s -> right (step old s t f).
Proof.
  intros I R u m n E. destruct (misc_step old s t f) as (x & Ex). rewrite Ex. apply in_app_iff.
  destruct (Nat.eq_dec t u) as [->|N]; [|rewrite step_other in E by exact N; left; apply (R u), E].
  left. clear x Ex. specialize (R u m n). pose proof (i_misc _ _ _ I) as I5. destruct s as [table misc logs mtx calls]. cbn [s_calls s_misc s_table s_logs] in *. unfold step in E.
  destruct (nth_error calls u) as [[j p]|] eqn:Eu; [|cbn [s_calls] in E; congruence].
  assert (P : forall x, nth_error (put u x calls) u = Some x) by (intros x; rewrite nth_put, Nat.eqb_refl, Eu; reflexivity).
  assert (T : forall d, In d table -> In d misc) by (intros d Hd; rewrite I5; apply in_app_iff; auto).
  clear I I5. destruct j as [nn|mm|]; destruct p as [| | |m'|a]; destruct logs, mtx; cbn [s_calls] in E;
    repeat match type of E with
      | context [if ?b then _ else _] => destruct b eqn:?
      | context [match with_minor ?x ?y with _ => _ end] => destruct (with_minor x y) eqn:?
      | context [match ?y with _ => _ end] => destruct y eqn:?
      end; cbn [s_calls] in E; rewrite ?P in E; try rewrite Eu in E; try discriminate E;
    inversion E; subst; try (apply R; exact Eu);
    try match goal with H : with_minor m misc = Some _ |- _ => apply in_with_minor; congruence end;
    try match goal with H : with_minor _ _ = Some _ |- In _ ?l => apply T, in_with_minor; congruence end.
  all: try (apply R; reflexivity). all: match goal with H : (snd ?d =? ?m) = true |- _ => apply T; left; destruct d as [dn dm]; cbn [fst snd] in *; f_equal; lia end.
Qed.
Theorem C148_right_one : forall old m0 jobs sched t m n,
  let s := run old (init m0 jobs) sched in
  nth_error (s_calls s) t = Some (Open m, Fin (Opened (Some n))) -> In (n, m) (s_misc s) /\ NoDup (map snd (s_misc s)).
Proof.
  intros old m0 jobs sched t m n s E. assert (I : inv m0 jobs s) by (apply inv_run, init_inv). split; [|apply (i_nodup _ _ _ I)].
  assert (R : right s); [|apply (R t), E]. clear. subst s. pose proof (init_inv m0 jobs) as I.
  assert (R : right (init m0 jobs)).
  { intros t m n E. cbn [init s_calls] in E. rewrite nth_error_map in E. destruct (nth_error jobs t); discriminate. }
  revert I R. generalize (init m0 jobs). induction sched as [|[u f] l IH]; intros s I R; [exact R|]. cbn [run]. apply IH; [apply inv_step, I|apply (right_step _ m0 jobs); assumption].
Qed.
Print Assumptions C148_right_one.

(** ** Names *)
Definition named (s : st) : Prop :=
  NoDup (map fst (s_table s)) /\
  forall t n p, nth_error (s_calls s) t = Some (Add n, p) -> p = P2 \/ (exists m, p = P3 m) -> ~ In n (map fst (s_table s)).
Lemma named_step old m0 jobs s t f : inv m0 jobs s -> named s -> named (step old s t f).
Proof.
  intros I [N1 N2]. pose proof (inv_step old m0 jobs s t f I) as I'. pose proof (i_logs _ _ _ I) as L. pose proof (i_logs _ _ _ I') as L'. clear I'.
  pose proof (fun u => step_other old s t f u) as SO.
  assert (T : (s_table (step old s t f) = s_table s /\
      (forall n p, nth_error (s_calls (step old s t f)) t = Some (Add n, p) -> p = P2 \/ (exists m, p = P3 m) -> ~ In n (map fst (s_table s)))) \/
    exists n m, nth_error (s_calls s) t = Some (Add n, P3 m) /\ s_table (step old s t f) = s_table s ++ [(n, m)] /\
      nth_error (s_calls (step old s t f)) t = Some (Add n, Fin (Added true))).
  { clear L L' SO. destruct s as [table misc logs mtx calls]. cbn [s_table s_calls] in *. unfold step. destruct (nth_error calls t) as [[j p]|] eqn:E.
    2:{ left. split; [reflexivity|]. cbn [s_calls]. intros n p E'. congruence. }
    assert (P : forall x, nth_error (put t x calls) t = Some x) by (intros x; rewrite nth_put, Nat.eqb_refl, E; reflexivity).
    assert (Q : forall n q, nth_error calls t = Some (Add n, q) -> q = P2 \/ (exists m, q = P3 m) -> ~ In n (map fst table)) by (intros n q E' Hq; exact (N2 t n q E' Hq)).
    destruct j as [n|m|]; [| |].
    - destruct p as [| | |m'|a].
      + destruct logs; cbn [s_table s_calls]; left; (split; [reflexivity|]); intros n' p'; [intros E' Hq; exact (Q _ _ E' Hq)|].
        rewrite P. intros E' [->|(m & ->)]; discriminate.
      + assert (U : forall s2, s2 = (if existsb (fun d : device => bytes_eqb (fst d) n) table || (16 <=? length table)%nat then mkSt table misc None mtx (put t (Add n, Fin (Added false)) calls) else match mtx with None => mkSt table misc logs (Some t) (put t (Add n, P2) calls) | Some _ => mkSt table misc logs mtx calls end) ->
          (s_table s2 = table /\ forall n' p', nth_error (s_calls s2) t = Some (Add n', p') -> p' = P2 \/ (exists m, p' = P3 m) -> ~ In n' (map fst table))).
        2:{ left. destruct logs as [lo|], mtx as [mt|]; apply U; reflexivity. }
        intros s2 ->. destruct (existsb (fun d : device => bytes_eqb (fst d) n) table || (16 <=? length table)%nat) eqn:Ex; cbn [s_table s_calls]; [split; [reflexivity|]; intros n' p'; rewrite P; intros E' [->|(m & ->)]; discriminate|].
        apply orb_false_iff in Ex. destruct Ex as [Ex _].
        destruct mtx; cbn [s_table s_calls]; (split; [reflexivity|]); intros n' p'; [intros E' Hq; exact (Q _ _ E' Hq)|].
        rewrite P. intros E' _. injection E' as <- _. intros Hi. apply in_map_iff in Hi. destruct Hi as (d & Hd & Hi).
        assert (X : existsb (fun d : device => bytes_eqb (fst d) n) table = true); [|congruence].
        apply existsb_exists. exists d. split; [exact Hi|]. rewrite Hd. apply bytes_eqb_refl.
      + assert (H : ~ In n (map fst table)) by (apply (Q n P2 E); left; reflexivity).
        destruct logs as [lo|], mtx as [mt|]; (destruct f as [m|]; [destruct (existsb (fun d : list Z * Z => snd d =? m) misc)|]; cbn [s_table s_calls]; left; (split; [reflexivity|]); intros n' p'; rewrite P; intros E' Hq; injection E' as <- <-; exact H).
      + right. exists n, m'. split; [reflexivity|]. destruct logs as [lo|], mtx as [mt|]; cbn [s_table s_calls]; (split; [reflexivity|apply P]).
      + left. destruct logs as [lo|], mtx as [mt|]; cbn [s_table s_calls]; (split; [reflexivity|]); intros n' p' E' Hq; exact (Q _ _ E' Hq).
    - left. destruct p as [| | |m'|a], logs, mtx; cbn [s_table s_calls];
        repeat match goal with |- context [if ?b then _ else _] => destruct b | |- context [match ?x with _ => _ end] => destruct x end; cbn [s_table s_calls];
        (split; [reflexivity|]); intros n' p' E'; rewrite ?P in E'; congruence.
    - left. destruct p as [| | |m'|a], logs, mtx; cbn [s_table s_calls]; (split; [reflexivity|]); intros n' p' E'; rewrite ?P in E'; congruence. }
  destruct T as [(T1 & T2)|(n & m & T1 & T2 & T3)].
  - unfold named. rewrite T1. split; [exact N1|]. intros u n p E Hp. destruct (Nat.eq_dec t u) as [<-|Ne]; [exact (T2 n p E Hp)|].
    rewrite SO in E by exact Ne. exact (N2 u n p E Hp).
  - unfold named. rewrite T2, map_app. cbn [map fst]. split; [apply NoDup_snoc; [exact N1|apply (N2 t n (P3 m) T1); right; eauto]|].
    intros u n' p E Hp. destruct (Nat.eq_dec t u) as [<-|Ne].
    + rewrite T3 in E. injection E as <- <-. destruct Hp as [Hp|(? & Hp)]; discriminate.
    + rewrite SO in E by exact Ne. exfalso. apply Ne.
      assert (A : s_logs s = Some t) by (apply (L t _ T1); reflexivity).
      assert (B : s_logs s = Some u) by (apply (L u _ E); destruct Hp as [->|(? & ->)]; reflexivity). congruence.
Qed.
(** Names are distinct too, whatever calls run at the same time. *)
Theorem C148_names : forall old m0 jobs sched, NoDup (map fst (s_table (run old (init m0 jobs) sched))).
Proof.
  intros old m0 jobs sched. assert (G : named (run old (init m0 jobs) sched)); [|apply G].
  assert (N0 : named (init m0 jobs)).
  { split; [repeat constructor; intros []|]. intros t n p E Hp. cbn [init s_calls] in E. rewrite nth_error_map in E.
    destruct (nth_error jobs t); [|discriminate]. injection E as _ <-. destruct Hp as [Hp|(? & Hp)]; discriminate. }
  revert N0. generalize (init_inv m0 jobs). generalize (init m0 jobs). induction sched as [|[t f] sched IH]; intros s I N; [exact N|].
  cbn [run]. apply IH; [apply inv_step, I|eapply named_step; eassumption].
Qed.
Print Assumptions C148_names.

(** ** Nobody waits for ever *)
Definition left_of (c : job * pc) : nat := match snd c with P0 => 4 | P1 => 3 | P2 => 2 | P3 _ => 1 | Fin _ => 0 end.
Definition todo (s : st) : nat := list_sum (map left_of (s_calls s)).
Lemma todo_put t j p p' calls : nth_error calls t = Some (j, p) -> (left_of (j, p') < left_of (j, p))%nat ->
  (list_sum (map left_of (put t (j, p') calls)) < list_sum (map left_of calls))%nat.
Proof.
  revert t. induction calls as [|c calls IH]; intros [|t] E L; try discriminate; cbn [put map list_sum fold_right nth_error] in *.
  - inversion E; subst. unfold list_sum. lia.
  - specialize (IH t E L). unfold list_sum in *. lia.
Qed.
Lemma step_less old s t f : step old s t f = s \/ (todo (step old s t f) < todo s)%nat.
Proof.
  destruct s as [table misc logs mtx calls]. unfold step. destruct (nth_error calls t) as [[j p]|] eqn:E; [|left; reflexivity].
  destruct j as [n|m|], p as [| | |m'|a], logs, mtx;
    repeat match goal with |- context [if ?b then _ else _] => destruct b | |- context [match with_minor ?x ?y with _ => _ end] => destruct (with_minor x y) | |- context [match ?x with _ => _ end] => destruct x end;
    first [left; reflexivity|right; unfold todo; cbn [s_calls]; apply (todo_put _ _ _ _ _ E); cbn; lia].
Qed.
Lemma undone s : todo s <> 0%nat -> exists t c, nth_error (s_calls s) t = Some c /\ left_of c <> 0%nat.
Proof.
  unfold todo. induction (s_calls s) as [|c l IH]; intros H; [contradiction H; reflexivity|]. cbn [map list_sum fold_right] in H.
  destruct (Nat.eq_dec (left_of c) 0) as [E|N]; [|exists 0%nat, c; auto]. destruct IH as (t & c' & A & B); [unfold list_sum in *; lia|]. exists (S t), c'. auto.
Qed.

Definition safe_use (old : bool) (m0 : Z) (jobs : list job) : Prop := old = false \/ Forall (only_main m0) jobs \/ Forall no_add jobs.
Lemma job_in m0 jobs s t j p : inv m0 jobs s -> nth_error (s_calls s) t = Some (j, p) -> In j jobs.
Proof. intros I E. rewrite <- (i_jobs _ _ _ I). apply in_map_iff. exists (j, p). split; [reflexivity|]. eapply nth_error_In, E. Qed.
Lemma progress old m0 jobs s : safe_use old m0 jobs -> inv m0 jobs s -> todo s <> 0%nat -> exists t, (todo (step old s t None) < todo s)%nat.
Proof.
  intros Sf I U. pose proof (job_in m0 jobs s) as J.
  assert (G : exists t, step old s t None <> s); [|destruct G as (t & G); exists t; destruct (step_less old s t None); [contradiction|assumption]].
  destruct (undone s U) as (t0 & c0 & E0 & N0). pose proof I as [I1 I2 I3 I4 I5 I6 I7 I8 I9]. 
  assert (Hd : exists l, s_table s = (bytes_of_string "ulog_main", m0) :: l) by exact I9.
  destruct s as [table misc logs mtx calls]. cbn [s_calls s_logs s_mtx s_table s_misc] in *. unfold step.
  assert (P : forall t x y, nth_error calls t = Some y -> x <> y -> put t x calls <> calls).
  { intros t x y E N X. apply (f_equal (fun l => nth_error l t)) in X. rewrite nth_put, Nat.eqb_refl, E in X. congruence. }
  assert (PS : forall a b c d t x y, nth_error calls t = Some y -> x <> y -> mkSt a b c d (put t x calls) <> mkSt table misc logs mtx calls).
  { intros a b c d t x y E N X. apply (P t x y E N). inversion X. congruence. }
  destruct mtx as [t|].
  - destruct (I4 t eq_refl) as ([j p] & E). assert (H : holds_mtx (j, p) = true) by (apply (I2 t _ E); reflexivity).
    destruct j as [n|m|], p as [| | |m'|a]; try discriminate H.
    + exists t. rewrite E. destruct logs; apply (PS _ _ _ _ t _ _ E); discriminate.
    + destruct (with_minor m misc) eqn:W; [|exists t; rewrite E, W; destruct logs; apply (PS _ _ _ _ t _ _ E); discriminate].
      destruct old; cbn [negb]; [|exists t; rewrite E, W; destruct logs; apply (PS _ _ _ _ t _ _ E); discriminate].
      destruct Hd as (rest & Hd). destruct (Z.eqb_spec m0 m) as [->|Ne].
      { exists t. rewrite E, W, Hd. cbn [snd fst]. rewrite Z.eqb_refl. rewrite <- Hd. destruct logs; apply (PS _ _ _ _ t _ _ E); discriminate. }
      destruct logs as [u|]; [|exists t; rewrite E, W, Hd; cbn [snd]; destruct (Z.eqb_spec m0 m); [contradiction|]; rewrite <- Hd; apply (PS _ _ _ _ t _ _ E); discriminate].
      destruct (I3 u eq_refl) as ([j p] & Eu). assert (Hu : holds_logs (j, p) = true) by (apply (I1 u _ Eu); reflexivity).
      exists u. rewrite Eu.
      destruct Sf as [Sf|[Sf|Sf]]; [discriminate|rewrite Forall_forall in Sf; specialize (Sf _ (J _ _ _ I E)); cbn in Sf; congruence|].
      rewrite Forall_forall in Sf. specialize (Sf _ (J _ _ _ I Eu)).
      destruct j as [n'|m'|], p as [| | |m''|a']; try discriminate Hu; try contradiction Sf; apply (PS _ _ _ _ u _ _ Eu); discriminate.
    + exists t. rewrite E. destruct logs; apply (PS _ _ _ _ t _ _ E); discriminate.
  - destruct logs as [u|].
    + destruct (I3 u eq_refl) as ([j p] & Eu). assert (Hu : holds_logs (j, p) = true) by (apply (I1 u _ Eu); reflexivity).
      assert (Hm : holds_mtx (j, p) = false) by (destruct (holds_mtx (j, p)) eqn:X; [apply (I2 u _ Eu) in X; discriminate|reflexivity]).
      exists u. rewrite Eu. destruct j as [n'|m'|], p as [| | |m''|a']; try discriminate Hu; try discriminate Hm; try (apply (PS _ _ _ _ u _ _ Eu); discriminate).
      match goal with |- context [if ?b then _ else _] => destruct b end; apply (PS _ _ _ _ u _ _ Eu); discriminate.
    + assert (Hl : holds_logs c0 = false) by (destruct (holds_logs c0) eqn:X; [apply (I1 _ _ E0) in X; discriminate|reflexivity]).
      assert (Hm : holds_mtx c0 = false) by (destruct (holds_mtx c0) eqn:X; [apply (I2 _ _ E0) in X; discriminate|reflexivity]).
      specialize (I7 _ _ E0). destruct c0 as [j p]. exists t0. rewrite E0.
      destruct j as [n'|m'|], p as [| | |m''|a']; try discriminate Hl; try discriminate Hm; try contradiction I7; try (cbn in N0; lia); apply (PS _ _ _ _ t0 _ _ E0); discriminate.
Qed.

(** Where misc_open says which device is opened (Linux 2.6.35 and later): whatever has happened,
    all calls can finish, and they do after finitely many turns of calls that are not waiting.
    The same on older kernels as long as only log_main is opened, or nothing is added. *)
Theorem C148_all_finish_partial : forall old m0 jobs sched, safe_use old m0 jobs ->
  let s := run old (init m0 jobs) sched in
  (exists more, Forall done (s_calls (run old s more))) /\
  (~ Forall done (s_calls s) -> exists t, step old s t None <> s).
Proof.
  intros old m0 jobs sched Sf s. assert (I : inv m0 jobs s) by (apply inv_run, init_inv). clearbody s.
  assert (D : forall s, todo s = 0%nat -> Forall done (s_calls s)).
  { clear. intros s. unfold todo. induction (s_calls s) as [|c l IH]; intros H; constructor; cbn [map list_sum fold_right] in H.
    - unfold done. destruct c as [j p]. destruct p; cbn in *; try lia. eauto.
    - apply IH. unfold list_sum in *. lia. }
  split.
  - remember (todo s) as k eqn:Ek. revert s I Ek. induction k as [k IH] using lt_wf_ind. intros s I Ek.
    destruct (Nat.eq_dec k 0) as [->|N]; [exists []; apply D; auto|].
    destruct (progress old m0 jobs s Sf I ltac:(lia)) as (t & Lt).
    destruct (IH (todo (step old s t None)) ltac:(lia) (step old s t None) (inv_step _ _ _ _ _ _ I) eq_refl) as (more & F).
    exists ((t, None) :: more). exact F.
  - intros ND. destruct (Nat.eq_dec (todo s) 0) as [Z|N]; [contradiction (ND (D s Z))|].
    destruct (progress old m0 jobs s Sf I N) as (t & Lt). exists t. intros X. rewrite X in Lt. lia.
Qed.
Print Assumptions C148_all_finish_partial.

(** On older kernels: somebody opens a device that was added, while another one is being added.
    Both wait for each other for ever, whatever happens afterwards; so does everybody else who
    wants to open any misc device, or read or write the list of devices. *)
Theorem C148_deadlock_refuted : exists m0 jobs sched, forall more t m,
  let s := run true (init m0 jobs) (sched ++ more) in
  nth_error (s_calls s) 1 = Some (Open 2, P1) /\ nth_error (s_calls s) 2 = Some (Add (bytes_of_string "ulog_b"), P1) /\
  (nth_error (s_calls s) t = Some (Open m, P0) -> forall f, step true s t f = s).
Proof.
  exists 1, [Add (bytes_of_string "ulog_a"); Open 2; Add (bytes_of_string "ulog_b"); Open 1],
    [(0%nat, None); (0%nat, None); (0%nat, Some 2); (0%nat, None); (1%nat, None); (2%nat, None)].
  intros more t m s.
  assert (E : s = run true (mkSt [(bytes_of_string "ulog_main", 1); (bytes_of_string "ulog_a", 2)] [(bytes_of_string "ulog_main", 1); (bytes_of_string "ulog_a", 2)]
      (Some 2%nat) (Some 1%nat) [(Add (bytes_of_string "ulog_a"), Fin (Added true)); (Open 2, P1); (Add (bytes_of_string "ulog_b"), P1); (Open 1, P0)]) more) by reflexivity.
  assert (K : forall more, run true (mkSt [(bytes_of_string "ulog_main", 1); (bytes_of_string "ulog_a", 2)] [(bytes_of_string "ulog_main", 1); (bytes_of_string "ulog_a", 2)]
      (Some 2%nat) (Some 1%nat) [(Add (bytes_of_string "ulog_a"), Fin (Added true)); (Open 2, P1); (Add (bytes_of_string "ulog_b"), P1); (Open 1, P0)]) more
    = mkSt [(bytes_of_string "ulog_main", 1); (bytes_of_string "ulog_a", 2)] [(bytes_of_string "ulog_main", 1); (bytes_of_string "ulog_a", 2)]
      (Some 2%nat) (Some 1%nat) [(Add (bytes_of_string "ulog_a"), Fin (Added true)); (Open 2, P1); (Add (bytes_of_string "ulog_b"), P1); (Open 1, P0)]).
  { clear. intros more. induction more as [|[u f] more IH]; [reflexivity|]. cbn [run].
    destruct u as [|[|[|[|u]]]]; try exact IH. unfold step at 1. cbn [nth_error]. destruct u; exact IH. }
  rewrite K in E. clearbody s. subst s. split; [reflexivity|]. split; [reflexivity|]. intros X f.
  destruct t as [|[|[|[|t]]]]; try reflexivity. destruct t; reflexivity.
Qed.
Print Assumptions C148_deadlock_refuted.

(** Two devices added and opened, one after its number is known, and the list read meanwhile. *)
Definition ex_jobs : list job := [Add (bytes_of_string "ulog_a"); Open 2; Add (bytes_of_string "ulog_b"); Show].
Definition ex_before : list (nat * option Z) := [(0%nat, None); (0%nat, None); (0%nat, Some 2); (3%nat, None); (0%nat, None)].
Definition ex_after : list (nat * option Z) := [(1%nat, None); (2%nat, None); (2%nat, None); (1%nat, None); (2%nat, None); (2%nat, Some 3); (2%nat, None); (3%nat, None); (3%nat, None)].
Example C148_ex : safe_use false 1 ex_jobs /\
  let s := run false (init 1 ex_jobs) ex_before in
  nth_error (s_calls s) 1 = Some (Open 2, P0) /\ In (bytes_of_string "ulog_a", 2) (s_table s) /\
  map snd (s_calls (run false s ex_after)) = [Fin (Added true); Fin (Opened (Some (bytes_of_string "ulog_a"))); Fin (Added true);
    Fin (Shown [(bytes_of_string "ulog_main", 1); (bytes_of_string "ulog_a", 2); (bytes_of_string "ulog_b", 3)])].
Proof. split; [left; reflexivity|]. split; [reflexivity|]. split; [right; left; reflexivity|reflexivity]. Qed.
