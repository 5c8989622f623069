(** The life of shdlogd: what it obtains, uses and releases, its options, its end. *)
From Coq Require Import ZArith String List Bool Lia.
From Verif Require Import Bytes Shdlogd ShdlogdSpec ShdlogdProofs.
Import ListNotations.
Open Scope Z_scope.

(** C111: whatever fails and whenever it is told to stop, shdlogd releases once everything it obtained,
    in an order that is allowed, and uses only what it holds, if opening the section again works. *)
Theorem C111_released : forall fuel y o t st,
  (forall t s h r, In (Select h r) t -> y_shd y t s <> 0) -> main fuel y o = Some (t, st) -> calls false [] t = Some [].
Proof. intros fuel y o t st O. apply (main_calls false). auto. Qed.

(** In every case, the only other thing it uses or releases is a section that is NULL. *)
Theorem C111_released_partial : forall fuel y o t st,
  main fuel y o = Some (t, st) -> calls true [] t = Some [].
Proof. intros fuel y o t st. apply (main_calls true). discriminate. Qed.

(** It does: when opening the section again fails, NULL is given to shd_select_samples. *)
Definition sysD (shd sel : list ev -> Z) (sig : list ev -> bool) : sys :=
  mkSys true true 0 (fun _ => 3) (fun t _ => shd t) true true sel (fun _ => 0) (fun _ => 0) (fun _ => 0) (fun _ => 1%nat) sig.
Definition opens (t : list ev) : nat := length (filter (fun e => match e with OpenShd _ => true | _ => false end) t).
Definition sels (t : list ev) : nat := length (filter (fun e => match e with Select _ _ => true | _ => false end) t).
Theorem C111_released_refuted : exists fuel y o t st,
  main fuel y o = Some (t, st) /\ In (Select 0 (-22)) t /\ calls false [] t = None.
Proof.
  exists 9%nat, (sysD (fun t => if Nat.leb 2 (opens t) then 0 else 7) (fun t => match sels t with O => -2 | 1%nat => -19 | _ => -22 end)
    (fun t => Nat.leb 3 (sels t))), [].
  do 2 eexists. split; [vm_compute; reflexivity|]. split; [cbn; tauto|]. vm_compute. reflexivity.
Qed.

(** The section is reopened, and everything is released. *)
Example C111_ex :
  main 9 (sysD (fun t => 6 + Z.of_nat (opens t)) (fun t => match sels t with O => -2 | 1%nat => -19 | _ => 1 end) (fun t => Nat.leb 4 (sels t))) [] =
  Some ([Get RLoop; Get RTimer; Period 50 0; OpenRaw None; Get (RFd 3); OpenShd (bytes_of_string "ulog"); Get (RShd 7); Get RBlobs; Get RTs;
         Select 7 (-2);
         Select 7 (-19); Free (RShd 7); OpenShd (bytes_of_string "ulog"); Get (RShd 8);
         Select 8 1; Read 8 0; EndRead 8 0; Relay (bytes_of_string "rtos");
         Select 8 1; Read 8 0; EndRead 8 0; Relay (bytes_of_string "rtos"); Wait 0;
         Free RTs; Free RBlobs; Free (RShd 8); Free (RFd 3); Free RTimer; Free RLoop], 0).
Proof. vm_compute. reflexivity. Qed.
Example C111_ex_meets : forall t (s : list Z), y_shd (sysD (fun t => 6 + Z.of_nat (opens t)) (fun _ => -2) (fun _ => false)) t s <> 0.
Proof. intros t s. change (6 + Z.of_nat (opens t) <> 0). lia. Qed.
(** The rules are not empty: forgetting a release, releasing twice, or a wrong order, is seen. *)
Example C111_rules :
  calls true [] [Get RLoop; Get RTimer; Free RTimer] <> Some [] /\ calls true [] [Get RTs; Free RTs; Free RTs] = None /\
  calls true [] [Get RLoop; Get RTimer; Free RLoop; Free RTimer] = None /\ calls true [] [Get (RShd 4); Free (RShd 4); Select 4 0] = None.
Proof. vm_compute. repeat split; discriminate. Qed.

(** C112: the section, the device, the process name and the period are those of the last options. *)
Theorem C112_options : forall fuel y o t st e, main fuel y o = Some (t, st) -> In e t ->
  match e with
  | OpenRaw d => d = the_device o | OpenShd s => s = the_section o | Relay p => p = the_pname o | Period ms _ => ms = the_period o
  | _ => True
  end.
Proof.
  intros fuel y o t st e M I. pose proof (main_uses _ _ _ _ _ M) as U. rewrite Forall_forall in U. specialize (U e I).
  pose proof (parse_conf o default true []) as P. destruct (parse_opts default true [] o) as ((t0, f), r). cbn in U.
  destruct P as (A & B & C & D & _). destruct e; try exact Logic.I; cbn in U; subst; assumption.
Qed.
(** An option that is refused, or -h: only the help, nothing is obtained. *)
Theorem C112_usage : forall fuel y o, In OOther o -> exists t, main fuel y o = Some (t, 0) /\ t <> [] /\ forall e, In e t -> e = Usage.
Proof.
  intros fuel y o I. unfold main. pose proof (parse_conf o default true []) as P. pose proof (usage_run o default true []) as R.
  assert (N : forall o f r t, (In OOther o \/ t <> []) -> fst (fst (parse_opts f r t o)) <> []).
  { clear. induction o as [|a o IH]; intros f r t [H|H]; cbn; try easy; destruct a; apply IH; try (right; assumption); try (left; destruct H as [H|H]; [discriminate|exact H]);
      right; destruct t; discriminate. }
  specialize (N o default true [] (or_introl I)).
  destruct (parse_opts default true [] o) as ((t0, f), r). cbn in R, N. destruct P as (_ & _ & _ & _ & P).
  assert (E : existsb (fun a => match a with OOther => true | _ => false end) o = true). { apply existsb_exists. exists OOther. auto. }
  rewrite E in R. cbn in R. subst r. exists t0. split; [reflexivity|]. split; [exact N|]. intros e K. destruct (P e K) as [[]|K']. exact K'.
Qed.
Example C112_ex : exists t, main 9 (sysD (fun _ => 7) (fun _ => 1) (fun _ => true))
    [OSection [97]; OPeriod (-1); ODevice [98]; OSection [99]; OPname [100]] = Some (t, 0) /\
  In (OpenShd [99]) t /\ In (OpenRaw (Some [98])) t /\ In (Period 4294967295 0) t /\ In (Relay [100]) t.
Proof. eexists. split; [vm_compute; reflexivity|]. cbn. tauto. Qed.

(** C113: a signal always ends it, within as many turns as there were calls before the signal. *)
Theorem C113_stops : forall y o n, (forall t, (n <= length t)%nat -> y_signal y t = true) -> exists t st, main (S n) y o = Some (t, st).
Proof. intros y o n G. pose proof (main_stops y o n G) as K. destruct (main (S n) y o) as [(t, st)|]; [eauto|]. exfalso. apply K. reflexivity. Qed.
Example C113_ex : exists t, main 13 (sysD (fun _ => 7) (fun _ => -2) (fun t => Nat.leb 12 (length t))) [] = Some (t, 1).
Proof. eexists. vm_compute. reflexivity. Qed.

(** Its result is success exactly when it only had to show its help, or samples were relayed and the
    last turn of the loop, if any, gave 0. *)
Theorem C113_status : forall fuel y o t st, main fuel y o = Some (t, st) ->
  (st = 0 \/ st = 1) /\ (st = 0 <-> In OOther o \/ ((exists p, In (Relay p) t) /\ last_wait 0 t = 0)).
Proof.
  intros fuel y o t st M.
  assert (X : existsb (fun a => match a with OOther => true | _ => false end) o = true <-> In OOther o).
  { rewrite existsb_exists. split; [intros (a & I & A); destruct a; try discriminate; exact I|intros I; exists OOther; auto]. }
  assert (Y : relayed t = true <-> exists p, In (Relay p) t).
  { unfold relayed. rewrite existsb_exists. split; [intros (a & I & A); destruct a; try discriminate; eauto|intros (p & I); exists (Relay p); auto]. }
  destruct (main_res _ _ _ _ _ M) as [(A & ->)|(A & ->)].
  - split; [auto|]. rewrite <- X. tauto.
  - rewrite <- X, <- Y, A. destruct (relayed t); cbn; [destruct (Z.eqb_spec (last_wait 0 t) 0) as [E|E]|]; split; auto; split; intros; try lia; auto.
    all: match goal with H : _ \/ _ |- _ => destruct H as [H|(H & H')]; try discriminate; try contradiction end.
Qed.
(** So an orderly stop, where nothing failed, is a failure when no sample was there yet. *)
Theorem C113_orderly_refuted : exists fuel y o t, main fuel y o = Some (t, 1) /\
  (forall h r, In (Select h r) t -> r = -2) /\ ~ In Fail t /\ (forall ms r, In (Period ms r) t -> r = 0) /\ ~ In OOther o.
Proof.
  exists 9%nat, (sysD (fun _ => 7) (fun _ => -2) (fun t => Nat.leb 2 (sels t))), [].
  eexists. split; [vm_compute; reflexivity|]. cbn.
  repeat split.
  - intros h r H. repeat (destruct H as [H|H]; [congruence|]). destruct H.
  - intros H. repeat (destruct H as [H|H]; [congruence|]). destruct H.
  - intros h r H. repeat (destruct H as [H|H]; [congruence|]). destruct H.
  - tauto.
Qed.
Example C113_status_ex : exists t, main 9 (sysD (fun _ => 7) (fun _ => 1) (fun t => Nat.leb 2 (sels t))) [] = Some (t, 0).
Proof. eexists. vm_compute. reflexivity. Qed.

Print Assumptions C111_released.
Print Assumptions C111_released_partial.
Print Assumptions C111_released_refuted.
Print Assumptions C112_options.
Print Assumptions C112_usage.
Print Assumptions C113_stops.
Print Assumptions C113_status.
Print Assumptions C113_orderly_refuted.
