(** The program launcher and the Android output: properties C100 and C101. *)
From Coq Require Import ZArith String List Bool Lia ZifyBool ZifyNat Arith.
From Verif Require Import Bytes BytesProofs Kmsgd KmsgdProofs Wrapper.
Import ListNotations.
Open Scope Z_scope.

(** ** C100 *)

(** The libraries of LD_PRELOAD: separated by spaces or colons. *)
Definition sep (c : Z) : bool := (c =? 32) || (c =? 58).
Fixpoint elements (v : list Z) : list (list Z) :=
  match v with
  | [] => [[]]
  | c :: v => match elements v with
              | e :: r => if sep c then [] :: e :: r else (c :: e) :: r
              | [] => []
              end
  end.
Lemma elements_cons v : exists e r, elements v = e :: r.
Proof. induction v as [|c v (e & r & E)]; cbn [elements]; [eauto|]. rewrite E. destruct (sep c); eauto. Qed.
Lemma elements_first a v : Forall (fun c => sep c = false) a -> elements (a ++ 32 :: v) = a :: elements v.
Proof.
  induction 1 as [|c a Hc F IH]; cbn [app elements].
  - destruct (elements_cons v) as (e & r & ->). reflexivity.
  - rewrite IH, Hc. reflexivity.
Qed.
Lemma wrapper_word : Forall (fun c => sep c = false) WRAPPER.
Proof. repeat constructor. Qed.
Lemma elements_one a : Forall (fun c => sep c = false) a -> elements a = [a].
Proof. induction 1 as [|c a Hc F IH]; [reflexivity|]. cbn [elements]. now rewrite IH, Hc. Qed.
Lemma getenv_set e n v : getenv (setenv e n v) n = Some v.
Proof.
  induction e as [|(k & w) e IH]; cbn [setenv getenv]; [now rewrite bytes_eqb_refl|]. destruct (bytes_eqb k n) eqn:E; cbn [getenv]; now rewrite E.
Qed.
Lemma getenv_other e n v n' : n' <> n -> getenv (setenv e n v) n' = getenv e n'.
Proof.
  intros H. induction e as [|(k & w) e IH]; cbn [setenv getenv].
  - destruct (bytes_eqb n n') eqn:E; [apply bytes_eqb_eq in E; congruence|reflexivity].
  - destruct (bytes_eqb k n) eqn:E; cbn [getenv]; [|now rewrite IH]. apply bytes_eqb_eq in E. subst k.
    destruct (bytes_eqb n n') eqn:E; [apply bytes_eqb_eq in E; congruence|reflexivity].
Qed.
Notation LD_PRELOAD := (bytes_of_string "LD_PRELOAD").
Notation NOSYSLOG := (bytes_of_string "ULOG_NOSYSLOG").
Notation DEVICE := (bytes_of_string "ULOG_DEVICE").
(** The libraries loaded first in an environment. *)
Definition preloaded (e : env) : list (list Z) := match getenv e LD_PRELOAD with Some v => elements v | None => [] end.
(** The device of the log that the environment names. *)
Definition log_file (e : env) : list Z := bytes_of_string "/dev/ulog_" ++ match getenv e DEVICE with Some n => n | None => bytes_of_string "main" end.

(** The program given is executed with its arguments; only the two variables may change. *)
Theorem C100_program : forall can_open self file args e, exists d e', main can_open (self :: file :: args) e = Exec d file (file :: args) e' /\
  (forall n, n <> LD_PRELOAD -> n <> NOSYSLOG -> getenv e' n = getenv e n).
Proof.
  intros can_open self file args e. cbn [main]. do 2 eexists. split; [reflexivity|]. intros n N1 N2. destruct (can_open (device e)); [|reflexivity]. unfold wrap.
  destruct (getenv e LD_PRELOAD) as [v|]; [destruct (strstr v WRAPPER); [reflexivity|]|]; rewrite !getenv_other by assumption; reflexivity.
Qed.
(** With the device, the wrapper is loaded before the libraries that were asked for, and the fallback to
    syslog is disabled. *)
Theorem C100_wrapped_partial : forall can_open self file args e,
  zlen (log_file e) <= 31 -> can_open (log_file e) = true ->
  (forall v, getenv e LD_PRELOAD = Some v -> zlen v <= 4064 /\ forall a b, v <> a ++ WRAPPER ++ b) ->
  exists e', main can_open (self :: file :: args) e = Exec (log_file e) file (file :: args) e' /\ preloaded e' = WRAPPER :: preloaded e /\ getenv e' NOSYSLOG = Some (bytes_of_string "yes").
Proof.
  intros can_open self file args e HL HO HV. assert (D : device e = log_file e).
  { unfold device, log_file in *. destruct (getenv e DEVICE); [|reflexivity]. now apply ztake_all. }
  cbn [main]. rewrite D, HO. eexists. split; [reflexivity|]. unfold wrap, preloaded. destruct (getenv e LD_PRELOAD) as [v|] eqn:EV.
  - destruct (HV v eq_refl) as (L & N). destruct (strstr v WRAPPER) as [k|] eqn:ES; [destruct (strstr_split _ _ _ ES) as (_ & b & E); exfalso; exact (N _ _ E)|].
    rewrite getenv_other by discriminate. rewrite !getenv_set. rewrite ztake_all by (rewrite !zlen_app; change (zlen WRAPPER) with 30; change (zlen [32]) with 1; lia).
    cbn [app]. rewrite (elements_first _ _ wrapper_word). now split.
  - rewrite getenv_other by discriminate. rewrite !getenv_set. rewrite (elements_one _ wrapper_word). now split.
Qed.
(** Without the device nothing changes. *)
Theorem C100_no_device : forall can_open self file args e, zlen (log_file e) <= 31 -> can_open (log_file e) = false ->
  main can_open (self :: file :: args) e = Exec (log_file e) file (file :: args) e.
Proof.
  intros can_open self file args e HL HO. assert (D : device e = log_file e).
  { unfold device, log_file in *. destruct (getenv e DEVICE); [|reflexivity]. now apply ztake_all. }
  cbn [main]. now rewrite D, HO.
Qed.
Definition w := bytes_of_string.
Definition ex_env : env := [(w "PATH", w "/bin"); (w "LD_PRELOAD", w "/lib/a.so:/lib/b.so"); (w "ULOG_DEVICE", w "flight")].
Example C100_ex : log_file ex_env = w "/dev/ulog_flight" /\ (forall v, getenv ex_env LD_PRELOAD = Some v -> zlen v <= 4064 /\ forall a b, v <> a ++ WRAPPER ++ b) /\
  exists e', main (fun _ => true) [w "ulogwrapper"; w "/bin/ls"; w "-l"] ex_env = Exec (w "/dev/ulog_flight") (w "/bin/ls") [w "/bin/ls"; w "-l"] e' /\ preloaded e' = [WRAPPER; w "/lib/a.so"; w "/lib/b.so"].
Proof.
  split; [reflexivity|]. split.
  - intros v E. vm_compute in E. injection E as <-. split; [vm_compute; discriminate|]. intros a b E. assert (Z0 : strstr (w "/lib/a.so:/lib/b.so") WRAPPER = None) by reflexivity. exact (strstr_none _ _ Z0 _ _ E).
  - eexists. split; vm_compute; reflexivity.
Qed.
(** A library whose path starts with the one of the wrapper is taken for it: nothing is done. *)
Theorem C100_prefix_refuted : exists e, main (fun _ => true) [w "ulogwrapper"; w "/bin/ls"] e = Exec (log_file e) (w "/bin/ls") [w "/bin/ls"] e /\ ~ In WRAPPER (preloaded e) /\ getenv e NOSYSLOG = None.
Proof.
  exists [(w "LD_PRELOAD", w "/usr/lib/libulog_syslogwrap.so.old")]. split; [vm_compute; reflexivity|]. split; [|reflexivity].
  intros H. vm_compute in H. destruct H as [H|[]]. discriminate H.
Qed.
(** When the wrapper is already there, the fallback to syslog is not disabled. *)
Theorem C100_fallback_refuted : forall can_open self file args e v a b, getenv e LD_PRELOAD = Some v -> v = a ++ WRAPPER ++ b ->
  exists d, main can_open (self :: file :: args) e = Exec d file (file :: args) e.
Proof.
  intros can_open self file args e v a b E1 E2. cbn [main]. eexists. destruct (can_open (device e)); [|reflexivity]. unfold wrap. rewrite E1. destruct (strstr v WRAPPER) eqn:E; [reflexivity|]. exfalso. exact (strstr_none _ _ E _ _ E2).
Qed.
Example C100_fallback_ex : getenv [(w "LD_PRELOAD", w "a.so /usr/lib/libulog_syslogwrap.so")] LD_PRELOAD = Some (w "a.so " ++ WRAPPER ++ []) /\ getenv [(w "LD_PRELOAD", w "a.so /usr/lib/libulog_syslogwrap.so")] NOSYSLOG = None.
Proof. split; reflexivity. Qed.
(** A long list of libraries is cut. *)
Theorem C100_cut_refuted : forall can_open self file args e v, getenv e LD_PRELOAD = Some v -> strstr v WRAPPER = None -> 4064 < zlen v -> can_open (device e) = true ->
  exists d e' v', main can_open (self :: file :: args) e = Exec d file (file :: args) e' /\ getenv e' LD_PRELOAD = Some v' /\ zlen v' = 4095 /\ v' <> WRAPPER ++ [32] ++ v.
Proof.
  intros can_open self file args e v E1 E2 L O. cbn [main]. rewrite O. do 3 eexists. split; [reflexivity|]. unfold wrap. rewrite E1, E2. rewrite getenv_other by discriminate. rewrite getenv_set. split; [reflexivity|].
  assert (X : zlen (WRAPPER ++ [32] ++ v) = 31 + zlen v) by (rewrite !zlen_app; change (zlen WRAPPER) with 30; change (zlen [32]) with 1; lia).
  assert (Y : zlen (ztake 4095 (WRAPPER ++ [32] ++ v)) = 4095) by (rewrite zlen_ztake, X; lia). split; [exact Y|]. intros Z0. rewrite Z0 in Y. lia.
Qed.
Lemma strstr_repeat n c needle : ~ In c needle -> needle <> [] -> strstr (repeat c n) needle = None.
Proof.
  intros H N. destruct (strstr (repeat c n) needle) as [k|] eqn:E; [|reflexivity]. exfalso. destruct (strstr_split _ _ _ E) as (_ & b & X). destruct needle as [|x needle]; [now apply N|].
  assert (I : In x (repeat c n)) by (rewrite X; apply in_or_app; right; now left). apply repeat_spec in I. subst. apply H. now left.
Qed.
Example C100_cut_ex : let v := repeat 120 (Z.to_nat 5000) in getenv [(w "LD_PRELOAD", v)] LD_PRELOAD = Some v /\ strstr v WRAPPER = None /\ 4064 < zlen v.
Proof. split; [reflexivity|]. split; [|reflexivity]. apply strstr_repeat; [|discriminate]. cbn. intuition discriminate. Qed.

(** ** C101 *)

(** A text message goes to the log of Android with its tag and its text, as severe as it was among the others;
    binary data does not. *)
Theorem C101_android_partial : forall p name buf, 2 <= Z.land p 7 ->
  (Z.testbit p 7 = true -> writer_android p name buf = None) /\
  (Z.testbit p 7 = false -> exists a, writer_android p name buf = Some (a, name, buf) /\ 3 <= a <= 7 /\
     (a = 7 <-> Z.land p 7 = 2) /\ (a = 6 <-> Z.land p 7 = 3) /\ (a = 5 <-> Z.land p 7 = 4) /\ (a = 4 <-> Z.land p 7 = 5 \/ Z.land p 7 = 6) /\ (a = 3 <-> Z.land p 7 = 7)).
Proof.
  intros p name buf H. unfold writer_android. split; intros ->; [reflexivity|]. eexists. split; [reflexivity|].
  assert (B : 0 <= Z.land p 7 < 8) by (change 7 with (Z.ones 3); rewrite Z.land_ones by lia; apply Z.mod_pos_bound; lia).
  set (l := Z.land p 7) in *. clearbody l. assert (X : l = 2 \/ l = 3 \/ l = 4 \/ l = 5 \/ l = 6 \/ l = 7) by lia. clear - X.
  destruct X as [->|[->|[->|[->|[->| ->]]]]]; match goal with |- context [prio_map ?k] => let y := eval vm_compute in (prio_map k) in change (prio_map k) with y end; repeat split; intros; lia.
Qed.
Example C101_ex : writer_android (Z.lor (Z.shiftl 255 8) 3) (w "tag") (w "text") = Some (6, w "tag", w "text").
Proof. reflexivity. Qed.
(** The most severe levels of the syslog interface, emergency and alert, get the level "unknown", the lowest. *)
Theorem C101_emergency_refuted : forall name buf, writer_android 0 name buf = Some (0, name, buf) /\ writer_android 1 name buf = Some (0, name, buf) /\ exists a, writer_android 7 name buf = Some (a, name, buf) /\ 0 < a.
Proof. intros. split; [reflexivity|]. split; [reflexivity|]. eexists. split; [reflexivity|]. reflexivity. Qed.

Print Assumptions C100_program.
Print Assumptions C100_wrapped_partial.
Print Assumptions C100_no_device.
Print Assumptions C100_prefix_refuted.
Print Assumptions C100_fallback_refuted.
Print Assumptions C100_cut_refuted.
Print Assumptions C101_android_partial.
Print Assumptions C101_emergency_refuted.
