(** C126: installing the redirections and setting their levels. *)
From Coq Require Import ZArith String List Bool Lia ZifyBool ZifyNat Arith.
From Verif Require Import Bytes BytesProofs Parse Redirect RedirectProofs PropsRedirect RedirectLife.
From Verif Require Cookies CookiesSpec PropsCookies.
Import ListNotations.
Open Scope Z_scope.

(** ** Specification *)

(** The level asked for, within 0 and 7. *)
Definition within (l : Z) : Z := Z.max 0 (Z.min 7 l).

(** The names: of the tags of the three redirections (1, 2, 3) and of those of the application; the default
    tag (0) has none. *)
Definition title (cf : cfg) (c : nat) : list Z :=
  nth c [[]; bytes_of_string "ulog_glib"; bytes_of_string "ulog_gst"; bytes_of_string "obus"] (c_app cf c).
(** An operation that may change the level of a registered tag [c]. *)
Definition changes (cf : cfg) (c : nat) (o : op) : Prop :=
  (exists l, o = Set_ c l) \/ (exists l, o = SetTag (title cf c) l).
Definition quiet (cf : cfg) (c : nat) (h : list op) : Prop := forall o, In o h -> ~ changes cf c o.

(** An operation that registers the tag [c]. *)
Definition touches (c : nat) (o : op) : Prop :=
  o = Init c \/ (exists l, o = Set_ c l) \/ (c = 1%nat /\ o = GlibRedirect) \/ (c = 2%nat /\ o = GstRedirect) \/
  (c = 3%nat /\ exists l x, o = ObusMsg l x).

(** No other tag has the name of [c]. *)
Definition alone (cf : cfg) (c : nat) : Prop := forall d, title cf d = title cf c -> d = c.

(** Priority of a GLib message of severity [i] (C56): messages and informations are both informations. *)
Definition glib_prio (i : Z) : Z := if i =? 5 then 6 else i.

(** Number of calls of ulog_gst_redirect. *)
Fixpoint gst_redirects (h : list op) : nat :=
  match h with [] => 0%nat | GstRedirect :: h => S (gst_redirects h) | _ :: h => gst_redirects h end.

(** [x] written [n] times. *)
Definition copies (n : nat) (x : call) : list event := repeat (Rec x) n.

Definition tag_of (n : option (list Z)) : list Z := match n with Some n => n | None => bytes_of_string "APP" end.

(** ** Lemmas *)

Lemma title_name cf c : title cf c = name_of (c_app cf) c.
Proof. destruct c as [|[|[|[|c]]]]; try reflexivity. cbn. now destruct c. Qed.
Lemma clamp_within l : Cookies.clamp l = within l.
Proof. unfold Cookies.clamp, within. change Cookies.ULOG_DEBUG with 7. destruct (Z.ltb_spec l 0); [cbn; lia|]. destruct (Z.gtb_spec l 7); lia. Qed.

Lemma upd_same f c v : upd f c v c = v.
Proof. unfold upd. now rewrite Nat.eqb_refl. Qed.
Lemma upd_other f c v d : d <> c -> upd f c v d = f d.
Proof. intros H. unfold upd. destruct (Nat.eqb_spec d c); congruence. Qed.

Lemma init_reg cf s c : 0 <= s_level (ulog_init cf s c) c.
Proof.
  unfold ulog_init. destruct (Z.ltb_spec (s_level s c) 0); [|assumption]. cbn [s_level with_levels]. rewrite upd_same. cbv zeta.
  destruct ((Cookies.env_level (ccfg cf) c <? 0) && (s_level s 0%nat >=? 0));
  [destruct (Z.ltb_spec (s_level s 0%nat) 0)|destruct (Z.ltb_spec (Cookies.env_level (ccfg cf) c) 0)]; change ULOG_INFO with 6; lia.
Qed.
Lemma init_keep cf s c d : 0 <= s_level s d -> s_level (ulog_init cf s c) d = s_level s d.
Proof.
  intros H. unfold ulog_init. destruct (Z.ltb_spec (s_level s c) 0); [|reflexivity]. cbn [s_level with_levels].
  apply upd_other. intros ->. lia.
Qed.
Lemma init_other cf s c d : d <> c -> s_level (ulog_init cf s c) d = s_level s d.
Proof. intros H. unfold ulog_init. destruct (s_level s c <? 0); [|reflexivity]. cbn [s_level with_levels]. now apply upd_other. Qed.
Lemma init_flags cf s c : s_glib (ulog_init cf s c) = s_glib s /\ s_gst (ulog_init cf s c) = s_gst s /\
  s_gstdef (ulog_init cf s c) = s_gstdef s /\ s_thr (ulog_init cf s c) = s_thr s /\ s_obus (ulog_init cf s c) = s_obus s.
Proof. unfold ulog_init. destruct (s_level s c <? 0); repeat split; reflexivity. Qed.
Lemma set_flags cf s c l : s_glib (set_level cf s c l) = s_glib s /\ s_gst (set_level cf s c l) = s_gst s /\
  s_gstdef (set_level cf s c l) = s_gstdef s /\ s_thr (set_level cf s c l) = s_thr s /\ s_obus (set_level cf s c l) = s_obus s.
Proof. unfold set_level. exact (init_flags cf s c). Qed.
Lemma set_value cf s c l : s_level (set_level cf s c l) c = within l.
Proof. unfold set_level. cbn [s_level with_levels]. rewrite upd_same. apply clamp_within. Qed.
Lemma set_other cf s c l d : d <> c -> s_level (set_level cf s c l) d = s_level s d.
Proof. intros H. unfold set_level. cbn [s_level with_levels]. rewrite upd_other by assumption. now apply init_other. Qed.

(** One step keeps the level of a registered tag that it does not set. *)
Lemma step_level cf s o s' e c : step cf s o = Ok (s', e) -> 0 <= s_level s c -> ~ changes cf c o -> s_level s' c = s_level s c.
Proof.
  intros H R N. destruct o as [| | |d|d l|n l|dm l x|ct l lo ob x|l x]; cbn [step] in H.
  - replace s' with (fst (s', e)) by reflexivity. injection H as <- _. cbn [s_level fst]. now apply init_keep.
  - injection H as <- _. cbn [s_level]. now apply init_keep.
  - injection H as <- _. reflexivity.
  - injection H as <- _. now apply init_keep.
  - injection H as <- _. apply set_other. intros ->. apply N. left. now exists l.
  - unfold set_tag_level in H. destruct (find _ (s_list s)) as [d|] eqn:F.
    + injection H as <- _. apply set_other. intros ->. apply find_some in F. apply N. right. exists l. f_equal.
      destruct F as (_ & F). apply bytes_eqb_eq in F. rewrite title_name. congruence.
    + injection H as <- _. reflexivity.
  - injection H as <- _. reflexivity.
  - destruct (s_gst s); [injection H as <- _; reflexivity|].
    destruct (gst_log_func _ _ _ _ _ _ _ _); cbn [bind] in H; [|discriminate]. injection H as <- _. reflexivity.
  - destruct (s_obus s); injection H as <- _; [now apply init_keep|reflexivity].
Qed.

Lemma run_level cf h : forall s s' e c, run cf s h = Ok (s', e) -> 0 <= s_level s c -> quiet cf c h -> s_level s' c = s_level s c.
Proof.
  induction h as [|o h IH]; intros s s' e c H R Q; cbn [run] in H; [injection H as <- _; reflexivity|].
  destruct (step cf s o) as [[s1 e1]|] eqn:E; cbn [bind] in H; [|discriminate].
  destruct (run cf s1 h) as [[s2 e2]|] eqn:E2; cbn [bind] in H; [|discriminate]. injection H as <- _.
  pose proof (step_level cf s o s1 e1 c E R (Q o (or_introl eq_refl))) as L.
  rewrite <- L. apply (IH _ _ _ _ E2); [lia|]. intros x Hx. apply Q. now right.
Qed.

Lemma run_app cf h1 : forall s h2 r, run cf s (h1 ++ h2) = Ok r ->
  exists s1 e1 e2, run cf s h1 = Ok (s1, e1) /\ run cf s1 h2 = Ok (fst r, e2) /\ snd r = e1 ++ e2.
Proof.
  induction h1 as [|o h1 IH]; intros s h2 r H; cbn [app run] in *.
  - destruct r as [sr er]. now exists s, [], er.
  - destruct (step cf s o) as [[s1 e1]|]; cbn [bind] in *; [|discriminate].
    destruct (run cf s1 (h1 ++ h2)) as [[s2 e2]|] eqn:E; cbn [bind] in H; [|discriminate].
    injection H as <-. cbn [fst snd]. destruct (IH _ _ _ E) as (s3 & e3 & e4 & E1 & E2 & E3). cbn [fst snd] in *.
    exists s3, (e1 ++ e3), e4. rewrite E1. cbn [bind]. repeat split; [assumption|]. rewrite E3. now rewrite app_assoc.
Qed.

(** What is installed. *)
Lemma step_flags cf s o s' e : step cf s o = Ok (s', e) ->
  s_glib s' = (match o with GlibRedirect => true | _ => s_glib s end) /\
  s_gst s' = (match o with GstRedirect => S (s_gst s) | _ => s_gst s end) /\
  s_gstdef s' = (match o with GstRedirect => false | _ => s_gstdef s end) /\
  s_thr s' = (match o with GstRedirect => 3 | _ => s_thr s end) /\
  s_obus s' = (match o with ObusRedirect => true | _ => s_obus s end).
Proof.
  intros H. destruct o as [| | |d|d l|n l|dm l x|ct l lo ob x|l x]; cbn [step] in H.
  1: destruct (init_flags cf s 1) as (F1 & F2 & F3 & F4 & F5).
  2: destruct (init_flags cf s 2) as (F1 & F2 & F3 & F4 & F5).
  4: destruct (init_flags cf s d) as (F1 & F2 & F3 & F4 & F5).
  5: destruct (set_flags cf s d l) as (F1 & F2 & F3 & F4 & F5).
  6: unfold set_tag_level in H; destruct (find _ (s_list s)) as [d|]; [destruct (set_flags cf s d l) as (F1 & F2 & F3 & F4 & F5)|].
  9: destruct (s_gst s) as [|k] eqn:G; [|destruct (gst_log_func _ _ _ _ _ _ _ _); cbn [bind] in H; [|discriminate]].
  11: destruct (s_obus s) eqn:O; [destruct (init_flags cf s 3) as (F1 & F2 & F3 & F4 & F5)|].
  all: injection H as <- _; cbn [s_glib s_gst s_gstdef s_thr s_obus]; repeat split; congruence.
Qed.

Lemma run_glib cf h : forall s s' e, run cf s h = Ok (s', e) ->
  (s_glib s' = true <-> s_glib s = true \/ In GlibRedirect h) /\ (s_obus s' = true <-> s_obus s = true \/ In ObusRedirect h) /\
  s_gst s' = (s_gst s + gst_redirects h)%nat /\
  (gst_redirects h <> 0%nat -> s_thr s' = 3 /\ s_gstdef s' = false) /\ (gst_redirects h = 0%nat -> s_thr s' = s_thr s /\ s_gstdef s' = s_gstdef s).
Proof.
  induction h as [|o h IH]; intros s s' e H; cbn [run] in H.
  - injection H as <- _. cbn [In gst_redirects]. repeat split; intuition lia.
  - destruct (step cf s o) as [[s1 e1]|] eqn:E; cbn [bind] in H; [|discriminate].
    destruct (run cf s1 h) as [[s2 e2]|] eqn:E2; cbn [bind] in H; [|discriminate]. injection H as <- _.
    destruct (step_flags _ _ _ _ _ E) as (F1 & F2 & F3 & F4 & F5). destruct (IH _ _ _ E2) as (I1 & I2 & I3 & I4 & I5). clear IH E E2.
    cbn [In]. split; [rewrite I1, F1; destruct o; intuition congruence|]. split; [rewrite I2, F5; destruct o; intuition congruence|].
    split; [rewrite I3, F2; destruct o; cbn [gst_redirects]; lia|].
    split.
    + intros N. destruct (Nat.eq_dec (gst_redirects h) 0) as [Z|Z]; [|exact (I4 Z)].
      destruct (I5 Z) as (-> & ->). destruct o; cbn [gst_redirects] in N; try congruence; auto.
    + intros N. destruct o; cbn [gst_redirects] in N; try discriminate; destruct (I5 N) as (-> & ->); auto.
Qed.

(** A registered tag is in the list. *)
Definition reg (s : state) : Prop := forall c, 0 <= s_level s c -> In c (s_list s).
Lemma init_list cf s c : reg s -> reg (ulog_init cf s c).
Proof.
  intros R. unfold ulog_init. destruct (s_level s c <? 0); [|exact R]. intros d. cbn [s_level s_list with_levels].
  destruct (Nat.eq_dec d c) as [->|N]; [now left|]. rewrite upd_other by assumption. intros H. right. now apply R.
Qed.
Lemma set_list cf s c l : reg s -> reg (set_level cf s c l).
Proof.
  intros R d. unfold set_level. cbn [s_level s_list with_levels]. pose proof (init_list cf s c R) as R'.
  destruct (Nat.eq_dec d c) as [->|N]; [|rewrite upd_other by assumption; apply R']. intros _. apply R'. apply init_reg.
Qed.
Lemma step_reg cf s o s' e : step cf s o = Ok (s', e) -> reg s -> reg s'.
Proof.
  intros H R. destruct o as [| | |d|d l|n l|dm l x|ct l lo ob x|l x]; cbn [step] in H.
  6: unfold set_tag_level in H; destruct (find _ (s_list s)) as [d|].
  9: destruct (s_gst s) as [|k] eqn:G; [|destruct (gst_log_func _ _ _ _ _ _ _ _); cbn [bind] in H; [|discriminate]].
  11: destruct (s_obus s) eqn:O.
  all: injection H as <- _; first [exact R|exact (init_list cf s _ R)|exact (set_list cf s _ _ R)].
Qed.
Lemma run_reg cf h : forall s s' e, run cf s h = Ok (s', e) -> reg s -> reg s'.
Proof.
  induction h as [|o h IH]; intros s s' e H R; cbn [run] in H; [injection H as <- _; exact R|].
  destruct (step cf s o) as [[s1 e1]|] eqn:E; cbn [bind] in H; [|discriminate].
  destruct (run cf s1 h) as [[s2 e2]|] eqn:E2; cbn [bind] in H; [|discriminate]. injection H as <- _.
  exact (IH _ _ _ E2 (step_reg _ _ _ _ _ E R)).
Qed.
Lemma reg_init thr : reg (init thr).
Proof. intros c H. cbn in H. lia. Qed.

Lemma set_tag_alone cf s c l : reg s -> 0 <= s_level s c -> alone cf c ->
  set_tag_level cf s (name_of (c_app cf) c) l = (set_level cf s c l, 0).
Proof.
  intros R H A. unfold set_tag_level. destruct (find _ (s_list s)) as [d|] eqn:F.
  - apply find_some in F. destruct F as (_ & F). apply bytes_eqb_eq in F. rewrite <- !title_name in F. now rewrite (A d F).
  - exfalso. pose proof (find_none _ _ F c (R c H)) as X. cbv beta in X. rewrite bytes_eqb_refl in X. discriminate.
Qed.

(** A tag stays unregistered while nothing registers it. *)
Lemma step_untouched cf s o s' e c : step cf s o = Ok (s', e) -> (forall d, In d (s_list s) -> 0 <= s_level s d) -> s_level s c < 0 -> ~ touches c o ->
  s_level s' c = s_level s c /\ (forall d, In d (s_list s') -> 0 <= s_level s' d).
Proof.
  assert (IL : forall s d, (forall d, In d (s_list s) -> 0 <= s_level s d) -> forall x, In x (s_list (ulog_init cf s d)) -> 0 <= s_level (ulog_init cf s d) x).
  { intros s0 d R x Hx. destruct (Nat.eq_dec x d) as [->|N]; [apply init_reg|]. rewrite init_other by assumption. apply R.
    unfold ulog_init in Hx. destruct (s_level s0 d <? 0); [|exact Hx]. cbn [s_list with_levels In] in Hx. destruct Hx; [congruence|assumption]. }
  assert (SL : forall s d l, (forall d, In d (s_list s) -> 0 <= s_level s d) -> forall x, In x (s_list (set_level cf s d l)) -> 0 <= s_level (set_level cf s d l) x).
  { intros s0 d l R x Hx. destruct (Nat.eq_dec x d) as [->|N]; [rewrite set_value; unfold within; lia|]. rewrite set_other by assumption.
    rewrite <- (init_other cf s0 d x N). apply IL; [exact R|exact Hx]. }
  intros H R L T. destruct o as [| | |d|d l|n l|dm l x|ct l lo ob x|l x]; cbn [step] in H.
  - injection H as <- _. cbn [s_level s_list]. split; [|apply IL; exact R]. apply init_other. intros ->. apply T. right. right. now left.
  - injection H as <- _. cbn [s_level s_list]. split; [|apply IL; exact R]. apply init_other. intros ->. apply T. do 3 right. now left.
  - injection H as <- _. split; [reflexivity|exact R].
  - injection H as <- _. split; [|apply IL; exact R]. apply init_other. intros ->. apply T. now left.
  - injection H as <- _. split; [|apply SL; exact R]. apply set_other. intros ->. apply T. right. left. now exists l.
  - unfold set_tag_level in H. destruct (find _ (s_list s)) as [d|] eqn:F; injection H as <- _; [|split; [reflexivity|exact R]].
    split; [|apply SL; exact R]. apply set_other. intros ->. apply find_some in F. pose proof (R d (proj1 F)). lia.
  - injection H as <- _. split; [reflexivity|exact R].
  - destruct (s_gst s); [injection H as <- _; split; [reflexivity|exact R]|].
    destruct (gst_log_func _ _ _ _ _ _ _ _); cbn [bind] in H; [|discriminate]. injection H as <- _. split; [reflexivity|exact R].
  - destruct (s_obus s); injection H as <- _; [|split; [reflexivity|exact R]]. split; [|apply IL; exact R]. apply init_other.
    intros ->. apply T. do 4 right. split; [reflexivity|]. now exists l, x.
Qed.
Lemma run_untouched cf h : forall s s' e c, run cf s h = Ok (s', e) -> (forall d, In d (s_list s) -> 0 <= s_level s d) -> s_level s c < 0 ->
  (forall o, In o h -> ~ touches c o) -> s_level s' c = s_level s c.
Proof.
  induction h as [|o h IH]; intros s s' e c H R L T; cbn [run] in H; [injection H as <- _; reflexivity|].
  destruct (step cf s o) as [[s1 e1]|] eqn:E; cbn [bind] in H; [|discriminate].
  destruct (run cf s1 h) as [[s2 e2]|] eqn:E2; cbn [bind] in H; [|discriminate]. injection H as <- _.
  destruct (step_untouched _ _ _ _ _ _ E R L (T o (or_introl eq_refl))) as (L1 & R1).
  rewrite <- L1. apply (IH _ _ _ _ E2 R1); [lia|]. intros x Hx. apply T. now right.
Qed.

Lemma log_str_iff u master tag x : 0 <= u <= 7 -> log_str u master tag x = if u <=? master then [Log u tag x] else [].
Proof. intros H. unfold log_str. change 7 with (Z.ones 3). rewrite Z.land_ones by lia. rewrite Z.mod_small by (change (2 ^ 3) with 8; lia). reflexivity. Qed.

Lemma glib_msg cf s d level i x : s_glib s = true -> 0 <= s_level s 1%nat -> glib_severity level i ->
  step cf s (GlibMsg d level x) = Ok (s, if glib_prio i <=? s_level s 1%nat then [Rec (Log (glib_prio i) (tag_of d) x)] else []).
Proof.
  intros G R V. cbn [step]. rewrite G. unfold glog_func. rewrite (glib_level_spec level i V). destruct V as (V & _).
  assert (P : (if i =? 5 then 6 else if i =? 6 then 6 else i) = glib_prio i) by (unfold glib_prio; destruct (Z.eqb_spec i 5); [reflexivity|]; destruct (Z.eqb_spec i 6); lia). rewrite P. cbv zeta.
  assert (2 <= glib_prio i <= 7) by (unfold glib_prio; destruct (Z.eqb_spec i 5); lia).
  destruct (Z.eqb_spec (glib_prio i) (-1)); [lia|]. destruct (Z.geb_spec (s_level s 1%nat) 0); [|lia]. cbn [negb andb].
  rewrite log_str_iff by lia. destruct (glib_prio i <=? s_level s 1%nat); reflexivity.
Qed.

(** The level after the last setting. *)
Lemma last_set cf thr h1 c l h2 s e : run cf (init thr) (h1 ++ Set_ c l :: h2) = Ok (s, e) -> quiet cf c h2 -> s_level s c = within l.
Proof.
  intros H Q. apply run_app in H. destruct H as (s1 & e1 & e2 & E1 & E2 & _). cbn [fst run step bind] in E2.
  destruct (run cf (set_level cf s1 c l) h2) as [[s3 e3]|] eqn:E3; cbn [bind] in E2; [|discriminate]. injection E2 as <- _.
  rewrite (run_level _ _ _ _ _ c E3); [apply set_value| |exact Q]. rewrite set_value. unfold within. lia.
Qed.
Lemma redirected cf thr h s e : run cf (init thr) h = Ok (s, e) ->
  (s_glib s = true <-> In GlibRedirect h) /\ (s_obus s = true <-> In ObusRedirect h) /\ s_gst s = gst_redirects h /\
  s_gstdef s = Nat.eqb (gst_redirects h) 0 /\ (gst_redirects h <> 0%nat -> s_thr s = 3).
Proof.
  intros H. destruct (run_glib _ _ _ _ _ H) as (A & B & C & D & F). cbn [init s_glib s_obus s_gst s_thr s_gstdef] in *.
  split; [rewrite A; intuition congruence|]. split; [rewrite B; intuition congruence|]. split; [exact C|].
  destruct (gst_redirects h); [destruct (F eq_refl); split; [assumption|congruence]|]. destruct D as (D1 & D2); [discriminate|]. split; [exact D2|]. intros _. exact D1.
Qed.

(** ** C126 *)

(** Messages of GLib: one record when the priority passes the level last given to ulog_glib_set_level,
    before or after the redirection. *)
Theorem C126_glib : forall cf thr h1 l h2 s e, run cf (init thr) (h1 ++ Set_ 1 l :: h2) = Ok (s, e) ->
  quiet cf 1 h2 -> In GlibRedirect (h1 ++ h2) ->
  forall d level i x, glib_severity level i ->
  step cf s (GlibMsg d level x) = Ok (s, if glib_prio i <=? within l then [Rec (Log (glib_prio i) (tag_of d) x)] else []).
Proof.
  intros cf thr h1 l h2 s e H Q I d level i x V. pose proof (last_set _ _ _ _ _ _ _ _ H Q) as L. rewrite <- L.
  destruct (redirected _ _ _ _ _ H) as (A & _). apply glib_msg; [|rewrite L; unfold within; lia|exact V].
  apply A. apply in_app_iff in I. apply in_app_iff. cbn [In]. tauto.
Qed.
Print Assumptions C126_glib.

(** The same when the level is set by name, with the tag registered. *)
Theorem C126_glib_by_name : forall cf thr h1 l h2 s e, run cf (init thr) (h1 ++ SetTag (bytes_of_string "ulog_glib") l :: h2) = Ok (s, e) ->
  alone cf 1 -> quiet cf 1 h2 -> In GlibRedirect h1 ->
  exists e1 e2, e = e1 ++ Ret 0 :: e2 /\ (exists s1, run cf (init thr) h1 = Ok (s1, e1)) /\
  forall d level i x, glib_severity level i ->
  step cf s (GlibMsg d level x) = Ok (s, if glib_prio i <=? within l then [Rec (Log (glib_prio i) (tag_of d) x)] else []).
Proof.
  intros cf thr h1 l h2 s e H A Q I. pose proof (redirected _ _ _ _ _ H) as (G & _).
  apply run_app in H. destruct H as (s1 & e1 & e2 & E1 & E2 & E). cbn [fst snd] in E, E2.
  assert (R1 : 0 <= s_level s1 1%nat).
  { apply in_split in I. destruct I as (a & b & ->). apply run_app in E1. destruct E1 as (s2 & f1 & f2 & F1 & F2 & _).
    cbn [fst run step bind] in F2. destruct (run cf _ b) as [[s3 f3]|] eqn:F3; cbn [bind] in F2; [|discriminate]. injection F2 as <- _.
    assert (K : forall h s s' e, run cf s h = Ok (s', e) -> 0 <= s_level s 1%nat -> 0 <= s_level s' 1%nat).
    { clear. induction h as [|o h IH]; intros s s' e H R; cbn [run] in H; [injection H as <- _; exact R|].
      destruct (step cf s o) as [[s1 e1]|] eqn:E; cbn [bind] in H; [|discriminate].
      destruct (run cf s1 h) as [[s2 e2]|] eqn:E2; cbn [bind] in H; [|discriminate]. injection H as <- _.
      apply (IH _ _ _ E2). clear IH E2.
      assert (D : (exists l, o = Set_ 1 l) \/ (exists n l, o = SetTag n l) \/ ~ changes cf 1 o).
      { destruct o as [| | |d|d l|n l|dm l x|ct l lo ob x|l x]; try (right; right; intros [[y Y]|[y Y]]; discriminate);
        [|right; left; now exists n, l]. destruct (Nat.eq_dec d 1) as [->|N]; [left; now exists l|].
        right. right. intros [[y Y]|[y Y]]; congruence. }
      destruct D as [[l ->]|[[n [l ->]]|D]].
      - cbn [step] in E. injection E as <- _. rewrite set_value. unfold within. lia.
      - cbn [step] in E. unfold set_tag_level in E. destruct (find _ _) as [d|]; injection E as <- _; [|exact R].
        destruct (Nat.eq_dec 1 d) as [<-|N]; [rewrite set_value; unfold within; lia|]. now rewrite set_other.
      - rewrite (step_level _ _ _ _ _ _ E R D). exact R. }
    apply (K _ _ _ _ F3). cbn [s_level]. apply init_reg. }
  pose proof (run_reg _ _ _ _ _ E1 (reg_init thr)) as RG.
  cbn [run step] in E2. change (bytes_of_string "ulog_glib") with (name_of (c_app cf) 1) in E2.
  rewrite (set_tag_alone _ _ _ _ RG R1 A) in E2. cbn [bind] in E2.
  destruct (run cf (set_level cf s1 1 l) h2) as [[s3 e3]|] eqn:E3; cbn [bind] in E2; [|discriminate].
  cbn [app] in E2. exists e1, e3. split; [rewrite E; f_equal; congruence|]. split; [now exists s1|]. assert (s3 = s) by congruence. subst s3.
  intros d level i x V. assert (L : s_level s 1%nat = within l).
  { rewrite (run_level _ _ _ _ _ 1%nat E3); [apply set_value| |exact Q]. rewrite set_value. unfold within. lia. }
  rewrite <- L. apply glib_msg; [|rewrite L; unfold within; lia|exact V]. apply G. apply in_app_iff. now left.
Qed.
Print Assumptions C126_glib_by_name.

(** Without a setting, the level is the documented initial one of the tag ulog_glib, at the redirection
    ([def]: level of the empty tag, set last by the application or not at all). *)
Theorem C126_glib_initial : forall cf thr h1 h2 s e def, run cf (init thr) (h1 ++ GlibRedirect :: h2) = Ok (s, e) ->
  (forall o, In o h1 -> ~ touches 1 o) -> quiet cf 1 h2 ->
  (def = -1 /\ (forall o, In o h1 -> ~ touches 0 o)) \/ (exists a b l, h1 = a ++ Set_ 0 l :: b /\ quiet cf 0 b /\ def = within l) ->
  let level0 := CookiesSpec.initial_level (c_env cf) (bytes_of_string "ulog_glib") def in
  forall d level i x, glib_severity level i ->
  step cf s (GlibMsg d level x) = Ok (s, if glib_prio i <=? level0 then [Rec (Log (glib_prio i) (tag_of d) x)] else []).
Proof.
  intros cf thr h1 h2 s e def H T Q D level0 d level i x V. pose proof (redirected _ _ _ _ _ H) as (G & _).
  apply run_app in H. destruct H as (s1 & e1 & e2 & E1 & E2 & E). cbn [fst snd run step bind] in E, E2.
  destruct (run cf _ h2) as [[s3 e3]|] eqn:E3; cbn [bind] in E2; [|discriminate]. assert (s3 = s) by congruence. subst s3.
  assert (D0 : s_level s1 0%nat = def).
  { destruct D as [(-> & D)|(a & b & l & -> & Qb & ->)]; [|exact (last_set _ _ _ _ _ _ _ _ E1 Qb)].
    rewrite (run_untouched _ _ _ _ _ 0%nat E1); [reflexivity| | |exact D]; cbn; [tauto|lia]. }
  assert (L1 : s_level s1 1%nat = -1).
  { rewrite (run_untouched _ _ _ _ _ 1%nat E1); [reflexivity| | |exact T]; cbn; [tauto|lia]. }
  assert (L : s_level s 1%nat = level0).
  { rewrite (run_level _ _ _ _ _ 1%nat E3); [|cbn [s_level]; apply init_reg|exact Q]. cbn [s_level]. unfold ulog_init. rewrite L1.
    change (-1 <? 0) with true. cbn [s_level with_levels]. rewrite upd_same. rewrite D0. cbv zeta. unfold level0.
    pose proof (PropsCookies.env_level_spec (ccfg cf) 1 def ltac:(vm_compute; discriminate)) as ES. cbv zeta in ES.
    change (Cookies.c_env (ccfg cf)) with (c_env cf) in ES. change (Cookies.c_name (ccfg cf) 1) with (bytes_of_string "ulog_glib") in ES. rewrite <- ES. clear ES.
    destruct (Cookies.env_level (ccfg cf) 1 <? 0) eqn:N; cbn [andb]; [|now rewrite N].
    destruct (Z.geb_spec def 0), (Z.ltb_spec def 0); try lia; try reflexivity; now rewrite N. }
  assert (R : 0 <= s_level s 1%nat).
  { rewrite (run_level _ _ _ _ _ 1%nat E3); [|cbn [s_level]; apply init_reg|exact Q]. cbn [s_level]. apply init_reg. }
  rewrite <- L. apply glib_msg; [|exact R|exact V]. apply G. apply in_app_iff. right. now left.
Qed.
Print Assumptions C126_glib_initial.

(** Without redirection no message reaches ulog, whatever the levels. *)
Theorem C126_native : forall cf thr h s e, run cf (init thr) h = Ok (s, e) ->
  (~ In GlibRedirect h -> forall d level x, step cf s (GlibMsg d level x) = Ok (s, [Native])) /\
  (~ In GstRedirect h -> forall c level loc obj x, step cf s (GstMsg c level loc obj x) = Ok (s, [Native])) /\
  (~ In ObusRedirect h -> forall level x, step cf s (ObusMsg level x) = Ok (s, [Native])).
Proof.
  intros cf thr h s e H. destruct (redirected _ _ _ _ _ H) as (A & B & C & D & _). split; [|split].
  - intros N d level x. cbn [step]. destruct (s_glib s); [|reflexivity]. exfalso. tauto.
  - intros N c level loc obj x. assert (Z : gst_redirects h = 0%nat).
    { clear - N. induction h as [|o h IH]; [reflexivity|]. cbn [In] in N.
      destruct o; cbn [gst_redirects]; try (apply IH; tauto). exfalso. apply N. now left. }
    rewrite Z in *. cbn [step]. rewrite C, D. reflexivity.
  - intros N level x. cbn [step]. destruct (s_obus s); [|reflexivity]. exfalso. tauto.
Qed.
Print Assumptions C126_native.

(** Messages of libobus. *)
Theorem C126_obus : forall cf thr h1 l h2 s e, run cf (init thr) (h1 ++ Set_ 3 l :: h2) = Ok (s, e) ->
  quiet cf 3 h2 -> In ObusRedirect (h1 ++ h2) ->
  forall level x, 0 <= level <= 5 ->
  step cf s (ObusMsg level x) = Ok (s, if level + 2 <=? within l then [Rec (Log (level + 2) (bytes_of_string "obus") x)] else []).
Proof.
  intros cf thr h1 l h2 s e H Q I level x V. pose proof (last_set _ _ _ _ _ _ _ _ H Q) as L. rewrite <- L.
  destruct (redirected _ _ _ _ _ H) as (_ & A & _). cbn [step].
  replace (s_obus s) with true by (symmetry; apply A; apply in_app_iff in I; apply in_app_iff; cbn [In]; tauto).
  assert (ulog_init cf s 3 = s) as ->.
  { unfold ulog_init. destruct (Z.ltb_spec (s_level s 3%nat) 0); [|reflexivity]. unfold within in L. lia. }
  unfold obus_func. replace (u32 (level - 0 + 2)) with (level + 2) by (unfold u32; rewrite Z.mod_small; lia).
  rewrite log_str_iff by lia. destruct (level + 2 <=? s_level s 3%nat); reflexivity.
Qed.
Print Assumptions C126_obus.

(** Messages of GStreamer, for texts that fit in the buffer (C69): one record for each call of
    ulog_gst_redirect when the message passes the level last given to ulog_gst_set_level and the threshold
    of its category. *)
Theorem C126_gst_partial : forall cf thr h1 l h2 s e, run cf (init thr) (h1 ++ Set_ 2 l :: h2) = Ok (s, e) ->
  quiet cf 2 h2 -> In GstRedirect (h1 ++ h2) -> zlen (c_stack cf) = 2048 ->
  forall c level loc obj x, 1 <= level <= 7 -> zlen loc <= 2048 -> zlen obj <= 2147483647 -> ~ In 0 loc -> ~ In 0 obj -> ~ In 0 x ->
  step cf s (GstMsg c level loc obj x) = Ok (s,
    let prio := nth (Z.to_nat level) [0; 3; 4; 4; 6; 7; 7; 7] 0 in
    if (prio <=? within l) && (level <=? match c_threshold cf c with Some t => t | None => 3 end)
    then copies (gst_redirects (h1 ++ h2)) (Log prio (tag_of c) (ztake 2047 (loc ++ obj ++ [58] ++ x)))
    else []).
Proof.
  intros cf thr h1 l h2 s e H Q I HS c level loc obj x V HL HO Nl No Nx. pose proof (last_set _ _ _ _ _ _ _ _ H Q) as L.
  destruct (redirected _ _ _ _ _ H) as (_ & _ & A & B & C).
  assert (K : forall a b, gst_redirects (a ++ b) = (gst_redirects a + gst_redirects b)%nat).
  { clear. induction a as [|o a IH]; intros b; [reflexivity|]. destruct o; cbn [app gst_redirects]; rewrite ?IH; lia. }
  assert (P : gst_redirects (h1 ++ h2) <> 0%nat).
  { apply in_split in I. destruct I as (a & b & ->). rewrite K. cbn [gst_redirects]. lia. }
  assert (E2 : gst_redirects (h1 ++ Set_ 2 l :: h2) = gst_redirects (h1 ++ h2)) by (rewrite !K; reflexivity).
  rewrite E2 in *. clear E2 K H Q. specialize (C P). set (n := gst_redirects (h1 ++ h2)) in *. clearbody n.
  cbn [step]. rewrite A, B, C. destruct n as [|n]; [congruence|]. cbn [Nat.eqb app]. rewrite L.
  set (t := match c_threshold cf c with Some t => t | None => 3 end).
  assert (U : nth (Z.to_nat level) [0; 3; 4; 4; 6; 7; 7; 7] 0 = gst_level level /\ 3 <= gst_level level <= 7).
  { assert (level = 1 \/ level = 2 \/ level = 3 \/ level = 4 \/ level = 5 \/ level = 6 \/ level = 7) as W by lia.
    destruct W as [->|[->|[->|[->|[->|[->| ->]]]]]]; vm_compute; (split; [reflexivity|split; discriminate]). }
  destruct U as (-> & U). cbv zeta.
  assert (X : gst_log_func (within l) t c (c_stack cf) level loc obj x =
    Ok (if (gst_level level <=? within l) && (level <=? t) then [Log (gst_level level) (tag_of c) (ztake 2047 (loc ++ obj ++ [58] ++ x))] else [])).
  { destruct (Z.leb_spec level t) as [T|T].
    2:{ unfold gst_log_func. destruct (Z.gtb_spec level t); [|lia]. rewrite andb_false_r. reflexivity. }
    rewrite andb_true_r.
    destruct (C69_entry_partial 7 t c (c_stack cf) level loc obj x HS HL HO Nl No Nx (conj (proj1 V) T) ltac:(lia)) as (p & EP).
    unfold gst_log_func in *. destruct (Z.gtb_spec level t); [lia|]. destruct (Z.eqb_spec (gst_level level) (-1)); [lia|].
    cbv zeta in *. change (7 >=? 0) with true in EP. destruct (Z.geb_spec (within l) 0); [|unfold within in *; lia]. cbn [negb andb] in *.
    destruct (gst_format (c_stack cf) loc obj x) as [b|]; cbn [bind] in *; [|discriminate].
    rewrite log_str_iff in * by lia. destruct (Z.leb_spec (gst_level level) 7); [|lia]. injection EP as _ EB. rewrite EB. reflexivity. }
  fold t. rewrite X. cbn [bind]. f_equal. f_equal.
  destruct ((gst_level level <=? within l) && (level <=? t)).
  - change ([58] ++ x) with (58 :: x). unfold copies. generalize (Log (gst_level level) (tag_of c) (ztake 2047 (loc ++ obj ++ 58 :: x))) (S n). clear. intros y m. induction m as [|m IH]; [reflexivity|]. change (Rec y :: gst_calls m [y] = Rec y :: repeat (Rec y) m). now rewrite IH.
  - clear. generalize (S n). intros m. induction m as [|m IH]; [reflexivity|]. cbn [gst_calls map app]. exact IH.
Qed.
Print Assumptions C126_gst_partial.

(** Refuted: each message is recorded once, whatever the number of calls of ulog_gst_redirect; *)
Theorem C126_gst_twice_refuted : exists cf h x, h = [GstRedirect; GstRedirect] /\ exists s e, run cf (init 0) h = Ok (s, e) /\
  step cf s (GstMsg None 1 [97] [98] [99]) = Ok (s, [Rec x; Rec x]).
Proof.
  exists (mkCfg (fun _ => [120]) (fun _ => None) (zrepeat 1 16) (fun _ => None)), [GstRedirect; GstRedirect], (Log 3 (bytes_of_string "APP") [97; 98; 58; 99]).
  split; [reflexivity|]. do 2 eexists. split; vm_compute; reflexivity.
Qed.
Print Assumptions C126_gst_twice_refuted.

(** refuted: ulog_gst_set_level decides what is recorded: at the level DEBUG, messages of information of
    GStreamer are dropped, even when GStreamer itself was asked for them ([thr]: 7); *)
Theorem C126_gst_level_refuted : exists cf h, h = [GstRedirect; Set_ 2 7] /\ exists s e, run cf (init 7) h = Ok (s, e) /\
  s_level s 2%nat = 7 /\ step cf s (GstMsg None 4 [97] [98] [99]) = Ok (s, []).
Proof.
  exists (mkCfg (fun _ => [120]) (fun _ => None) (zrepeat 1 16) (fun _ => None)), [GstRedirect; Set_ 2 7].
  split; [reflexivity|]. do 2 eexists. split; [vm_compute; reflexivity|]. split; vm_compute; reflexivity.
Qed.
Print Assumptions C126_gst_level_refuted.

(** refuted: the domains of GLib are tags like others: the records carry the tag net, but neither the variable
    ULOG_LEVEL_net nor ulog_set_tag_level, which fails, changes what is recorded for it. *)
Theorem C126_domain_refuted : exists cf d, d = bytes_of_string "net" /\
  CookiesSpec.initial_level (c_env cf) d (-1) = 7 /\
  exists s e, run cf (init 0) [GlibRedirect; GlibMsg (Some d) 64 [97]; SetTag d 7; GlibMsg (Some d) 128 [97]] = Ok (s, e) /\
  e = [Rec (Log 6 d [97]); Ret (-1)].
Proof.
  exists (mkCfg (fun _ => [120]) (fun v => if bytes_eqb v (bytes_of_string "ULOG_LEVEL_net") then Some [68] else None) [] (fun _ => None)), (bytes_of_string "net").
  split; [reflexivity|]. split; [vm_compute; reflexivity|]. do 2 eexists. split; vm_compute; reflexivity.
Qed.
Print Assumptions C126_domain_refuted.

(** ** Examples *)

Definition ex_cf : cfg :=
  mkCfg (fun c => [120; Z.of_nat c]) (fun v => if bytes_eqb v (bytes_of_string "ULOG_LEVEL_ulog_glib") then Some [87] else None) (zrepeat 1 2048) (fun _ => None).

Example C126_ex_glib : quiet ex_cf 1 [GlibRedirect; Set_ 3 2] /\ glib_severity 128 7 /\
  run ex_cf (init 0) ([Set_ 1 9] ++ [GlibRedirect; GlibMsg None 128 [97]; GstMsg None 1 [] [] []]) =
  run ex_cf (init 0) [Set_ 1 9; GlibRedirect; GlibMsg None 128 [97]; GstMsg None 1 [] [] []] /\
  exists s, run ex_cf (init 0) [Set_ 1 9; GlibRedirect; GlibMsg None 128 [97]; GstMsg None 1 [] [] []] =
    Ok (s, [Rec (Log 7 (bytes_of_string "APP") [97]); Native]).
Proof.
  split; [intros o [<-|[<-|[]]] [[l E]|[l E]]; discriminate|].
  split; [split; [lia|]; split; [reflexivity|]; intros j Hj; assert (j = 2 \/ j = 3 \/ j = 4 \/ j = 5 \/ j = 6) as W by lia;
    destruct W as [->|[->|[->|[->| ->]]]]; reflexivity|].
  split; [reflexivity|]. eexists. vm_compute. reflexivity.
Qed.

Example C126_ex_name : alone (mkCfg (fun _ => []) (fun _ => None) [] (fun _ => None)) 1.
Proof. intros d H. rewrite !title_name in H. destruct d as [|[|[|[|d]]]]; try reflexivity; discriminate. Qed.

Example C126_ex_initial : CookiesSpec.initial_level (c_env ex_cf) (bytes_of_string "ulog_glib") (-1) = 4 /\
  (forall o, In o [Set_ 0 3; ObusRedirect] -> ~ touches 1 o) /\
  exists s, run ex_cf (init 0) [GlibRedirect; GlibMsg None 16 [97]; GlibMsg None 64 [97]] = Ok (s, [Rec (Log 4 (bytes_of_string "APP") [97])]).
Proof.
  split; [reflexivity|]. split.
  - intros o [<-|[<-|[]]] [E|[[l E]|[[_ E]|[[E _]|[E _]]]]]; discriminate.
  - eexists. vm_compute. reflexivity.
Qed.

Example C126_ex_obus : exists s, run ex_cf (init 0) [ObusRedirect; ObusMsg 4 [97]; ObusMsg 5 [98]; Set_ 3 7; ObusMsg 5 [99]] =
  Ok (s, [Rec (Log 6 (bytes_of_string "obus") [97]); Rec (Log 7 (bytes_of_string "obus") [99])]).
Proof. eexists. vm_compute. reflexivity. Qed.

Example C126_ex_gst : zlen (c_stack ex_cf) = 2048 /\ quiet ex_cf 2 [GstRedirect] /\
  exists s e, run ex_cf (init 0) ([] ++ Set_ 2 4 :: [GstRedirect]) = Ok (s, e) /\ ~ In 0 (bytes_of_string "a.c:1:f").
Proof.
  split; [reflexivity|]. split; [intros o [<-|[]] [[l E]|[l E]]; discriminate|]. do 2 eexists. split; [vm_compute; reflexivity|].
  cbn. intuition discriminate.
Qed.
