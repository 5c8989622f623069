(** C128: what the kernel says is what a viewer of the kmsgd device shows. *)
From Coq Require Import ZArith String List Bool Sorted Lia ZifyBool ZifyNat Arith.
From Verif Require Import Bytes BytesProofs Ring RingSpec RingRefine Parse ParseSpec Klog KlogSpec PropsKlog Kmsgd KmsgdSpec KmsgdProofs PropsKmsgd
  Render Cat Live LiveSpec PropsLive SaidSpec PropsSaid KmsgdShow KmsgdShowSpec.
Import ListNotations.
Open Scope Z_scope.

(** ** Lines of a stream *)

Lemma seg x y : forall a l b, x ++ 10 :: y = a ++ l ++ b -> ~ In 10 l ->
  (exists a', a = x ++ 10 :: a' /\ y = a' ++ l ++ b) \/ zlen l <= zlen x.
Proof.
  induction x as [|c x IH]; intros a l b E N; cbn [app] in E.
  - destruct a as [|c a]; cbn [app] in E.
    + right. destruct l as [|c l]; [change (zlen (@nil Z)) with 0; lia|]. cbn in E. injection E as <- _. exfalso. apply N. now left.
    + left. injection E as <- E. exists a. auto.
  - destruct a as [|d a]; cbn [app] in E.
    + right. destruct l as [|d l]; [pose proof (zlen_nonneg (c :: x)); change (zlen (@nil Z)) with 0; lia|]. cbn in E. injection E as _ E.
      destruct (IH [] l b E) as [(a' & X & _)|L]; [intro H; apply N; now right| |rewrite !zlen_cons; lia].
      destruct x; discriminate.
    + injection E as <- E. destruct (IH a l b E N) as [(a' & -> & Y)|L]; [left; exists a'; auto|right; rewrite zlen_cons; lia].
Qed.
Lemma below n ls r : 0 < n -> Forall (fun l => zlen l < n) ls -> zlen r < n -> lines_below n (with_lf ls ++ r).
Proof.
  intros Hn F R. unfold lines_below. induction F as [|x ls Fx F IH]; intros a l b E N; unfold with_lf in *; cbn [map concat app] in E.
  - subst r. rewrite !zlen_app in R. pose proof (zlen_nonneg a). pose proof (zlen_nonneg b). lia.
  - rewrite <- !app_assoc in E. cbn [app] in E. destruct (seg _ _ _ _ _ E N) as [(a' & -> & Y)|L]; [exact (IH _ _ _ Y N)|lia].
Qed.
Lemma lf_split x y : forall x' y', x ++ 10 :: y = x' ++ 10 :: y' -> ~ In 10 x -> ~ In 10 x' -> x = x' /\ y = y'.
Proof.
  induction x as [|c x IH]; intros x' y' E N N'; destruct x' as [|d x']; cbn [app] in E.
  - injection E as E. auto.
  - injection E as E _. subst d. exfalso. apply N'. now left.
  - injection E as E _. subst c. exfalso. apply N. now left.
  - injection E as E1 E2. subst d. destruct (IH x' y' E2) as [-> ->]; auto; intro H; [apply N|apply N']; now right.
Qed.
Lemma lines_unique ls : forall ls' r t r', with_lf ls ++ r ++ t = with_lf ls' ++ r' ->
  Forall (fun l => ~ In 10 l) ls -> Forall (fun l => ~ In 10 l) ls' -> ~ In 10 r -> ~ In 10 r' ->
  exists todo, ls' = ls ++ todo /\ (t = [] -> todo = []).
Proof.
  induction ls as [|l ls IH]; intros ls' r t r' E F F' R R'; unfold with_lf in *; cbn [map concat app] in E.
  - exists ls'. split; [reflexivity|]. intros ->. rewrite app_nil_r in E. destruct ls' as [|l' ls']; [reflexivity|]. exfalso. apply R. rewrite E.
    cbn [map concat]. rewrite !in_app_iff. left. left. right. now left.
  - destruct ls' as [|l' ls']; cbn [map concat app] in E.
    + exfalso. apply R'. rewrite <- E, !in_app_iff. left. left. right. now left.
    + rewrite <- !app_assoc in E. cbn [app] in E. apply lf_split in E; [|exact (Forall_inv F)|exact (Forall_inv F')]. destruct E as [-> E].
      destruct (IH ls' r t r' E (Forall_inv_tail F) (Forall_inv_tail F') R R') as (todo & -> & T). exists todo. auto.
Qed.

(** ** One message *)

Lemma kbytes_nul m c : well_formed m -> c = 0 \/ c = 10 -> ~ In c (kbytes m).
Proof.
  intros (W & N0 & N1 & _) C. assert (D : forall ds, digits ds -> ~ In c ds).
  { intros ds (_ & F) H. rewrite Forall_forall in F. specialize (F c H). lia. }
  assert (T : ~ In c (ktext m)) by (destruct C as [-> | ->]; assumption). clear N0 N1.
  destruct m as [pr sp sec usec text|pr text]; cbn [kbytes ktext] in *.
  - destruct W as (W1 & W2 & W3 & W4 & _). unfold kprefix, ktime. rewrite !in_app_iff. pose proof (D _ W1). pose proof (D _ W3). pose proof (D _ W4).
    assert (~ In c sp) by (intro H2; rewrite Forall_forall in W2; specialize (W2 c H2); lia). cbn [In]. intuition lia.
  - destruct W as (W1 & _). unfold kprefix. rewrite !in_app_iff. pose proof (D _ W1). cbn [In]. intuition lia.
Qed.

Definition fixed_to (W : Z) (u u' : uentry) : Prop := forall junk, ulog_parse_kmsgd_entry W junk u = Ok u'.
Lemma fix_kernel W m sec nsec prio pid pn tid tn tag col : W = 32 \/ W = 64 -> well_formed m ->
  fixed_to W (mkU sec nsec prio pid pn tid tn tag (kbytes m) false col) (kshown m).
Proof.
  intros HW (H & N0 & _ & _) junk. assert (P : 2 ^ 32 <= 2 ^ W) by (destruct HW as [-> | ->]; lia).
  unfold ulog_parse_kmsgd_entry. cbn [u_bin u_msg u_prio u_sec u_nsec]. cbv zeta.
  destruct m as [pr sp s us text|pr text]; cbn [kbytes ktext] in *.
  - destruct H as (H1 & H2 & H3 & H4 & H5 & H6 & H7).
    rewrite (C50_line W (mkK prio sec nsec ((kprefix pr ++ ktime sp s us ++ text) ++ 0 :: junk) (zlen (kprefix pr ++ ktime sp s us ++ text) + 1)) pr sp s us text junk HW H1 H2 H3 H4 ltac:(lia) ltac:(destruct HW as [-> | ->]; lia) H7 eq_refl eq_refl). cbn [bind k_msg k_sec k_nsec k_prio].
    rewrite str_at_ok by exact N0. reflexivity.
  - destruct H as (H1 & H2 & H3 & H4).
    rewrite (C50_untimed W _ pr text junk HW H1 ltac:(lia) H3 H4); [|cbn [k_msg]; now rewrite <- app_assoc|reflexivity]. cbn [bind k_msg k_sec k_nsec k_prio].
    rewrite str_at_ok by exact N0. reflexivity.
Qed.
Lemma fix_plain W sec nsec prio pid pn tid tn tag c r col : c <> 60 -> c <> 91 -> ~ In 0 (c :: r) ->
  fixed_to W (mkU sec nsec prio pid pn tid tn tag (c :: r) false col) (kernel_entry 0 0 prio (c :: r)).
Proof.
  intros H1 H2 N junk. unfold ulog_parse_kmsgd_entry. cbn [u_bin u_msg u_prio u_sec u_nsec]. cbv zeta.
  rewrite (C50_plain W _ c (r ++ 0 :: junk)) by (auto; reflexivity). cbn [bind k_msg k_sec k_nsec k_prio].
  rewrite str_at_ok by exact N. reflexivity.
Qed.

(** ** The whole way *)

(** The daemon runs as [t] and logs its outputs at these times. *)
Definition logged (t : task) (o : Kmsgd.out) (m : said) : Prop := exists sec nsec, m = relay_said t sec nsec o.

Lemma shown_line W t l m k : W = 32 \/ W = 64 -> logged t (Line l) m -> l = kbytes k -> well_formed k -> fixed_to W (shown m) (kshown k).
Proof.
  intros HW (sec & nsec & ->) -> WF. unfold shown, fitting. cbn [relay_said s_task s_sec s_nsec s_prio s_tag s_msg].
  change (binary_of ULOG_INFO) with false. cbv iota. change (zlen (bytes_of_string "kmsgd")) with 5. cbv zeta.
  pose proof (RingRefine.zlen_names t). rewrite ztake_all by (destruct WF as (_ & _ & _ & L); lia). apply fix_kernel; auto.
Qed.
Lemma evt_head id : exists r, ztake 255 (evt_text id) = 69 :: r.
Proof.
  unfold evt_text. change (bytes_of_string "EVT:KANOMALY;type='kernel';id='") with (69 :: bytes_of_string "VT:KANOMALY;type='kernel';id='").
  cbn [app]. eexists. reflexivity.
Qed.
Lemma in_ztake (x : Z) n l : In x (ztake n l) -> In x l.
Proof. intros H. rewrite <- (ztake_zdrop n l). apply in_or_app. now left. Qed.
Lemma evt_nul id : ~ In 0 id -> ~ In 0 (ztake 255 (evt_text id)).
Proof.
  intros N H. apply in_ztake in H. unfold evt_text in H. rewrite !in_app_iff in H. destruct H as [H|[H|H]]; [|exact (N H)|].
  - vm_compute in H. intuition discriminate.
  - cbn in H. intuition discriminate.
Qed.
Lemma shown_evt W t id m : ~ In 0 id -> logged t (Evt id) m -> fixed_to W (shown m) (kanomaly id).
Proof.
  intros N (sec & nsec & ->). unfold shown, fitting. cbn [relay_said s_task s_sec s_nsec s_prio s_tag s_msg].
  change (binary_of 5) with false. cbv iota. change (zlen (bytes_of_string "kernel_evt")) with 10. cbv zeta. pose proof (evt_nul id N) as N2.
  pose proof (RingRefine.zlen_names t). rewrite ztake_all by (rewrite zlen_ztake; lia). change (level_of 5) with 5. unfold kanomaly.
  change (ztake 255 (bytes_of_string "EVT:KANOMALY;type='kernel';id='" ++ id ++ bytes_of_string "'")) with (ztake 255 (evt_text id)).
  destruct (evt_head id) as (r & E). rewrite E in *. apply fix_plain; [lia|lia|exact N2].
Qed.

Lemma display_of W t ms : W = 32 \/ W = 64 -> Forall well_formed ms -> forall o l, relayed (map kbytes ms) o -> Forall2 (logged t) o l ->
  exists full, kdisplay ms full /\ Forall2 (fixed_to W) (map shown l) full.
Proof.
  intros HW WF. induction WF as [|k ms Wk WF IH]; intros o l R F; cbn [map] in R; inversion R as [|x ids ls o' A R']; subst.
  - inversion F; subst. exists []. split; [constructor|]. constructor.
  - inversion F as [|? m ? l' L F']; subst. apply Forall2_app_inv_l in F'. destruct F' as (le & lr & Fe & Fr & ->).
    destruct (IH _ _ R' Fr) as (full & D & G). exists (kshown k :: map kanomaly ids ++ full). split; [now constructor|].
    cbn [map]. constructor; [exact (shown_line W t _ m k HW L eq_refl Wk)|]. rewrite map_app. apply Forall2_app; [|exact G].
    assert (N : Forall (fun id => ~ In 0 id) ids).
    { pose proof (kbytes_nul k 0 Wk (or_introl eq_refl)) as N. destruct ids as [|id [|? ?]]; [constructor| |exfalso; exact A].
      constructor; [|constructor]. destruct A as (a & b & E & _). intro H. apply N. rewrite E, !in_app_iff. tauto. }
    clear - N Fe. revert le Fe. induction N as [|id ids Ni N IH]; intros le Fe; cbn [map] in Fe; inversion Fe; subst; cbn [map]; constructor.
    + eapply shown_evt; eauto.
    + now apply IH.
Qed.

Lemma notice_of W nm n m u : 0 < n < 2 ^ 31 -> warning nm n m u -> exists w, fixed_to W u w /\ knotice n w.
Proof.
  intros Hn (text & -> & H). destruct (H ltac:(lia)) as (ds & -> & F & V & _). clear H.
  destruct ds as [|d ds]; [cbn in V; lia|].
  exists (kernel_entry 0 0 4 ((d :: ds) ++ bytes_of_string " log entries dropped" ++ [10])). split.
  - pose proof (Forall_inv F) as Hd. cbv beta in Hd. cbn [app]. apply fix_plain; [lia|lia|]. intro H.
    change (d :: ds ++ bytes_of_string " log entries dropped" ++ [10]) with ((d :: ds) ++ bytes_of_string " log entries dropped" ++ [10]) in H.
    rewrite !in_app_iff in H. destruct H as [H|[H|H]].
    + rewrite Forall_forall in F. specialize (F 0 H). lia.
    + vm_compute in H. intuition discriminate.
    + cbn in H. intuition discriminate.
  - exists (d :: ds). split; [reflexivity|]. split; [split; [discriminate|exact F]|exact V].
Qed.

Theorem C128_kernel_end_to_end : forall W ms r avail s rest o t csv uid gs ls k g l,
  W = 32 \/ W = 64 -> Forall well_formed ms -> ~ In 0 r -> ~ In 10 r -> zlen r <= 4000 ->
  (* kmsgd reads the kernel log in pieces of any sizes *)
  krun 16384 (kinit 16384) (with_lf (map kbytes ms) ++ r) avail = Ok (s, rest, o) ->
  (* and is alone to log to the kmsgd device *)
  Forall2 (logged t) o l -> nth_error gs k = Some g -> nth_error ls k = Some l -> g_all g = true -> zlen l < 2 ^ 31 ->
  Forall (started uid) gs -> Forall2 was_told gs ls -> Forall (fun g => c_string (g_nm g)) gs -> Forall in_time ls ->
  exists done todo full us q, ms = done ++ todo /\ (rest = [] -> todo = []) /\ kdisplay done full /\ latest full us /\
    (exists enough, forall fuel, (enough <= fuel)%nat ->
      exists ns' c', process_logs fuel (live_env csv uid) true 0 (map g_node gs) (open_ctx 0 (map g_mark gs)) 0 = Ok (Some (ns', c', 0)) /\
        entries (c_out c') = q) /\
    Forall2 (fixed_to W) (map snd (filter (fun x => Nat.eqb (fst x) k) q)) us.
Proof.
  intros W ms r avail s rest o t csv uid gs ls k g l HW WF R0 R10 RL K FL Eg El HA HC HS HT HN HI.
  assert (B : 0 < 16384 - 1) by lia.
  destruct (C99_events_partial 16384 (with_lf (map kbytes ms) ++ r) avail ltac:(lia)) as (s' & rest' & o' & r' & xs & K' & E & F10 & N10 & RL').
  { rewrite in_app_iff. intros [H|H]; [|exact (R0 H)]. unfold with_lf in H. apply in_concat in H. destruct H as (x & H1 & H2).
    apply in_map_iff in H1. destruct H1 as (y & <- & H1). apply in_map_iff in H1. destruct H1 as (m & <- & Hm).
    rewrite Forall_forall in WF. apply in_app_iff in H2. destruct H2 as [H2|H2]; [|cbn in H2; intuition discriminate].
    exact (kbytes_nul m 0 (WF m Hm) (or_introl eq_refl) H2). }
  { apply below; [exact B| |lia]. rewrite Forall_forall in *. intros x Hx. apply in_map_iff in Hx. destruct Hx as (m & <- & Hm).
    destruct (WF m Hm) as (_ & _ & _ & L). lia. }
  assert (s' = s /\ rest' = rest /\ o' = o) as (-> & -> & ->) by (rewrite K in K'; injection K'; auto).
  assert (FM : Forall (fun x => ~ In 10 x) (map kbytes ms)).
  { rewrite Forall_forall in *. intros x Hx. apply in_map_iff in Hx. destruct Hx as (m & <- & Hm). exact (kbytes_nul m 10 (WF m Hm) (or_intror eq_refl)). }
  destruct (lines_unique xs (map kbytes ms) r' rest r (eq_sym E) F10 FM N10 R10) as (td & Em & Htd).
  apply map_eq_app in Em. destruct Em as (done & todo & -> & <- & <-).
  apply Forall_app in WF. destruct WF as [WF _].
  destruct (display_of W t done HW WF o l RL' FL) as (full & D & FX).
  destruct (C105_end_to_end csv uid gs ls HS HT HN HI) as (us & RM & q & ME & P).
  assert (RK : exists u, nth_error us k = Some u /\ remembers uid g l u).
  { clear - RM Eg El HT. revert k us Eg El RM. induction HT as [|g' l' gs ls H HT IH]; intros k us Eg El RM; [destruct k; discriminate|].
    cbn [combine] in RM. inversion RM as [|? u ? us' R1 R2]; subst. destruct k as [|k]; cbn [nth_error] in *.
    - injection Eg as ->. injection El as ->. exists u. auto.
    - exact (IH k us' Eg El R2). }
  destruct RK as (u & Eu & RK). pose proof (me_devs _ _ _ ME k) as MK. rewrite (nth_error_nth us k [] Eu) in MK.
  destruct RK as (lost & kept & -> & _ & RK). rewrite HA in RK. cbv zeta in RK.
  rewrite map_app in FX. apply Forall2_app_inv_l in FX. destruct FX as (fl & fk & F1 & F2 & ->).
  assert (NB : Forall (fun m => u_bin (shown m) = false) (lost ++ kept)).
  { clear - FL. induction FL as [|x m o l H FL IH]; constructor; auto. destruct H as (a & b & ->). destruct x; reflexivity. }
  apply Forall_app in NB. destruct NB as [_ NB].
  assert (WK : filter (wanted csv) (map shown kept) = map shown kept).
  { clear - NB. induction NB as [|m kept H NB IH]; cbn [map filter]; [reflexivity|]. unfold wanted at 1. rewrite H. cbn [negb]. rewrite orb_true_r. now f_equal. }
  assert (L1 : length fl = length lost) by (clear - F1; revert fl F1; induction lost as [|a lost IH]; intros fl F1; cbn [map] in F1; inversion F1; subst; cbn [length]; [reflexivity|f_equal; auto]).
  assert (G : exists v, latest (fl ++ fk) v /\ Forall2 (fixed_to W) (filter (wanted csv) u) v).
  { destruct kept as [|m kept].
    - subst u. cbn [map] in F2. inversion F2; subst. exists []. split; [|constructor]. exists fl, []. repeat split; auto; congruence.
    - assert (NF : fk <> []) by (cbn [map] in F2; inversion F2; discriminate).
      destruct RK as [(-> & ->)|(NL & w & Hw & ->)].
      + exists fk. rewrite WK. split; [|exact F2]. exists fl, fk. cbn in L1. destruct fl; [|discriminate]. repeat split; auto; congruence.
      + destruct (notice_of W (g_nm g) (zlen lost) m w) as (w' & Fw & Kw); [|exact Hw|].
        { rewrite zlen_app in HC. pose proof (zlen_nonneg (m :: kept)). assert (0 < zlen lost) by (destruct lost as [|x lost]; [congruence|rewrite zlen_cons; pose proof (zlen_nonneg lost); lia]). lia. }
        exists (w' :: fk). split.
        * exists fl, fk. repeat split; [congruence|intros _ ->; destruct lost; [congruence|discriminate]|].
          intros _ _. exists w'. split; [|reflexivity]. unfold zlen in *. now rewrite L1.
        * cbn [filter]. replace (wanted csv w) with true by (destruct Hw as (tx & -> & _); destruct csv; reflexivity).
          constructor; [exact Fw|]. rewrite WK. exact F2. }
  destruct G as (v & G1 & G2). exists done, todo, (fl ++ fk), v, q. split; [reflexivity|].
  split; [intros ->; destruct todo; [reflexivity|discriminate (Htd eq_refl)]|]. split; [exact D|]. split; [exact G1|]. split.
  - exists (S (2 * count us)). intros fuel Hf. destruct (P fuel ltac:(lia) 0 ltac:(lia)) as (ns & c & P1 & P2). exists ns, c. auto.
  - rewrite MK. exact G2.
Qed.

(** Two kernel lines, one without a time, read byte by byte and logged to the device ulog_kmsgd. *)
Definition ex_k1 : kmessage := Timed (bytes_of_string "14") (bytes_of_string "   ") (bytes_of_string "12") (bytes_of_string "345678") (bytes_of_string "usb 1-1: new device").
Definition ex_k2 : kmessage := Untimed (bytes_of_string "3") (bytes_of_string "oops").
Definition ex_t : task := mkTask 7 7 (bytes_of_string "kmsgd") (bytes_of_string "kmsgd") 0.
Definition ex_s1 : said := relay_said ex_t 20 5 (Line (kbytes ex_k1)).
Definition ex_s2 : said := relay_said ex_t 20 9 (Line (kbytes ex_k2)).
Definition ex_kops : list op := [OpOpen 1 false true false false; say 1 ex_s1; say 1 ex_s2].
Lemma ex_krun : outs_of "ulog_kmsgd" ex_kops = Some [OutVal 0; OutVal 49; OutVal 18].
Proof. vm_compute. reflexivity. Qed.
Lemma ex_ktold : told ex_kops [OutVal 0; OutVal 49; OutVal 18] [ex_s1; ex_s2].
Proof.
  assert (S : forall m, In m [ex_s1; ex_s2] -> sayable m).
  { intros m [<-|[<-|[]]]; unfold sayable, c_string, uint32, int32; cbn; repeat split; try lia; try discriminate; intuition discriminate. }
  apply (td_msg [_; _] [_; _] [ex_s1]); [|apply S; cbn; auto]. apply (td_msg [_] [_] []); [|apply S; cbn; auto].
  apply (td_quiet [] []); [constructor|exact Logic.I].
Qed.
Definition ex_kg : log := ex_log "ulog_kmsgd" ex_kops.
Lemma ex_kg_ok : started 0 ex_kg /\ was_told ex_kg [ex_s1; ex_s2] /\ g_nm ex_kg = bytes_of_string "ulog_kmsgd".
Proof. apply (ex_told _ _ _ _ ex_krun); [vm_compute; discriminate|repeat constructor|exact ex_ktold]. Qed.
Lemma ex_all : g_all ex_kg = true.
Proof. unfold ex_kg, ex_log. destruct (run _ _) as [[d x]|]; [|reflexivity]. destruct (add_ulog_device _ _ _ _) as [[[n m]|]|]; reflexivity. Qed.
Lemma relayed_plain ls : Forall (fun l => strstr l mark = None) ls -> forall o, relayed ls o -> o = map Line ls.
Proof.
  induction 1 as [|l ls H F IH]; intros o R; inversion R as [|x ids ls' o' A R']; subst; [reflexivity|].
  destruct ids as [|id [|? ?]]; [cbn [map app]; f_equal; auto|exfalso|exfalso; exact A].
  destruct A as (a & b & E & _). exact (strstr_none _ _ H _ _ E).
Qed.
Example C128_ex : Forall well_formed [ex_k1; ex_k2] /\
  (exists avail s, krun 16384 (kinit 16384) (with_lf (map kbytes [ex_k1; ex_k2]) ++ []) avail = Ok (s, [], map Line (map kbytes [ex_k1; ex_k2]))) /\
  Forall2 (logged ex_t) (map Line (map kbytes [ex_k1; ex_k2])) [ex_s1; ex_s2] /\
  Forall (started 0) [ex_kg] /\ Forall2 was_told [ex_kg] [[ex_s1; ex_s2]] /\ g_all ex_kg = true /\
  Forall (fun g => c_string (g_nm g)) [ex_kg] /\ Forall in_time [[ex_s1; ex_s2]].
Proof.
  assert (WF : Forall well_formed [ex_k1; ex_k2]).
  { repeat apply Forall_cons; try apply Forall_nil; unfold well_formed, digits; cbn; repeat split; try lia; try discriminate;
      try (repeat apply Forall_cons; try apply Forall_nil; lia); intuition discriminate. }
  split; [exact WF|]. split; [|split; [|split]].
  - set (st := with_lf (map kbytes [ex_k1; ex_k2]) ++ []). assert (N0 : ~ In 0 st) by (vm_compute; intuition discriminate).
    assert (LB : lines_below (16384 - 1) st) by (apply below; [lia| |reflexivity]; repeat apply Forall_cons; try apply Forall_nil; reflexivity).
    exists (zrepeat 1 (zlen st)).
    destruct (C99_events_partial 16384 st (zrepeat 1 (zlen st)) ltac:(lia) N0 LB) as (s & rest & o & r & ls & K & E & F & N & R).
    destruct (C52_lines_partial 16384 st (zrepeat 1 (zlen st)) ltac:(lia) N0 LB) as (s' & rest' & o' & r' & K' & _ & _ & _ & G).
    assert (rest' = rest) as -> by (rewrite K in K'; injection K'; auto).
    assert (rest = []) as ->.
    { assert (L : zlen rest <= 0).
      { eapply Z.le_trans; [apply G; rewrite Forall_forall; intros x Hx; unfold zrepeat in Hx; apply repeat_spec in Hx; lia|].
        rewrite zlen_zrepeat by apply zlen_nonneg. lia. }
      destruct rest as [|x rest]; [reflexivity|]. rewrite zlen_cons in L. pose proof (zlen_nonneg rest). lia. }
    exists s. rewrite K. do 2 f_equal. rewrite <- (relayed_plain (map kbytes [ex_k1; ex_k2])) with (o := o); [reflexivity| |].
    + repeat apply Forall_cons; try apply Forall_nil; reflexivity.
    + destruct (lines_unique ls (map kbytes [ex_k1; ex_k2]) r [] [] (eq_sym E) F) as (todo & E2 & T); auto.
      * repeat apply Forall_cons; try apply Forall_nil; vm_compute; intuition discriminate.
      * rewrite (T eq_refl), app_nil_r in E2. now rewrite E2.
  - repeat apply Forall2_cons; try apply Forall2_nil; [exists 20, 5|exists 20, 9]; reflexivity.
  - apply Forall_cons; [exact (proj1 ex_kg_ok)|apply Forall_nil].
  - destruct ex_kg_ok as (_ & T & N). pose proof ex_all as A. assert (C : c_string (g_nm ex_kg)) by (rewrite N; vm_compute; intuition discriminate).
    clear N. revert T A C. generalize ex_kg. intros g T A C.
    split; [apply Forall2_cons; [exact T|apply Forall2_nil]|]. split; [exact A|]. split; [apply Forall_cons; [exact C|apply Forall_nil]|].
    apply Forall_cons; [|apply Forall_nil]. split; repeat apply SSorted_cons; repeat apply Forall_cons;
      try apply Forall_nil; try apply SSorted_nil; try split; vm_compute; discriminate.
Qed.
Print Assumptions C128_kernel_end_to_end.

(** C99 as stated: a mark whose identifier is not followed by a space raises no event; nor does the second mark of a
    line. *)
Lemma whole N ls avail : 2 <= N -> Forall (fun l => ~ In 0 l /\ ~ In 10 l /\ zlen l < N - 1) ls -> Forall (fun n => 0 < n) avail -> zlen (with_lf ls) <= zlen avail ->
  exists s o, krun N (kinit N) (with_lf ls) avail = Ok (s, [], o) /\ relayed ls o.
Proof.
  intros HN F HA HL. assert (N0 : ~ In 0 (with_lf ls)).
  { unfold with_lf. intro H. apply in_concat in H. destruct H as (x & H1 & H2). apply in_map_iff in H1. destruct H1 as (l & <- & Hl).
    rewrite Forall_forall in F. apply in_app_iff in H2. destruct H2 as [H2|H2]; [exact (proj1 (F l Hl) H2)|cbn in H2; intuition discriminate]. }
  assert (LB : lines_below (N - 1) (with_lf ls)).
  { rewrite <- (app_nil_r (with_lf ls)). apply below; [lia| |change (zlen (@nil Z)) with 0; lia]. eapply Forall_impl; [|exact F]. cbv beta. tauto. }
  destruct (C99_events_partial N (with_lf ls) avail HN N0 LB) as (s & rest & o & r & xs & K & E & F10 & N10 & R).
  destruct (C52_lines_partial N (with_lf ls) avail HN N0 LB) as (s' & rest' & o' & r' & K' & _ & _ & _ & G).
  assert (rest' = rest) as -> by (rewrite K in K'; injection K'; auto).
  assert (rest = []) as ->.
  { specialize (G HA). destruct rest as [|x rest]; [reflexivity|]. rewrite zlen_cons in G. pose proof (zlen_nonneg rest). lia. }
  exists s, o. split; [exact K|].
  destruct (lines_unique xs ls r [] [] ltac:(rewrite (app_nil_r (with_lf ls)); exact (eq_sym E)) F10) as (todo & E2 & T); auto.
  { eapply Forall_impl; [|exact F]. cbv beta. tauto. }
  rewrite (T eq_refl), app_nil_r in E2. now rewrite E2.
Qed.
Theorem C99_unended_refuted : exists l id, l = mark ++ id /\ ~ In 32 id /\ id <> [] /\
  forall avail, Forall (fun n => 0 < n) avail -> zlen (with_lf [l]) <= zlen avail ->
    exists s, krun 16384 (kinit 16384) (with_lf [l]) avail = Ok (s, [], [Line l]).
Proof.
  exists (mark ++ [48; 99; 49]), [48; 99; 49]. split; [reflexivity|]. split; [cbn; intuition discriminate|]. split; [discriminate|].
  intros avail HA HL. destruct (whole 16384 [mark ++ [48; 99; 49]] avail) as (s & o & K & R); auto; [lia| |].
  { constructor; [|constructor]. split; [vm_compute; intuition discriminate|]. split; [vm_compute; intuition discriminate|reflexivity]. }
  exists s. rewrite K. do 2 f_equal. inversion R as [|x ids ls o' A R']; subst. inversion R'; subst.
  destruct ids as [|id [|? ?]]; [reflexivity| |exfalso; exact A]. exfalso. destruct A as (a & b & E & N & M).
  assert (a = []) as ->.
  { pose proof (M [] [48; 99; 49] eq_refl) as X. change (zlen (@nil Z)) with 0 in X. destruct a as [|y a]; [reflexivity|]. rewrite zlen_cons in X. pose proof (zlen_nonneg a). lia. }
  change (mark ++ [48; 99; 49] = mark ++ id ++ 32 :: b) in E. apply app_inv_head in E. assert (I : In 32 [48; 99; 49]) by (rewrite E; apply in_elt). cbn in I. intuition discriminate.
Qed.
Theorem C99_second_refuted : exists l1 l2, l1 = mark ++ [49; 32] /\ l2 = mark ++ [50; 32] /\
  forall avail, Forall (fun n => 0 < n) avail -> zlen (with_lf [l1 ++ l2]) <= zlen avail ->
    exists s, krun 16384 (kinit 16384) (with_lf [l1 ++ l2]) avail = Ok (s, [], [Line (l1 ++ l2); Evt [49]]).
Proof.
  do 2 eexists. split; [reflexivity|]. split; [reflexivity|]. intros avail HA HL. set (l := (mark ++ [49; 32]) ++ mark ++ [50; 32]) in *.
  destruct (whole 16384 [l] avail) as (s & o & K & R); auto; [lia| |].
  { constructor; [|constructor]. split; [vm_compute; intuition discriminate|]. split; [vm_compute; intuition discriminate|reflexivity]. }
  exists s. rewrite K. do 2 f_equal. inversion R as [|x ids ls o' A R']; subst. inversion R'; subst.
  destruct ids as [|id [|? ?]]; [exfalso| |exfalso; exact A].
  - apply (A [49]). exists [], (mark ++ [50; 32]). split; [reflexivity|]. split; [cbn; intuition discriminate|]. intros. apply zlen_nonneg.
  - destruct A as (a & b & E & N & M).
    assert (a = []) as ->.
    { pose proof (M [] ([49; 32] ++ mark ++ [50; 32]) ltac:(unfold l; now rewrite <- app_assoc)) as X. change (zlen (@nil Z)) with 0 in X. destruct a as [|y a]; [reflexivity|]. rewrite zlen_cons in X. pose proof (zlen_nonneg a). lia. }
    unfold l in E. rewrite <- app_assoc in E. change (mark ++ [49; 32] ++ mark ++ [50; 32] = mark ++ id ++ 32 :: b) in E. apply app_inv_head in E. cbn [map app].
    assert (id = [49]) as ->.
    { destruct id as [|i [|j id]]; cbn [app] in E; injection E as E; subst; auto; [discriminate|]. exfalso. apply N. right. left. congruence. }
    reflexivity.
Qed.
Print Assumptions C99_unended_refuted.
Print Assumptions C99_second_refuted.
