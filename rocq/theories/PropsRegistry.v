(** The table of log devices: properties C17 and C64. *)
From Coq Require Import ZArith String List Bool Lia ZifyBool ZifyNat Arith Permutation.
From Verif Require Import Bytes BytesProofs Registry.
Import ListNotations.
Open Scope Z_scope.

(** ** Specification *)

(** Lower-case letters: a to z, and those of the upper half of Latin-1. *)
Definition lower (c : Z) : Prop := 97 <= c <= 122 \/ 223 <= c <= 246 \/ 248 <= c <= 255.
Definition valid_name (n : list Z) : Prop :=
  exists l, n = bytes_of_string "ulog_" ++ l /\ zlen l <= 10 /\ Forall lower l.
(** 16 kB to 16 MB, powers of two. *)
Definition valid_size (z : Z) : Prop := exists k, z = 2 ^ k /\ 16384 <= z <= 16777216.

(** The devices of the table, in order. *)
Fixpoint devs (logs : list (option dev)) : list dev :=
  match logs with [] => [] | Some d :: r => d :: devs r | None :: r => devs r end.
Definition line (d : dev) : list Z := d_name d ++ [32] ++ dec_u (Z.log2 (d_size d)) ++ [10].
(** Reachable tables, with the results of all the additions. *)
Definition reaches (pow2 : Z) (l : list (list Z * Z * answer)) (s : reg) (rets : list Z) : Prop :=
  exists s0, ulogger_init pow2 = Some s0 /\ run s0 l = Ok (s, rets).

(** ** Lemmas *)
Definition table (ds : list dev) (n : nat) : list (option dev) := map Some ds ++ repeat None n.
Lemma devs_table : forall ds n, devs (table ds n) = ds.
Proof.
  intros ds n. unfold table. induction ds as [|d ds IH]; cbn; [induction n; [reflexivity|exact IHn]|rewrite IH; reflexivity].
Qed.
Lemma bytes_eqb_true : forall a b, bytes_eqb a b = true <-> a = b.
Proof. exact bytes_eqb_eq. Qed.

Lemma find_slot_spec : forall ds n d ok, 
  find_slot (table ds n) d ok =
    if existsb (fun d' => bytes_eqb (d_name d') (d_name d)) ds then None
    else match n with O => None | S n => if ok then Some (table (ds ++ [d]) n) else None end.
Proof.
  intros ds n d ok. unfold table. induction ds as [|d' ds IH]; cbn [map app existsb find_slot].
  - destruct n; [reflexivity|]. cbn. destruct ok; reflexivity.
  - destruct (bytes_eqb (d_name d') (d_name d)); [reflexivity|]. cbn [orb]. rewrite IH. destruct (existsb _ ds); [reflexivity|].
    destruct n; [reflexivity|]. destruct ok; reflexivity.
Qed.

Lemma scan_word_len : forall w s x y, scan_word w s = (x, y) -> zlen x <= Z.of_nat w.
Proof.
  induction w as [|w IH]; intros s x y H; cbn in H; [inversion H; cbn; lia|].
  destruct s as [|c s]; [inversion H; cbn; lia|]. destruct (isspace c); [inversion H; cbn; lia|].
  destruct (scan_word w s) as (x' & y') eqn:E. inversion H. subst. rewrite zlen_cons. specialize (IH _ _ _ E). lia.
Qed.
Lemma sscanf_name : forall buf n z, sscanf_spec buf = Some (n, z) -> zlen n <= 15 /\ 0 <= z < 2 ^ 32.
Proof.
  intros buf n z H. unfold sscanf_spec in H. destruct (cstr buf) as [|c s]; [discriminate|].
  destruct (scan_word 15 (skip_spaces (c :: s))) as (x & y) eqn:E. destruct (skip_spaces y) as [|c' r]; [discriminate|]. destruct (isdigit c'); [|discriminate].
  inversion H. subst. split; [apply (scan_word_len _ _ _ _ E)|]. unfold u32. apply Z.mod_pos_bound. lia.
Qed.

Lemma name_ok_valid : forall n, zlen n <= 15 -> name_ok n = true -> valid_name n.
Proof.
  intros n L H. unfold name_ok in H. apply andb_true_iff in H. destruct H as (H1 & H2). apply bytes_eqb_true in H1.
  exists (zdrop 5 n). split; [rewrite <- H1; symmetry; apply ztake_zdrop|]. split; [rewrite zlen_zdrop; lia|].
  apply Forall_forall. intros c Hc. rewrite forallb_forall in H2. specialize (H2 c Hc). unfold islower in H2. unfold lower. lia.
Qed.
Lemma valid_name_ok : forall n, valid_name n -> name_ok n = true.
Proof.
  intros n (l & -> & L & F). unfold name_ok. rewrite ztake_app_exact by reflexivity. rewrite zdrop_app_exact by reflexivity.
  apply andb_true_iff. split; [apply bytes_eqb_true; reflexivity|]. apply forallb_forall. rewrite Forall_forall in F. intros c Hc. specialize (F c Hc).
  unfold lower in F. unfold islower. lia.
Qed.

Lemma size_pow : forall z, 0 <= z < 2 ^ 32 -> check_buf_size (s32 z) = true -> 14 <= z <= 24 /\ u32 (2 ^ z) = 2 ^ z.
Proof.
  intros z Hz H. unfold check_buf_size in H. assert (s32 z = z /\ 14 <= z <= 24) as (_ & B).
  { unfold s32 in *. destruct (_ <? _) eqn:E in *; revert H; rewrite ?Z.mod_small by lia; lia. }
  split; [exact B|]. unfold u32. apply Z.mod_small. split; [apply Z.pow_nonneg; lia|]. change 4294967296 with (2 ^ 32); apply Z.pow_lt_mono_r; lia.
Qed.
Lemma valid_pow : forall z, 14 <= z <= 24 -> valid_size (2 ^ z).
Proof.
  intros z H. exists z. split; [reflexivity|]. change 16384 with (2 ^ 14). change 16777216 with (2 ^ 24). split; apply Z.pow_le_mono_r; lia.
Qed.

(** The invariant. *)
Record Inv (s : reg) (ds : list dev) : Prop := mkInv {
  i_tab : exists n, r_logs s = table ds n /\ (List.length ds + n = 16)%nat;
  i_name : NoDup (map d_name ds);
  i_ok : Forall (fun d => valid_name (d_name d) /\ valid_size (d_size d)) ds;
  i_live : r_live s = concat (map d_blocks ds);
  i_nodup : NoDup (r_live s);
  i_next : Forall (fun b => b < r_next s) (r_live s);
  i_main : exists d ds', ds = d :: ds' /\ d_main d = true /\ Forall (fun d => d_main d = false) ds'
}.

Lemma inv_init : forall pow2 s0, ulogger_init pow2 = Some s0 -> exists d, Inv s0 [d] /\ d_name d = bytes_of_string "ulog_main" /\ d_size d = 2 ^ pow2.
Proof.
  intros pow2 s0 H. unfold ulogger_init in H. destruct (check_buf_size pow2) eqn:C; [|discriminate].
  assert (s0 = mkReg (Some (mkDev (bytes_of_string "ulog_main") (2 ^ pow2) true [0]) :: repeat None 15) [0] 1) by congruence. subst s0. clear H.
  exists (mkDev (bytes_of_string "ulog_main") (2 ^ pow2) true [0]). split; [|split; reflexivity]. constructor; cbn [r_logs r_live r_next].
  - exists 15%nat. split; reflexivity.
  - repeat constructor. intros [].
  - constructor; [|constructor]. cbn [d_name d_size]. split; [|apply valid_pow; unfold check_buf_size in C; lia].
    exists (bytes_of_string "main"). split; [reflexivity|]. split; [cbn; lia|]. repeat (apply Forall_cons; [left; cbn; lia|]). apply Forall_nil.
  - reflexivity.
  - repeat constructor. intros [].
  - repeat constructor.
  - eexists; eexists. repeat split. constructor.
Qed.

Lemma live_minus_self : forall l new, (forall b, In b new -> ~ In b l) -> live_minus (l ++ new) new = l.
Proof.
  intros l new H. unfold live_minus. rewrite filter_app.
  assert (E1 : filter (fun x => negb (existsb (Z.eqb x) new)) l = l).
  { clear -H. induction l as [|b l IH]; [reflexivity|]. cbn. destruct (existsb (Z.eqb b) new) eqn:E.
    - apply existsb_exists in E. destruct E as (y & Hy & Ey). apply Z.eqb_eq in Ey. subst y. exfalso. apply (H b Hy). left. reflexivity.
    - cbn. f_equal. apply IH. intros y Hy Hi. apply (H y Hy). right. exact Hi. }
  assert (E2 : filter (fun x => negb (existsb (Z.eqb x) new)) new = []).
  { assert (G : forall m, (forall b, In b m -> In b new) -> filter (fun x => negb (existsb (Z.eqb x) new)) m = []).
    { induction m as [|b m IH]; intros Hm; [reflexivity|]. cbn. assert (existsb (Z.eqb b) new = true) as ->.
      { apply existsb_exists. exists b. split; [apply Hm; left; reflexivity|apply Z.eqb_refl]. }
      cbn. apply IH. intros y Hy. apply Hm. right. exact Hy. }
    apply G. auto. }
  rewrite E1, E2. apply app_nil_r.
Qed.

(** One addition: nothing changes, or one device is appended. *)
Lemma add_spec : forall s ds buf count a s' ret, Inv s ds -> ulogger_add_log s buf count a = Ok (s', ret) ->
  (Inv s' ds /\ r_logs s' = r_logs s /\ (ret = - EINVAL \/ ret = - ENOMEM)) \/
  (exists d, Inv s' (ds ++ [d]) /\ ret = count).
Proof.
  intros s ds buf count a s' ret I H. unfold ulogger_add_log in H. destruct (sscanf_spec buf) as [(nm & z)|] eqn:Sp.
  2:{ inversion H. subst. left. auto. }
  destruct (name_ok nm) eqn:Nm; cbn [negb] in H; [|inversion H; subst; left; auto].
  destruct (check_buf_size (s32 z)) eqn:Cs; cbn [negb] in H; [|inversion H; subst; left; auto].
  destruct (sscanf_name _ _ _ Sp) as (Ln & Lz). destruct (size_pow z Lz Cs) as (Bz & Ez). rewrite Ez in H.
  set (new := (if a_name a then [r_next s] else []) ++ (if a_log a then [r_next s + 1] else []) ++ (if a_buf a then [r_next s + 2] else [])) in *.
  destruct I as [T N O L Nd Nx Mn]. 
  assert (Fresh : forall b, In b new -> r_next s <= b < r_next s + 3).
  { intros b Hb. unfold new in Hb. rewrite !in_app_iff in Hb. destruct (a_name a), (a_log a), (a_buf a); cbn in Hb; lia. }
  assert (Dis : forall b, In b new -> ~ In b (r_live s)).
  { intros b Hb Hi. specialize (Fresh b Hb). rewrite Forall_forall in Nx. specialize (Nx b Hi). lia. }
  assert (NdN : NoDup new).
  { unfold new. destruct (a_name a), (a_log a), (a_buf a); cbn; repeat (constructor; [cbn; lia|]); constructor. }
  rewrite live_minus_self in H by exact Dis.
  assert (Same : forall s', s' = mkReg (r_logs s) (r_live s) (r_next s + 3) -> Inv s' ds).
  { intros s1 ->. constructor; cbn [r_logs r_live r_next]; try assumption. apply Forall_forall. intros b Hb. rewrite Forall_forall in Nx. specialize (Nx b Hb). lia. }
  destruct (negb (a_log a) || negb (a_buf a)); [inversion H; subst; left; split; [apply Same; reflexivity|auto]|].
  destruct (a_name a) eqn:An; cbn [negb] in H; [|discriminate].
  destruct T as (n & T & Tn). rewrite T, find_slot_spec in H.
  destruct (existsb (fun d' => bytes_eqb (d_name d') (d_name (mkDev nm (2 ^ z) false new))) ds) eqn:Ex.
  - inversion H. subst s' ret. left. rewrite <- T. split; [apply Same; reflexivity|auto].
  - destruct n as [|n]; [inversion H; subst s' ret; left; rewrite <- T; split; [apply Same; reflexivity|auto]|].
    destruct (a_reg a); [|inversion H; subst s' ret; left; rewrite <- T; split; [apply Same; reflexivity|auto]].
    inversion H. subst s' ret. right. eexists. split; [|reflexivity]. constructor; cbn [r_logs r_live r_next].
    + exists n. split; [reflexivity|]. rewrite app_length. cbn. lia.
    + rewrite map_app. cbn [map d_name].
      apply Permutation_NoDup with (l := nm :: map d_name ds); [apply Permutation_cons_append|]. constructor; [|exact N].
      intros Hin. apply in_map_iff in Hin. destruct Hin as (d' & E & Hd).
      assert (existsb (fun d' => bytes_eqb (d_name d') nm) ds = true) by (apply existsb_exists; exists d'; split; [exact Hd|apply bytes_eqb_true; exact E]). cbn [d_name] in Ex. congruence.
    + apply Forall_app. split; [exact O|]. constructor; [|constructor]. cbn [d_name d_size]. split; [apply name_ok_valid; assumption|apply valid_pow; exact Bz].
    + rewrite map_app, concat_app. cbn [map concat d_blocks]. rewrite app_nil_r. rewrite <- L. reflexivity.
    + apply Permutation_NoDup with (l := new ++ r_live s); [apply Permutation_app_comm|].
      clear -Dis NdN Nd. induction new as [|b new IH]; [exact Nd|]. cbn. inversion NdN. subst. constructor.
      * intros Hi. apply in_app_iff in Hi. destruct Hi as [Hi|Hi]; [contradiction|]. apply (Dis b); [left; reflexivity|exact Hi].
      * apply IH; [|assumption]. intros y Hy. apply Dis. right. exact Hy.
    + apply Forall_app. split; apply Forall_forall; intros b Hb.
      * rewrite Forall_forall in Nx. specialize (Nx b Hb). lia.
      * specialize (Fresh b Hb). lia.
    + destruct Mn as (d & ds' & -> & A & B). exists d, (ds' ++ [mkDev nm (2 ^ z) false new]). split; [reflexivity|]. split; [exact A|].
      apply Forall_app. split; [exact B|]. constructor; [reflexivity|constructor].
Qed.

Lemma run_inv : forall l s ds s' rets, Inv s ds -> run s l = Ok (s', rets) -> exists more, Inv s' (ds ++ more).
Proof.
  induction l as [|((buf & count) & a) l IH]; intros s ds s' rets I H; cbn [run] in H.
  - inversion H. subst. exists []. rewrite app_nil_r. exact I.
  - destruct (ulogger_add_log s buf count a) as [(s1 & r1)|] eqn:E; [|discriminate]. cbn [bind fst snd] in H.
    destruct (run s1 l) as [(s2 & r2)|] eqn:E2; [|discriminate]. cbn in H. inversion H. subst.
    destruct (add_spec _ _ _ _ _ _ _ I E) as [(I' & _)|(d & I' & _)].
    + apply (IH _ _ _ _ I' E2).
    + destruct (IH _ _ _ _ I' E2) as (more & I2). exists ([d] ++ more). rewrite app_assoc. exact I2.
Qed.
Lemma reaches_inv : forall pow2 l s rets, reaches pow2 l s rets ->
  exists d more, Inv s (d :: more) /\ d_name d = bytes_of_string "ulog_main" /\ d_size d = 2 ^ pow2.
Proof.
  intros pow2 l s rets (s0 & H0 & H). destruct (inv_init _ _ H0) as (d & I & A & B). destruct (run_inv _ _ _ _ _ I H) as (more & I'). exists d, more. auto.
Qed.

(** ** C17 *)

(** The devices registered: distinct, well named, of valid sizes, at most 16, without holes in
    the table, the main device first. *)
Theorem C17_consistent : forall pow2 l s rets, reaches pow2 l s rets ->
  NoDup (map d_name (devs (r_logs s))) /\
  Forall (fun d => valid_name (d_name d) /\ valid_size (d_size d)) (devs (r_logs s)) /\
  zlen (devs (r_logs s)) <= 16 /\
  (exists n, r_logs s = map Some (devs (r_logs s)) ++ repeat None n) /\
  (exists d r, devs (r_logs s) = d :: r /\ d_name d = bytes_of_string "ulog_main" /\ d_size d = 2 ^ pow2).
Proof.
  intros pow2 l s rets R. destruct (reaches_inv _ _ _ _ R) as (d & more & I & A & B). destruct I as [(n & T & Tn) N O _ _ _ _].
  rewrite T, devs_table. split; [exact N|]. split; [exact O|]. split; [unfold zlen; lia|]. split; [exists n; reflexivity|]. exists d, more. auto.
Qed.

(** An addition is refused and changes nothing, or appends exactly one device. *)
Theorem C17_add : forall pow2 l s rets buf count a s' ret, reaches pow2 l s rets -> 0 <= count -> ulogger_add_log s buf count a = Ok (s', ret) ->
  (ret < 0 /\ r_logs s' = r_logs s) \/ (ret = count /\ exists d, devs (r_logs s') = devs (r_logs s) ++ [d]).
Proof.
  intros pow2 l s rets buf count a s' ret R Hc H. destruct (reaches_inv _ _ _ _ R) as (d & more & I & _).
  destruct (add_spec _ _ _ _ _ _ _ I H) as [(_ & E & Er)|(d' & I' & ->)].
  - left. split; [unfold EINVAL, ENOMEM in Er; lia|exact E].
  - right. split; [reflexivity|]. exists d'. destruct (i_tab _ _ I) as (n & -> & _). destruct (i_tab _ _ I') as (n' & -> & _). rewrite !devs_table. reflexivity.
Qed.

(** Devices never disappear or change: later tables extend earlier ones. *)
Theorem C17_persistent : forall pow2 l1 l2 s1 r1 s2 r2, reaches pow2 l1 s1 r1 -> run s1 l2 = Ok (s2, r2) ->
  exists more, devs (r_logs s2) = devs (r_logs s1) ++ more.
Proof.
  intros pow2 l1 l2 s1 r1 s2 r2 R H. destruct (reaches_inv _ _ _ _ R) as (d & more & I & _). destruct (run_inv _ _ _ _ _ I H) as (more2 & I2).
  exists more2. destruct (i_tab _ _ I) as (n & -> & _). destruct (i_tab _ _ I2) as (n2 & -> & _). rewrite !devs_table. reflexivity.
Qed.

(** Reading the attribute gives one line per device: name, space, binary logarithm of the size. *)
Lemma ffs1_pow : forall k, 0 <= k -> ffs1 (2 ^ k) = k.
Proof.
  intros k H. unfold ffs1. assert (E : Z.land (2 ^ k) (- 2 ^ k) = 2 ^ k); [|rewrite E; apply Z.log2_pow2; exact H].
  assert (N : - 2 ^ k = Z.lnot (Z.ones k)) by (unfold Z.lnot; rewrite Z.ones_equiv; lia). rewrite N. apply Z.bits_inj'. intros i Hi.
  rewrite Z.land_spec, Z.lnot_spec, Z.pow2_bits_eqb by lia. rewrite Z.testbit_ones_nonneg by lia. destruct (Z.eqb_spec k i); [|reflexivity]. subst i. rewrite Z.ltb_irrefl. reflexivity.
Qed.
Lemma show_line_full : forall d, valid_name (d_name d) -> valid_size (d_size d) -> show_line 256 d = line d.
Proof.
  intros d (l & En & Ll & _) (k & Ek & B). unfold show_line, line.
  assert (Hk : 0 <= k). { destruct (Z.leb_spec 0 k) as [?|Hk]; [assumption|]. exfalso. rewrite Z.pow_neg_r in Ek by exact Hk. lia. }
  rewrite Ek, ffs1_pow, Z.log2_pow2 by exact Hk. apply ztake_all. rewrite !zlen_app. change (zlen [32]) with 1. change (zlen [10]) with 1.
  rewrite En, zlen_app. change (zlen (bytes_of_string "ulog_")) with 5. pose proof (dec_digits_len 20 k). unfold dec_u. lia.
Qed.
Theorem C17_list : forall pow2 l s rets, reaches pow2 l s rets ->
  ulogger_show_logs s = concat (map line (devs (r_logs s))) /\ zlen (ulogger_show_logs s) <= PAGE_SIZE.
Proof.
  intros pow2 l s rets R. destruct (reaches_inv _ _ _ _ R) as (d & more & I & _). destruct I as [(n & T & Tn) _ O _ _ _ _]. unfold ulogger_show_logs.
  rewrite T, devs_table. remember (d :: more) as ds. clear Heqds.
  assert (E : show_from (table ds n) = concat (map line ds)).
  { clear T Tn. induction O as [|x ds (Hx & Hy) O IH]; cbn [table map app show_from concat].
    - destruct n; reflexivity.
    - change (PAGE_SIZE / Z.of_nat MAX_LOGS) with 256. rewrite show_line_full by assumption. f_equal. exact IH. }
  rewrite E. split; [reflexivity|].
  assert (G : zlen (concat (map line ds)) <= 256 * zlen ds).
  { clear -O. induction O as [|x ds (Hx & Hy) O IH]; [cbn; lia|]. cbn [map concat]. rewrite zlen_app, zlen_cons.
    rewrite <- (show_line_full x Hx Hy). unfold show_line at 1. rewrite zlen_ztake. lia. }
  unfold PAGE_SIZE. unfold zlen in *. lia.
Qed.

(** A valid specification of a new name is accepted if a slot is free and memory suffices. *)
Lemma scan_word_stop : forall w n r, (List.length n <= w)%nat -> Forall (fun c => isspace c = false) n -> 
  scan_word w (n ++ 32 :: r) = (n, 32 :: r).
Proof.
  intros w n r. revert w. induction n as [|c n IH]; intros w L F.
  - destruct w; reflexivity.
  - destruct w as [|w]; [cbn in L; lia|]. inversion F as [|? ? Hc Fn]; subst. cbn [app scan_word]. rewrite Hc, IH; [reflexivity|cbn in L; lia|exact Fn].
Qed.
Lemma valid_no_space : forall n, valid_name n -> Forall (fun c => isspace c = false /\ c <> 0) n.
Proof.
  intros n (l & -> & _ & F). apply Forall_app. split.
  - repeat (apply Forall_cons; [split; [reflexivity|cbn; lia]|]). apply Forall_nil.
  - apply Forall_forall. intros c Hc. rewrite Forall_forall in F. specialize (F c Hc). unfold lower in F. unfold isspace. lia.
Qed.
Theorem C17_accepts : forall pow2 l s rets n k count, reaches pow2 l s rets -> valid_name n -> 14 <= k <= 24 ->
  ~ In n (map d_name (devs (r_logs s))) -> zlen (devs (r_logs s)) < 16 ->
  exists s' d, ulogger_add_log s (n ++ [32] ++ dec_u k ++ [10; 0]) count (mkA true true true true) = Ok (s', count) /\
    devs (r_logs s') = devs (r_logs s) ++ [d] /\ d_name d = n /\ d_size d = 2 ^ k.
Proof.
  intros pow2 l s rets n k count R Vn Hk Nn L16. destruct (reaches_inv _ _ _ _ R) as (d & more & I & _). destruct I as [(m & T & Tm) _ _ _ _ _ _].
  rewrite T, devs_table in *.
  assert (Sp : sscanf_spec (n ++ [32] ++ dec_u k ++ [10; 0]) = Some (n, k)).
  { unfold sscanf_spec. pose proof (valid_no_space n Vn) as F.
    assert (C : cstr (n ++ [32] ++ dec_u k ++ [10; 0]) = n ++ 32 :: dec_u k ++ [10]).
    { replace (n ++ [32] ++ dec_u k ++ [10; 0]) with ((n ++ 32 :: dec_u k ++ [10]) ++ 0 :: []) by (rewrite <- app_assoc; cbn [app]; rewrite <- app_assoc; reflexivity).
      apply cstr_app_nul. rewrite in_app_iff. intros [Hi|[Hi|Hi]].
      - rewrite Forall_forall in F. destruct (F 0 Hi) as (_ & X). congruence.
      - discriminate.
      - apply in_app_iff in Hi. destruct Hi as [Hi|[Hi|[]]]; [|discriminate].
        assert (X : k = 14 \/ k = 15 \/ k = 16 \/ k = 17 \/ k = 18 \/ k = 19 \/ k = 20 \/ k = 21 \/ k = 22 \/ k = 23 \/ k = 24) by lia.
        repeat (destruct X as [X|X]); subst k; cbn in Hi; intuition discriminate. }
    rewrite C. destruct Vn as (l' & En & Ll & Fl).
    assert (Sk : skip_spaces (n ++ 32 :: dec_u k ++ [10]) = n ++ 32 :: dec_u k ++ [10]) by (rewrite En; reflexivity).
    assert (Cons : exists c t, n ++ 32 :: dec_u k ++ [10] = c :: t) by (rewrite En; cbn; eauto). destruct Cons as (c & t & Ec). rewrite Ec. rewrite <- Ec.
    rewrite Sk, scan_word_stop.
    - assert (X : k = 14 \/ k = 15 \/ k = 16 \/ k = 17 \/ k = 18 \/ k = 19 \/ k = 20 \/ k = 21 \/ k = 22 \/ k = 23 \/ k = 24) by lia.
      repeat (destruct X as [X|X]); subst k; reflexivity.
    - rewrite En, app_length. unfold zlen in Ll. change (List.length (bytes_of_string "ulog_")) with 5%nat. lia.
    - apply Forall_forall. intros x Hx. rewrite Forall_forall in F. apply (F x Hx). }
  unfold ulogger_add_log. rewrite Sp, valid_name_ok by exact Vn. cbn [negb a_name a_log a_buf a_reg orb].
  assert (Es : s32 k = k) by (assert (X : k = 14 \/ k = 15 \/ k = 16 \/ k = 17 \/ k = 18 \/ k = 19 \/ k = 20 \/ k = 21 \/ k = 22 \/ k = 23 \/ k = 24) by lia;
      repeat (destruct X as [X|X]); subst k; reflexivity).
  rewrite Es. unfold check_buf_size. destruct (Z.leb_spec 14 k); [|lia]. destruct (Z.leb_spec k 24); [|lia]. cbn [andb negb].
  assert (Ez : u32 (2 ^ k) = 2 ^ k). { unfold u32. apply Z.mod_small. split; [apply Z.pow_nonneg; lia|change 4294967296 with (2 ^ 32); apply Z.pow_lt_mono_r; lia]. }
  rewrite Ez, T, find_slot_spec. cbn [d_name].
  assert (existsb (fun d' => bytes_eqb (d_name d') n) (d :: more) = false) as ->.
  { apply not_true_is_false. intros Ex. apply existsb_exists in Ex. destruct Ex as (d' & Hd & E). apply bytes_eqb_true in E. apply Nn. apply in_map_iff. exists d'. auto. }
  destruct m as [|m]; [unfold zlen in L16; lia|]. eexists; eexists. split; [reflexivity|]. cbn [r_logs]. rewrite devs_table. split; [reflexivity|]. split; reflexivity.
Qed.

(** Two devices are added, a duplicate, a bad name and a bad size are refused. *)
Definition all_ok : answer := mkA true true true true.
Definition ex17 : list (list Z * Z * answer) :=
  [(bytes_of_string "ulog_flight 20" ++ [10; 0], 15, all_ok); (bytes_of_string " ulog_abcdefghij14" ++ [0], 18, all_ok);
   (bytes_of_string "ulog_flight 16" ++ [0], 14, all_ok); (bytes_of_string "ulog_a_b 16" ++ [0], 11, all_ok); (bytes_of_string "ulog_x 13" ++ [0], 9, all_ok);
   (bytes_of_string "ulog_y 16" ++ [0], 9, mkA true false true true)].
Definition ex17_final : reg :=
  match ulogger_init 18 with Some s0 => match run s0 ex17 with Ok (s, _) => s | Bug _ => s0 end | None => mkReg [] [] 0 end.
Lemma ex17_reaches : reaches 18 ex17 ex17_final [15; 18; -22; -22; -22; -12].
Proof. exists (mkReg (Some (mkDev (bytes_of_string "ulog_main") (2 ^ 18) true [0]) :: repeat None 15) [0] 1). split; vm_compute; reflexivity. Qed.
Example C17_ex : exists s, reaches 18 ex17 s [15; 18; -22; -22; -22; -12] /\
  ulogger_show_logs s = bytes_of_string "ulog_main 18" ++ [10] ++ bytes_of_string "ulog_flight 20" ++ [10] ++ bytes_of_string "ulog_abcdefghij 14" ++ [10].
Proof. exists ex17_final. split; [exact ex17_reaches|vm_compute; reflexivity]. Qed.

(** ** C64 *)

(** Memory in use is exactly what the registered devices own: refused additions free everything
    they allocated, and unloading the module frees each block exactly once. *)
Theorem C64_no_leak : forall pow2 l s rets, reaches pow2 l s rets ->
  r_live s = concat (map d_blocks (devs (r_logs s))) /\ NoDup (r_live s) /\ Permutation (ulogger_exit s) (r_live s).
Proof.
  intros pow2 l s rets R. destruct (reaches_inv _ _ _ _ R) as (d & more & I & _). destruct I as [(n & T & _) _ _ L Nd _ (d' & ds' & E & Hm & Hf)].
  inversion E. subst d' ds'. rewrite T, devs_table. split; [exact L|]. split; [exact Nd|]. unfold ulogger_exit. rewrite T, L. cbn [table map app concat exit_from].
  rewrite Hm. cbn [app]. apply Permutation_app_head.
  assert (G : forall ds, Forall (fun d => d_main d = false) ds -> exit_from (map Some ds ++ repeat None n) = concat (map d_blocks ds)).
  { intros ds F. induction F as [|x ds Hx F IH]; cbn; [destruct n; reflexivity|]. rewrite Hx, IH. reflexivity. }
  rewrite G by exact Hf. apply Permutation_refl.
Qed.
(** Running out of memory for the name alone is not handled: the additions are only safe if
    kstrdup succeeds or another allocation of the same call fails too. *)
Theorem C64_safe_partial : forall pow2 l s rets buf count a, reaches pow2 l s rets -> a_name a = true \/ a_log a = false \/ a_buf a = false ->
  exists s' ret, ulogger_add_log s buf count a = Ok (s', ret).
Proof.
  intros pow2 l s rets buf count a R Ha. unfold ulogger_add_log. destruct (sscanf_spec buf) as [(nm & z)|]; [|eauto].
  destruct (negb (name_ok nm)); [eauto|]. destruct (negb (check_buf_size (s32 z))); [eauto|].
  destruct (a_log a); cbn [negb orb]; [|eauto]. destruct (a_buf a); cbn [negb]; [|eauto]. destruct (a_name a); cbn [negb]; [|intuition discriminate].
  match goal with |- context [find_slot ?x ?y ?z] => destruct (find_slot x y z) end; eauto.
Qed.
Theorem C64_name_refuted : exists s0 buf count a, ulogger_init 18 = Some s0 /\ ulogger_add_log s0 buf count a = Bug Oob.
Proof. eexists. exists (bytes_of_string "ulog_x 16" ++ [0]), 9, (mkA false true true true). split; reflexivity. Qed.
Example C64_ex : exists s, reaches 18 ex17 s [15; 18; -22; -22; -22; -12] /\ r_live s = [0; 1; 2; 3; 4; 5; 6].
Proof. exists ex17_final. split; [exact ex17_reaches|vm_compute; reflexivity]. Qed.

Print Assumptions C17_consistent.
Print Assumptions C17_add.
Print Assumptions C17_persistent.
Print Assumptions C17_list.
Print Assumptions C17_accepts.
Print Assumptions C64_no_leak.
Print Assumptions C64_safe_partial.
Print Assumptions C64_name_refuted.
