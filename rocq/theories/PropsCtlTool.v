(** C92: addresses of the control socket; C93: the tool ulogctl. *)
From Coq Require Import ZArith String List Bool Lia ZifyBool ZifyNat.
From Verif Require Import Bytes BytesProofs Parse ParseSpec Ctl CtlTool.
Import ListNotations.
Open Scope Z_scope.

(** The address that a socket name stands for: the family and the name; with a NUL for a leading @. *)
Definition address (s : list Z) : list Z := [1; 0] ++ (if hd 0 s =? 64 then 0 :: tl s else s).

Lemma sun_path_ok s : zlen s <= 107 -> sun_path s = s ++ zrepeat 0 (108 - zlen s).
Proof. intros H. unfold sun_path, SUN_PATH. rewrite ztake_all by lia. reflexivity. Qed.
Lemma zlen_zrepeat' (v : Z) n : 0 <= n -> zlen (zrepeat v n) = n.
Proof. intros H. unfold zlen, zrepeat. rewrite repeat_length. lia. Qed.

(** A server and a client of the tool given the same name of at most 107 bytes use the same address, that
    of the name. *)
Theorem C92_unix_partial : forall s, c_string s -> zlen s <= 107 ->
  srv_new_unix s true = Ok (0, Some (address s)) /\ tool_unix s true = Ok (0, Some (address s)).
Proof.
  intros s HC HL. pose proof (zlen_nonneg s) as HP. unfold srv_new_unix, tool_unix, parse_unix. rewrite (sun_path_ok s HL).
  set (z := zrepeat 0 (108 - zlen s)). assert (LZ : zlen z = 108 - zlen s) by (apply zlen_zrepeat'; lia).
  assert (Z0 : z <> [] -> is_at z = false).
  { unfold z, zrepeat. destruct (Z.to_nat (108 - zlen s)); [intros H; exfalso; now apply H|reflexivity]. }
  assert (AT : is_at (s ++ z) = is_at s).
  { destruct s as [|c s]; [|reflexivity]. cbn [app]. change (is_at []) with false. apply Z0. intros E. rewrite E in LZ. change (zlen []) with 0 in LZ. change (zlen (@nil Z)) with 0 in LZ. lia. }
  rewrite AT. unfold address.
  assert (HD : (hd 0 s =? 64) = is_at s) by (destruct s; reflexivity). rewrite HD. clear HD.
  assert (EB : exists s', (if is_at s then abstract (s ++ z) else s ++ z) = s' ++ z /\ zlen s' = zlen s /\ s' = (if is_at s then 0 :: tl s else s)).
  { destruct (is_at s) eqn:EA; [|exists s; auto]. destruct s as [|c s]; [discriminate|]. exists (0 :: s). split; [reflexivity|]. split; [|reflexivity].
    unfold zlen. cbn [length]. lia. }
  destruct EB as (s' & -> & L' & <-).
  assert (T : forall y, ztake (2 + zlen s) ((AF_UNIX ++ s') ++ y) = [1; 0] ++ s').
  { intros y. replace (2 + zlen s) with (zlen (AF_UNIX ++ s')) by (rewrite zlen_app, L'; reflexivity). unfold ztake, zlen. rewrite Nat2Z.id, firstn_app, Nat.sub_diag, firstn_O, app_nil_r. apply firstn_all. }
  split.
  - unfold srv_new. cbn [negb]. rewrite zlen_app, zlen_app, L', LZ. change (zlen AF_UNIX) with 2. unfold STORAGE.
    destruct (Z.ltb_spec (2 + (zlen s + (108 - zlen s))) (2 + zlen s)); [lia|]. destruct (Z.ltb_spec 128 (2 + zlen s)); [lia|]. cbn [orb].
    rewrite app_assoc, T. reflexivity.
  - unfold cli_new_addr. cbn [negb]. rewrite !zlen_app, L', LZ. change (zlen AF_UNIX) with 2. unfold STORAGE, UN_SIZE.
    rewrite (zlen_zrepeat' 0 (128 - 110)) by lia.
    destruct (Z.ltb_spec (2 + (zlen s + (108 - zlen s) + (128 - 110))) (2 + zlen s)); [lia|]. destruct (Z.ltb_spec 128 (2 + zlen s)); [lia|]. cbn [orb].
    rewrite <- app_assoc, app_assoc, T. reflexivity.
Qed.

(** A client that is given the name of a process uses the address of the server of that process. *)
Theorem C92_process : forall comm, c_string comm -> zlen comm <= 15 ->
  srv_new_unix_proc comm true = Ok (0, Some (address (bytes_of_string "@ulogctl_" ++ comm))) /\
  cli_new_proc comm true = Ok (0, Some (address (bytes_of_string "@ulogctl_" ++ comm))).
Proof.
  intros comm HC HL. pose proof (zlen_nonneg comm) as HP. change (bytes_of_string "@ulogctl_") with PREFIX.
  assert (LP : zlen (PREFIX ++ comm) = 9 + zlen comm) by (rewrite zlen_app; reflexivity).
  assert (CS : c_string (PREFIX ++ comm)).
  { unfold c_string. rewrite in_app_iff. intros [H|H]; [|exact (HC H)]. revert H. vm_compute. intuition discriminate. }
  destruct (C92_unix_partial (PREFIX ++ comm) CS ltac:(lia)) as (A & B). split.
  - unfold srv_new_unix_proc, SOCK_MAX. rewrite ztake_all by lia. exact A.
  - unfold cli_new_proc. unfold tool_unix, parse_unix in B. change (is_at (PREFIX ++ comm)) with true in B. cbv iota in B.
    revert B. unfold cli_new_addr. cbn [negb]. set (p := abstract (sun_path (PREFIX ++ comm))).
    assert (L : zlen (AF_UNIX ++ p) = 110).
    { unfold p. rewrite sun_path_ok by lia. rewrite zlen_app. change (zlen AF_UNIX) with 2.
      assert (E : zlen (abstract ((PREFIX ++ comm) ++ zrepeat 0 (108 - zlen (PREFIX ++ comm)))) = zlen ((PREFIX ++ comm) ++ zrepeat 0 (108 - zlen (PREFIX ++ comm)))) by reflexivity.
      rewrite E, zlen_app, zlen_zrepeat' by lia. lia. }
    unfold STORAGE. destruct (Z.ltb_spec 128 (2 + zlen (PREFIX ++ comm))); [lia|]. rewrite !orb_false_r.
    destruct (Z.ltb_spec (zlen (AF_UNIX ++ p)) (2 + zlen (PREFIX ++ comm))); [lia|].
    destruct (_ <? _); [discriminate|]. intros B. rewrite <- B. do 3 f_equal. rewrite app_assoc.
    unfold ztake. rewrite (firstn_app _ (AF_UNIX ++ p)). replace (Z.to_nat (2 + zlen (PREFIX ++ comm)) - length (AF_UNIX ++ p))%nat with 0%nat; [now rewrite firstn_O, app_nil_r|].
    unfold zlen in *. lia.
Qed.
Example C92_ex : c_string (bytes_of_string "drone") /\
  srv_new_unix_proc (bytes_of_string "drone") true = Ok (0, Some ([1; 0; 0] ++ bytes_of_string "ulogctl_drone")) /\
  srv_new_unix (bytes_of_string "/tmp/s") true = Ok (0, Some ([1; 0] ++ bytes_of_string "/tmp/s")).
Proof. split; [vm_compute; intuition discriminate|]. split; vm_compute; reflexivity. Qed.
(** Different processes have different addresses. *)
Theorem C92_distinct : forall a b, zlen a <= 15 -> zlen b <= 15 -> c_string a -> c_string b ->
  srv_new_unix_proc a true = srv_new_unix_proc b true -> a = b.
Proof.
  intros a b La Lb Ca Cb E. destruct (C92_process a Ca La) as (Ea & _). destruct (C92_process b Cb Lb) as (Eb & _).
  rewrite Ea, Eb in E. injection E as E. exact E.
Qed.
Example C92_distinct_ex : srv_new_unix_proc (bytes_of_string "a") true <> srv_new_unix_proc (bytes_of_string "b") true.
Proof. vm_compute. discriminate. Qed.

(** A longer name is not refused: the length of the address is that of the whole name, so more than the
    structures is copied. *)
Theorem C92_long_refuted : (exists s, zlen s = 109 /\ srv_new_unix s true = Bug Oob) /\ (exists p, zlen p = 100 /\ cli_new_proc p true = Bug Oob) /\
  (exists s, zlen s = 127 /\ tool_unix s true = Bug Oob).
Proof.
  split; [exists (zrepeat 97 109)|split; [exists (zrepeat 97 100)|exists (zrepeat 97 127)]]; split; reflexivity.
Qed.
(** A process with a name longer than 15 bytes is not found by its name: the server uses the name that
    the kernel cut. *)
Theorem C92_cut_name_refuted : exists p a b, c_string p /\ zlen p = 16 /\ srv_new_unix_proc (ztake 15 p) true = Ok (0, Some a) /\
  cli_new_proc p true = Ok (0, Some b) /\ a <> b.
Proof.
  exists (bytes_of_string "media_controller"). do 2 eexists. split; [vm_compute; intuition discriminate|]. split; [reflexivity|].
  split; [vm_compute; reflexivity|]. split; [vm_compute; reflexivity|]. discriminate.
Qed.
(** ulogctl_srv_new reports success without a server when the pomp context cannot be created. *)
Theorem C92_no_context_refuted : exists addr len, 0 <= len <= zlen addr /\ srv_new addr len false = Ok (0, None).
Proof. exists (AF_UNIX ++ [97]), 3. split; [change (zlen (AF_UNIX ++ [97])) with 3; lia|reflexivity]. Qed.

(** ** C93 *)

(** Letters of levels: what is accepted and what is listed agree. *)
Definition upper (c : Z) : Z := if (97 <=? c) && (c <=? 122) then c - 32 else c.
Theorem C93_letters : (forall c, char2level c <> -1 -> level2char (char2level c) = upper c) /\
  (forall l, 2 <= l <= 7 -> char2level (level2char l) = l) /\
  (forall c, char2level c <> -1 <-> In (upper c) (bytes_of_string "CEWNID")).
Proof.
  assert (K : forall c, char2level c = -1 \/ c = 99 \/ c = 67 \/ c = 101 \/ c = 69 \/ c = 119 \/ c = 87 \/ c = 110 \/ c = 78 \/ c = 105 \/ c = 73 \/ c = 100 \/ c = 68).
  { intros c. unfold char2level. destruct ((c =? 99) || (c =? 67)) eqn:E1; [lia|]. destruct ((c =? 101) || (c =? 69)) eqn:E2; [lia|].
    destruct ((c =? 119) || (c =? 87)) eqn:E3; [lia|]. destruct ((c =? 110) || (c =? 78)) eqn:E4; [lia|].
    destruct ((c =? 105) || (c =? 73)) eqn:E5; [lia|]. destruct ((c =? 100) || (c =? 68)) eqn:E6; [lia|]. now left. }
  split; [|split].
  - intros c H. destruct (K c) as [E|E]; [congruence|]. repeat (destruct E as [->|E]; [reflexivity|]). now subst.
  - intros l H. assert (Q : l = 2 \/ l = 3 \/ l = 4 \/ l = 5 \/ l = 6 \/ l = 7) by lia. repeat (destruct Q as [->|Q]; [reflexivity|]). now subst.
  - intros c. change (bytes_of_string "CEWNID") with [67; 69; 87; 78; 73; 68]. split.
    + intros H. destruct (K c) as [E|E]; [congruence|].
      repeat (destruct E as [->|E]; [cbn; repeat (first [left; reflexivity|right])|]). subst. cbn. repeat (first [left; reflexivity|right]).
    + intros H. unfold upper in H.
      assert (Q : c = 99 \/ c = 67 \/ c = 101 \/ c = 69 \/ c = 119 \/ c = 87 \/ c = 110 \/ c = 78 \/ c = 105 \/ c = 73 \/ c = 100 \/ c = 68).
      { cbn [In] in H. destruct ((97 <=? c) && (c <=? 122)) eqn:EU; lia. }
      repeat (destruct Q as [->|Q]; [discriminate|]). subst. discriminate.
Qed.
Example C93_letters_ex : char2level 119 = 4 /\ level2char 4 = 87.
Proof. split; reflexivity. Qed.

(** What the options ask for: levels of a tag, of all tags, a list. *)
Inductive ask := AskTag (tag : list Z) (level : Z) | AskAll (level : Z) | AskList.
Fixpoint asks (l : list opt) : list ask :=
  match l with
  | [] => []
  | OTag tag (Some w) :: l => AskTag tag (char2level (hd 0 w)) :: asks l
  | OAll arg :: l => AskAll (char2level (hd 0 arg)) :: asks l
  | OList :: l => AskList :: asks l
  | _ :: l => asks l
  end.
Definition as_req (a : ask) : req := match a with AskTag t l => RSetTag t l | AskAll l => RSetAll l | AskList => RList end.
(** Options the tool accepts: words that start with the letter of a level where a level is due. *)
Definition word (w : list Z) : Prop := exists c r, w = c :: r /\ char2level c <> -1.
Definition accepted (o : opt) : Prop :=
  match o with OHelp | OBad | OTag _ None => False | OTag _ (Some w) => word w | OAll w => word w | _ => True end.

Lemma word_first w : word w -> first w = hd 0 w /\ 0 <= char2level (hd 0 w) /\ first w <> 45.
Proof.
  intros (c & r & -> & H). split; [reflexivity|]. cbn [hd]. unfold first. cbn [app hd]. split.
  - assert (K : char2level c = -1 \/ 0 <= char2level c).
    { unfold char2level. repeat match goal with |- context [if ?b then _ else _] => destruct b; [right; lia|] end. now left. }
    destruct K; [contradiction|assumption].
  - intros ->. apply H. reflexivity.
Qed.
Lemma proc_cons o l (P : Prop) : (forall p, o <> OProc p) -> (P /\ forall p, ~ In (OProc p) l) <-> (P /\ forall p, ~ In (OProc p) (o :: l)).
Proof.
  intros N. split; intros (A & B); (split; [exact A|]); intros p H; apply (B p); [|now right]. destruct H as [H|H]; [now apply N in H|exact H].
Qed.
Lemma options_ok : forall l v, Forall accepted l -> exists v', options v l = inr v' /\
  v_set_tag v' = v_set_tag v || existsb (fun a => match a with AskTag _ _ => true | _ => false end) (asks l) /\
  v_set_all v' = v_set_all v || existsb (fun a => match a with AskAll _ => true | _ => false end) (asks l) /\
  v_list v' = v_list v || existsb (fun a => match a with AskList => true | _ => false end) (asks l) /\
  v_tag v' = fold_left (fun t a => match a with AskTag x _ => x | _ => t end) (asks l) (v_tag v) /\
  v_level v' = fold_left (fun t a => match a with AskTag _ x | AskAll x => x | _ => t end) (asks l) (v_level v) /\
  (v_proc v' = None <-> v_proc v = None /\ forall p, ~ In (OProc p) l).
Proof.
  assert (FIN : forall o l v v' st sa sl (P : Prop), (forall p, o <> OProc p) ->
    v_set_tag v' = st /\ v_set_all v' = sa /\ v_list v' = sl /\
    v_tag v' = fold_left (fun t a => match a with AskTag x _ => x | _ => t end) (asks l) (v_tag v) /\
    v_level v' = fold_left (fun t a => match a with AskTag _ x | AskAll x => x | _ => t end) (asks l) (v_level v) /\
    (v_proc v' = None <-> P /\ forall p, ~ In (OProc p) l) ->
    v_set_tag v' = st /\ v_set_all v' = sa /\ v_list v' = sl /\
    v_tag v' = fold_left (fun t a => match a with AskTag x _ => x | _ => t end) (asks l) (v_tag v) /\
    v_level v' = fold_left (fun t a => match a with AskTag _ x | AskAll x => x | _ => t end) (asks l) (v_level v) /\
    (v_proc v' = None <-> P /\ forall p, ~ In (OProc p) (o :: l))).
  { intros o l v v' st sa sl P N (A1 & A2 & A3 & A4 & A5 & A6). do 5 (split; [assumption|]). rewrite A6. apply proc_cons. exact N. }
  induction l as [|o l IH]; intros v HA.
  - exists v. cbn [options asks existsb fold_left In]. rewrite !orb_false_r. do 6 (split; [reflexivity|]). split; [intros H; split; [exact H|intros p []]|intros (H & _); exact H].
  - inversion_clear HA. destruct o as [| | |tag [w|]|arg|arg|]; cbn [accepted] in H; try contradiction.
    + destruct (IH (mkVars (v_set_tag v) (v_set_all v) true (v_tag v) (v_level v) (v_proc v)) H0) as (v' & E & A). exists v'. split; [exact E|].
      cbn [asks existsb fold_left]. rewrite !orb_true_r, ?orb_false_l. apply (FIN (OList)) with (2 := A). discriminate.
    + destruct (IH v H0) as (v' & E & A). exists v'. split; [exact E|]. apply (FIN (OColor)) with (2 := A). discriminate.
    + destruct (word_first w H) as (F1 & F2 & F3). destruct (IH (mkVars true (v_set_all v) (v_list v) tag (char2level (first w)) (v_proc v)) H0) as (v' & E & A). exists v'. cbn [options].
      destruct (Z.eqb_spec (first w) 45); [contradiction|]. rewrite F1 in *. rewrite (proj2 (Z.ltb_ge _ _) F2). split; [exact E|].
      cbn [asks existsb fold_left]. rewrite !orb_true_r, ?orb_false_l. apply (FIN (OTag tag (Some w))) with (2 := A). discriminate.
    + destruct (word_first arg H) as (F1 & F2 & F3). destruct (IH (mkVars (v_set_tag v) true (v_list v) (v_tag v) (char2level (first arg)) (v_proc v)) H0) as (v' & E & A). exists v'. cbn [options].
      rewrite F1 in *. rewrite (proj2 (Z.ltb_ge _ _) F2). split; [exact E|].
      cbn [asks existsb fold_left]. rewrite !orb_true_r, ?orb_false_l. apply (FIN (OAll arg)) with (2 := A). discriminate.
    + destruct (IH (mkVars (v_set_tag v) (v_set_all v) (v_list v) (v_tag v) (v_level v) (Some arg)) H0) as (v' & E & A1 & A2 & A3 & A4 & A5 & A6). exists v'. split; [exact E|].
      do 5 (split; [assumption|]). rewrite A6. cbn [v_proc]. split; intros (X & Y); [discriminate|]. exfalso. apply (Y arg). now left.
Qed.

(** When the options ask for one thing, that is what the tool asks the server. *)
Theorem C93_request_partial : forall l a addr, Forall accepted l -> asks l = [a] -> addr = Some true \/ addr = None /\ (exists p, In (OProc p) l) ->
  main l addr true 0 = Asks (as_req a).
Proof.
  intros l a addr HA HL HP. destruct (options_ok l vars0 HA) as (v & E & A1 & A2 & A3 & A4 & A5 & A6). unfold main. rewrite E.
  assert (R : request v = Some (as_req a)).
  { unfold request. rewrite A1, A2, A3, A4, A5, HL. destruct a; reflexivity. }
  rewrite R. cbn [negb]. change (0 <? 0) with false. cbv iota.
  destruct HP as [->|(-> & p & Hp)]; [reflexivity|]. destruct (v_proc v) eqn:EV; [reflexivity|]. exfalso. destruct (proj1 A6 eq_refl) as (_ & N). exact (N p Hp).
Qed.
Example C93_request_ex : main [OColor; OTag (bytes_of_string "net") (Some (bytes_of_string "Debug")); OProc (bytes_of_string "drone")] None true 0 = Asks (RSetTag (bytes_of_string "net") 7) /\
  accepted (OTag (bytes_of_string "net") (Some (bytes_of_string "Debug"))).
Proof. split; [reflexivity|]. exists 68, (bytes_of_string "ebug"). split; [reflexivity|discriminate]. Qed.

(** False for two: of a tag and all tags, the tag is set, to the level meant for all. *)
Theorem C93_two_refuted : exists l, Forall accepted l /\ asks l = [AskTag (bytes_of_string "net") 7; AskAll 3] /\
  main l (Some true) true 0 = Asks (RSetTag (bytes_of_string "net") 3).
Proof.
  exists [OTag (bytes_of_string "net") (Some [68]); OAll [69]]. split; [|split; reflexivity].
  repeat constructor; [exists 68, []|exists 69, []]; (split; [reflexivity|discriminate]).
Qed.
(** With nothing asked, or a request that the library refuses, the tool waits for ever; and its exit code
    is that of a success when the address is wrong or the client cannot start. *)
Theorem C93_ends_refuted : main [] (Some true) true 0 = Waits /\ main [OList] (Some true) true (-12) = Waits /\
  main [OList] (Some false) true 0 = Exit 0 /\ main [OList] (Some true) false 0 = Exit 0.
Proof. repeat split. Qed.
(** A tag at level Alert or Emergency is listed without its level. *)
Theorem C93_high_levels_refuted : exists l, 0 <= l <= 7 /\ level2char l = 63 /\ exists m, m <> l /\ 0 <= m <= 7 /\ level2char m = 63.
Proof. exists 0. split; [lia|]. split; [reflexivity|]. exists 1. split; [lia|]. split; [lia|reflexivity]. Qed.

Print Assumptions C92_unix_partial.
Print Assumptions C92_process.
Print Assumptions C92_distinct.
Print Assumptions C92_long_refuted.
Print Assumptions C92_cut_name_refuted.
Print Assumptions C92_no_context_refuted.
Print Assumptions C93_letters.
Print Assumptions C93_request_partial.
Print Assumptions C93_two_refuted.
Print Assumptions C93_ends_refuted.
Print Assumptions C93_high_levels_refuted.
