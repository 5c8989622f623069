(** C144: what one learns from a line of ulogcat in each of its text formats, colours and labels. Vocabulary:
    FormatsSpec.v ([read_line], [lesson], [legible], [between_bars], [paint]), ScreenReadSpec.v ([rows]). *)
From Coq Require Import ZArith String List Bool Lia ZifyBool ZifyNat Arith.
From Verif Require Import Bytes BytesProofs Render RenderSpec RenderProofs ProgramSpec CsvSpec ScreenReadSpec FormatsSpec.
From Verif Require PropsRender PropsProgram PropsCsv PropsScreenRead.
Import ListNotations.
Open Scope Z_scope.

Lemma until_none c l : ~ In c l -> until c l = None.
Proof.
  induction l as [|x l IH]; intros H; [reflexivity|]. cbn [until]. destruct (Z.eqb_spec x c) as [->|]; [exfalso; apply H; now left|].
  rewrite IH; [reflexivity|]. intros X. apply H. now right.
Qed.
Lemma last_dash_none l : ~ In 45 l -> last_dash l = None.
Proof.
  induction l as [|c l IH]; intros H; [reflexivity|]. cbn [last_dash]. rewrite IH by (intros X; apply H; now right).
  destruct (Z.eqb_spec c 45) as [->|]; [exfalso; apply H; now left|reflexivity].
Qed.
Lemma last_dash_app a b : ~ In 45 b -> last_dash (a ++ 45 :: b) = Some (a, b).
Proof.
  intros H. induction a as [|c a IH]; cbn [app last_dash]; [now rewrite last_dash_none|]. now rewrite IH.
Qed.
Lemma dec_pos v : 0 <= v < 2 ^ 31 -> ~ In 10 (dec_d v) /\ ~ In 41 (dec_d v) /\ ~ In 45 (dec_d v) /\ ~ In 47 (dec_d v) /\ zlen (dec_d v) <= 10 /\ dec_value (dec_d v) = v.
Proof.
  intros H. assert (R : forall c, In c (dec_d v) -> 48 <= c <= 57).
  { intros c. unfold dec_d, dec_u. destruct (Z.ltb_spec v 0); [lia|]. apply dec_digits_range. lia. }
  repeat split; try (intros X; apply R in X; lia).
  - unfold dec_d, dec_u. destruct (Z.ltb_spec v 0); [lia|]. apply (RenderProofs.dec_digits_len 20 v 10); [change (10 ^ Z.of_nat 10) with 10000000000; lia|lia].
  - apply dec_d_value. lia.
Qed.

Lemma notin_app {A} (x : A) a b : ~ In x a -> ~ In x b -> ~ In x (a ++ b).
Proof. intros H1 H2 X. apply in_app_or in X. destruct X; auto. Qed.
Lemma notin_one (x y : Z) : x <> y -> ~ In x [y].
Proof. intros H [X|[]]. auto. Qed.
Lemma notin_spaces x n : x <> 32 -> ~ In x (zrepeat 32 n).
Proof. intros H X. unfold zrepeat in X. apply repeat_spec in X. auto. Qed.
Lemma notin_cons (x y : Z) l : x <> y -> ~ In x l -> ~ In x (y :: l).
Proof. intros H N [X|X]; auto. Qed.
Lemma notin_padr x n l : x <> 32 -> ~ In x l -> ~ In x (padr n l).
Proof. intros H N. unfold padr. apply notin_app; [exact N|now apply notin_spaces]. Qed.
Ltac no10 := cbn [app]; repeat first [solve [auto 2] | apply notin_cons; [first [discriminate | assumption | apply not_eq_sym; assumption]|] | apply notin_app | apply notin_padr; [discriminate|] | now apply notin_spaces | intros []; fail | solve [auto]].
(** The people, as printed. *)
Definition crew (long : bool) (u : uentry) : list Z :=
  let one name n := name ++ (if long then [45] ++ dec_d n else []) in
  one (u_pname u) (u_pid u) ++ (if u_pid u =? u_tid u then [] else [47] ++ one (u_tname u) (u_tid u)).
Lemma person_ok (long : bool) name n : 0 <= n < 2 ^ 31 -> read_person long (name ++ (if long then 45 :: dec_d n else [])) = Some (name, if long then Some n else None).
Proof.
  intros H. unfold read_person. destruct long; [|now rewrite app_nil_r]. cbn [app]. destruct (dec_pos n H) as (_ & _ & D & _ & _ & V).
  rewrite last_dash_app by exact D. now rewrite V.
Qed.
Lemma crew_notin (long : bool) u x : legible u -> x <> 45 -> x <> 47 -> (In x [10; 41]) -> ~ In x (crew long u).
Proof.
  intros [lg_text0 lg_prio0 lg_nsec0 lg_pid0 lg_tid0 lg_tag0 lg_pname0 lg_tname0] H1 H2 H3. destruct (dec_pos _ lg_pid0) as (A & B & _ & _ & _ & _). destruct (dec_pos _ lg_tid0) as (A' & B' & _ & _ & _ & _).
  destruct lg_pname0 as (P1 & P2 & _ & _). destruct lg_tname0 as (T1 & T2 & _ & _).
  unfold crew. destruct H3 as [<-|[<-|[]]]; repeat apply notin_app; auto; try (destruct long; [apply notin_app; [now apply notin_one|auto]|intros []]);
    (destruct (_ =? _); [intros []|]; repeat apply notin_app; auto; try (now apply notin_one); destruct long; [apply notin_app; [now apply notin_one|auto]|intros []]).
Qed.
Lemma crew_read (long : bool) u : legible u -> read_people long (crew long u) =
  Some ((u_pname u, if long then Some (u_pid u) else None), if u_pid u =? u_tid u then None else Some (u_tname u, if long then Some (u_tid u) else None)).
Proof.
  intros [lg_text0 lg_prio0 lg_nsec0 lg_pid0 lg_tid0 lg_tag0 lg_pname0 lg_tname0]. destruct (dec_pos _ lg_pid0) as (_ & _ & _ & B & _ & _). destruct lg_pname0 as (_ & _ & P3 & _).
  assert (N : ~ In 47 (u_pname u ++ (if long then [45] ++ dec_d (u_pid u) else []))).
  { apply notin_app; [exact P3|]. destruct long; [apply notin_app; [now apply notin_one|exact B]|intros []]. }
  unfold read_people, crew. destruct (Z.eqb_spec (u_pid u) (u_tid u)) as [E|E].
  - rewrite app_nil_r, (until_none _ _ N). cbn [app]. rewrite person_ok by exact lg_pid0. reflexivity.
  - cbn [app]. rewrite PropsCsv.until_app by exact N. rewrite !person_ok by auto. reflexivity.
Qed.
Lemma crew_len (long : bool) u : legible u -> zlen (crew long u) <= 55.
Proof.
  intros [lg_text0 lg_prio0 lg_nsec0 lg_pid0 lg_tid0 lg_tag0 lg_pname0 lg_tname0]. destruct (dec_pos _ lg_pid0) as (_ & _ & _ & _ & L & _). destruct (dec_pos _ lg_tid0) as (_ & _ & _ & _ & L' & _).
  destruct lg_pname0 as (_ & _ & _ & P). destruct lg_tname0 as (_ & _ & _ & T).
  unfold crew. destruct (_ =? _), long; rewrite ?zlen_app; change (zlen [45]) with 1; change (zlen [47]) with 1; change (zlen (@nil Z)) with 0; lia.
Qed.
(** The part of a line between the tag and the text, with the names. *)
Lemma read_names f time c tag inner pad text who : f <> FShort -> (forall r, tag <> r ++ [32]) -> ~ In 40 tag -> ~ In 41 inner -> read_people (is_long f) inner = Some who ->
  read_body f time (c :: 32 :: padr 12 tag ++ [40] ++ inner ++ [41] ++ zrepeat 32 pad ++ [58; 32] ++ text) = Some (mkLearnt time c tag (Some who) text).
Proof.
  intros F S T I W. unfold read_body, padr. cbn [app].
  rewrite (PropsCsv.until_app 40 (tag ++ zrepeat 32 (12 - zlen tag))) by (apply notin_app; [exact T|now apply notin_spaces]).
  rewrite (PropsCsv.until_app 41 inner) by exact I. rewrite (PropsCsv.until_app 58 (zrepeat 32 pad)) by now apply notin_spaces.
  rewrite W. unfold zrepeat. rewrite PropsScreenRead.rstrip_spaces, PropsScreenRead.rstrip_app by exact S. destruct f; [now elim F|reflexivity..].
Qed.
Lemma read_short time c tag text : (forall r, tag <> r ++ [32]) -> ~ In 58 tag ->
  read_body FShort time (c :: 32 :: padr 12 tag ++ [58; 32] ++ text) = Some (mkLearnt time c tag None text).
Proof.
  intros S T. unfold read_body, padr. cbn [app]. rewrite (PropsCsv.until_app 58 (tag ++ zrepeat 32 (12 - zlen tag))) by (apply notin_app; [exact T|now apply notin_spaces]).
  unfold zrepeat. now rewrite PropsScreenRead.rstrip_app.
Qed.
Lemma read_padded n time c tag text : (forall r, tag <> r ++ [32]) -> ~ In 58 tag ->
  read_body FShort time (c :: 32 :: padr n tag ++ [58; 32] ++ text) = Some (mkLearnt time c tag None text).
Proof.
  intros S T. unfold read_body, padr. cbn [app]. rewrite (PropsCsv.until_app 58 (tag ++ zrepeat 32 (n - zlen tag))) by (apply notin_app; [exact T|now apply notin_spaces]).
  unfold zrepeat. now rewrite PropsScreenRead.rstrip_app.
Qed.
Lemma ms_read v : 0 <= v < 10 ^ 9 -> exists a b c, dec_pad 3 (Z.quot v 1000000) = [a; b; c] /\ num_value 10 [a; b; c] = v / 1000000 /\ ~ In 10 [a; b; c].
Proof.
  intros H. rewrite Z.quot_div_nonneg by lia. assert (B : 0 <= v / 1000000 < 1000) by (split; [apply Z.div_pos; lia|apply Z.div_lt_upper_bound; lia]).
  set (w := v / 1000000) in *. unfold dec_pad. destruct (Z.ltb_spec w 0); [lia|].
  pose proof (dec_digits_num 20 w) as V. assert (R : forall c, In c (dec_u w) -> 48 <= c <= 57) by (intros c; apply dec_digits_range; lia).
  assert (L : zlen (dec_u w) <= 3) by (apply (RenderProofs.dec_digits_len 20 w 3); [change (10 ^ Z.of_nat 3) with 1000; lia|lia]).
  assert (V' : num_value 10 (pad0 3 (dec_u w)) = w).
  { unfold pad0. rewrite num_zeros. apply V. change (10 ^ Z.of_nat 20) with 100000000000000000000. lia. }
  assert (L' : zlen (pad0 3 (dec_u w)) = 3) by (unfold pad0; rewrite zlen_app, zlen_zrepeat; pose proof (zlen_nonneg (dec_u w)); lia).
  assert (R' : ~ In 10 (pad0 3 (dec_u w))).
  { unfold pad0. apply notin_app; [|intros X; apply R in X; lia]. intros X. unfold zrepeat in X. apply repeat_spec in X. lia. }
  destruct (pad0 3 (dec_u w)) as [|a [|b [|c [|d r]]]]; unfold zlen in L'; cbn [length] in L'; try lia. exists a, b, c. auto.
Qed.
Definition bare (f : format) (time : list Z) : opts := mkO f false [] false time.
Lemma prio_same p : 0 <= p < 8 -> znth p priotab = prio_letter p /\ prio_letter p <> 10.
Proof.
  intros H. assert (C : p = 0 \/ p = 1 \/ p = 2 \/ p = 3 \/ p = 4 \/ p = 5 \/ p = 6 \/ p = 7) by lia.
  repeat destruct C as [->|C]; try (split; [reflexivity|discriminate]). subst p. split; [reflexivity|discriminate].
Qed.
Lemma zlen_padr n s : zlen (padr n s) = Z.max n (zlen s).
Proof. unfold padr. rewrite zlen_app, zlen_zrepeat. lia. Qed.
Lemma padr_45 s : padr 45 s = s ++ zrepeat 32 (45 - zlen s).
Proof. reflexivity. Qed.
Lemma local_all n s : zlen s < n -> local_str n s = s.
Proof. intros H. unfold local_str. apply ztake_all. lia. Qed.
Lemma parts_read f time u : f <> FCsv -> ~ In 46 time -> ~ In 10 time -> legible u ->
  exists pre, ulog_parts (bare f time) u = Ok (pre, [10]) /\ ~ In 10 pre /\ forall text, read_line f (pre ++ text) = Some (lesson f time u text).
Proof.
  intros F T46 T10 L. pose proof L as [lg_text0 lg_prio0 lg_nsec0 lg_pid0 lg_tid0 lg_tag0 lg_pname0 lg_tname0]. destruct (prio_same _ lg_prio0) as [PL PN]. destruct lg_tag0 as (G1 & G2 & G3 & G4 & G5).
  unfold ulog_parts. destruct (Z.ltb_spec (u_prio u) 0); [lia|]. destruct (Z.leb_spec 8 (u_prio u)); [lia|]. cbn [orb]. unfold bare. cbn [o_color o_label o_fmt o_time app]. rewrite PL.
  assert (NT : ~ In 10 (padr 12 (u_tag u))) by (unfold padr; apply notin_app; [exact G1|now apply notin_spaces]).
  assert (NC : forall long, ~ In 10 (crew long u)) by (intros; apply crew_notin; auto; try discriminate; cbn; auto).
  assert (N41 : forall long, ~ In 41 (crew long u)) by (intros; apply crew_notin; auto; try discriminate; cbn; auto).
  assert (ID : ident u = crew false u) by (unfold ident, crew; destruct (_ =? _); rewrite !app_nil_r; auto).
  assert (W : forall long, zlen (padr 12 (u_tag u) ++ [40] ++ crew long u ++ [41]) < 128).
  { intros long. pose proof (crew_len long u L). rewrite !zlen_app, zlen_padr. change (zlen [40]) with 1. change (zlen [41]) with 1. lia. }
  destruct f; try (now elim F); rewrite ?ID.
  all: match goal with |- exists pre, Ok (?p, _) = _ /\ _ => idtac end.
  - eexists. split; [reflexivity|]. split; [no10|].
    intros text. unfold read_line. cbn [is_long app]. rewrite <- app_assoc. rewrite read_short by auto. reflexivity.
  - rewrite local_all by apply W. eexists. split; [reflexivity|]. split; [no10|].
    intros text. unfold read_line. cbn [is_long app]. rewrite padr_45. repeat (rewrite <- app_assoc; cbn [app]).
    pose proof (fun pad => read_names FAligned None (prio_letter (u_prio u)) (u_tag u) (crew false u) pad text _ ltac:(discriminate) G4 G2 (N41 false) (crew_read false u L)) as R. cbn [app] in R. rewrite R. reflexivity.
  - eexists. split; [reflexivity|]. split; [no10|].
    intros text. unfold read_line. cbn [is_long app].
    pose proof (read_names FProcess None (prio_letter (u_prio u)) (u_tag u) (crew false u) 0 text _ ltac:(discriminate) G4 G2 (N41 false) (crew_read false u L)) as R.
    repeat (rewrite <- app_assoc; cbn [app]). cbn [app zrepeat repeat Z.to_nat] in R. exact R.
  - destruct (ms_read _ lg_nsec0) as (a & b & c & E & V & N10). rewrite E. assert (Na : 10 <> a) by (intros X; apply N10; rewrite <- X; cbn; tauto). assert (Nb : 10 <> b) by (intros X; apply N10; rewrite <- X; cbn; tauto). assert (Nc : 10 <> c) by (intros X; apply N10; rewrite <- X; cbn; tauto).
    set (inner := if u_pid u =? u_tid u then _ else _).
    assert (EI : inner = padr 12 (u_tag u) ++ [40] ++ crew true u ++ [41]).
    { unfold inner, crew. destruct (_ =? _); rewrite ?app_nil_r; rewrite <- ?app_assoc; reflexivity. }
    rewrite EI. rewrite local_all by apply W.
    eexists. split; [reflexivity|]. split; [no10|].
    intros text. unfold read_line. cbn [is_long]. repeat (rewrite <- app_assoc; cbn [app]). rewrite PropsCsv.until_app by exact T46.
    rewrite padr_45. repeat (rewrite <- app_assoc; cbn [app]).
    pose proof (fun pad => read_names FLong (Some (time, num_value 10 [a; b; c])) (prio_letter (u_prio u)) (u_tag u) (crew true u) pad text _ ltac:(discriminate) G4 G2 (N41 true) (crew_read true u L)) as R. cbn [app] in R.
    rewrite R, V. reflexivity.
Qed.
Lemma kparts_read f time u : f <> FCsv -> ~ In 46 time -> ~ In 10 time -> legible u ->
  exists pre, klog_parts (bare f time) u = Ok (pre, [10]) /\ ~ In 10 pre /\ forall text, read_kernel f (pre ++ text) = Some (kernel_lesson f time u text).
Proof.
  intros F T46 T10 L. pose proof L as [lg_text0 lg_prio0 lg_nsec0 lg_pid0 lg_tid0 lg_tag0 lg_pname0 lg_tname0]. destruct (prio_same _ lg_prio0) as [PL PN]. destruct lg_tag0 as (G1 & G2 & G3 & G4 & G5).
  unfold klog_parts. destruct (Z.ltb_spec (u_prio u) 0); [lia|]. destruct (Z.leb_spec 8 (u_prio u)); [lia|]. cbn [orb]. unfold bare. cbn [o_color o_label o_fmt o_time app]. rewrite PL.
  destruct f; try (now elim F).
  - eexists. split; [reflexivity|]. split; [no10|].
    intros text. unfold read_kernel. cbn [is_long app]. rewrite <- app_assoc. rewrite read_short by auto. reflexivity.
  - eexists. split; [reflexivity|]. split; [no10|].
    intros text. unfold read_kernel. cbn [is_long app]. rewrite <- app_assoc. rewrite (read_padded 45) by auto. reflexivity.
  - eexists. split; [reflexivity|]. split; [no10|].
    intros text. unfold read_kernel. cbn [is_long app]. rewrite <- app_assoc. rewrite read_short by auto. reflexivity.
  - destruct (ms_read _ lg_nsec0) as (a & b & c & E & V & N10). rewrite E. assert (Na : 10 <> a) by (intros X; apply N10; rewrite <- X; cbn; tauto). assert (Nb : 10 <> b) by (intros X; apply N10; rewrite <- X; cbn; tauto). assert (Nc : 10 <> c) by (intros X; apply N10; rewrite <- X; cbn; tauto).
    eexists. split; [reflexivity|]. split; [no10|].
    intros text. unfold read_kernel. cbn [is_long]. repeat (rewrite <- app_assoc; cbn [app]). rewrite PropsCsv.until_app by exact T46.
    pose proof (read_padded 45 (Some (time, num_value 10 [a; b; c])) (prio_letter (u_prio u)) (u_tag u) text G4 G3) as R. cbn [app] in R.
    rewrite R, V. reflexivity.
Qed.
Lemma parts_dress klog o u pre : 0 <= u_prio u < 8 -> parts klog (bare (o_fmt o) (o_time o)) u = Ok (pre, [10]) ->
  exists p post, parts klog o u = Ok (p, post) /\ forall l, p ++ l ++ post = dress klog (o_color o) (o_label o) (nth (Z.to_nat (u_prio u)) (o_colors o) []) (pre ++ l) ++ [10].
Proof.
  intros P H. unfold parts, klog_parts, ulog_parts, bare in *. cbn [o_color o_label o_fmt o_time app] in H.
  destruct (Z.ltb_spec (u_prio u) 0); [lia|]. destruct (Z.leb_spec 8 (u_prio u)); [lia|]. cbn [orb] in *. unfold dress.
  destruct klog; injection H as <-; do 2 eexists; (split; [reflexivity|]); intros l;
    destruct (o_fmt o), (o_color o), (o_label o); cbn [app]; repeat (rewrite <- app_assoc; cbn [app]); reflexivity.
Qed.

(** Each line of the text of an entry is printed as one line, and is read back with the time (in the long
    format), the level, the tag, the process and the thread (in the formats that show them, with their numbers
    in the long one), and the text; around it are the colours and the label that were asked for. *)
Theorem C144_lines_partial : forall (klog : bool) (o : opts) (u : uentry), legible u -> o_fmt o <> FCsv -> ~ In 46 (o_time o) -> ~ In 10 (o_time o) ->
  let start := nth (Z.to_nat (u_prio u)) (o_colors o) (@nil Z) in ~ In 10 start ->
  exists bodies : list (list Z),
    map (fun b => if klog then read_kernel (o_fmt o) b else read_line (o_fmt o) b) bodies =
      map (fun l => Some (if klog then kernel_lesson (o_fmt o) (o_time o) u l else lesson (o_fmt o) (o_time o) u l)) (lines_in (u_msg u)) /\
    let text := concat (map (fun b => dress klog (o_color o) (o_label o) start b ++ [10]) bodies) in
    rows text = map (dress klog (o_color o) (o_label o) start) bodies /\
    (zlen text < 5248 -> text_render klog o u = Ok (Some (map Some text))).
Proof.
  intros klog o u L F T46 T10 start S10. pose proof L as [B P _ _ _ _ _ _].
  assert (X : exists pre, parts klog (bare (o_fmt o) (o_time o)) u = Ok (pre, [10]) /\ ~ In 10 pre /\
    forall text, (if klog then read_kernel (o_fmt o) (pre ++ text) else read_line (o_fmt o) (pre ++ text)) = Some (if klog then kernel_lesson (o_fmt o) (o_time o) u text else lesson (o_fmt o) (o_time o) u text)).
  { unfold parts. destruct klog; [now apply kparts_read|now apply parts_read]. }
  destruct X as (pre & E & N & R). exists (map (fun l => pre ++ l) (lines_in (u_msg u))). split.
  { rewrite map_map. apply map_ext. exact R. }
  intros text. assert (ET : text = concat (map (fun l => dress klog (o_color o) (o_label o) start (pre ++ l) ++ [10]) (lines_in (u_msg u)))) by (unfold text; now rewrite map_map).
  split.
  - rewrite ET. rewrite <- (app_nil_r (concat _)). rewrite (PropsScreenRead.rows_all (fun l => dress klog (o_color o) (o_label o) start (pre ++ l))).
    + cbn [rows]. rewrite app_nil_r, map_map. reflexivity.
    + intros l Hl. apply PropsScreenRead.lines_no10 in Hl. unfold dress. destruct (o_color o), (o_label o), klog; cbn [bytes_of_string]; no10; cbn; intuition discriminate.
  - intros Z. destruct (parts_dress klog o u pre P E) as (p & post & E' & D).
    destruct (text_render_text klog o u F B P) as (p2 & post2 & ls & E2 & L2 & _ & ->). rewrite E' in E2. injection E2 as <- <-.
    rewrite <- (PropsRender.C48_lines_unique _ _ _ (PropsProgram.lines_in_ok _) L2).
    assert (FT : full_text p post (lines_in (u_msg u)) = text) by (rewrite ET; unfold full_text; f_equal; apply map_ext; exact D).
    rewrite FT. unfold cut. destruct (Z.leb_spec text_render_size 0) as [Y|_]; [unfold text_render_size in Y; lia|].
    destruct (Z.ltb_spec (zlen text) text_render_size) as [_|Y]; [reflexivity|unfold text_render_size in Y; lia].
Qed.

Lemma strsep_app a r : ~ In 124 a -> strsep_bar (a ++ 124 :: r) = (a, Some r).
Proof.
  induction a as [|c a IH]; intros H; [reflexivity|]. cbn [app strsep_bar]. destruct (Z.eqb_spec c 124) as [->|]; [exfalso; apply H; now left|].
  rewrite IH; [reflexivity|]. intros X. apply H. now right.
Qed.
Lemma strsep_end a : ~ In 124 a -> strsep_bar a = (a, None).
Proof.
  induction a as [|c a IH]; intros H; [reflexivity|]. cbn [strsep_bar]. destruct (Z.eqb_spec c 124) as [->|]; [exfalso; apply H; now left|].
  rewrite IH; [reflexivity|]. intros X. apply H. now right.
Qed.
Lemma setup_none n : setup_colors n None = repeat [] n.
Proof. induction n; [reflexivity|]. cbn [setup_colors repeat]. now rewrite IHn. Qed.
(** The colours of the eight levels are the fields of ULOGCAT_COLORS, in their order; those missing are none. *)
Theorem C144_colours : forall fields, fields <> [] -> (length fields <= 8)%nat -> Forall (fun f => ~ In 124 f /\ zlen f <= 28) fields ->
  setup_colors 8 (Some (between_bars fields)) = map paint fields ++ repeat [] (8 - length fields).
Proof.
  intros fields. generalize 8%nat as n. induction fields as [|f fields IH]; intros n H L F; [now elim H|].
  destruct n as [|n]; [cbn in L; lia|]. inversion F as [|? ? [F1 F2] F3]; subst.
  assert (EP : match f with [] => [] | _ => local_str 32 ([27; 91] ++ f ++ [109]) end = paint f).
  { unfold paint. destruct f as [|c f]; [reflexivity|]. apply local_all. rewrite !zlen_app. change (zlen [27; 91]) with 2. change (zlen [109]) with 1. lia. }
  destruct fields as [|g fields].
  - cbn [between_bars map length setup_colors]. rewrite strsep_end by exact F1. rewrite EP, setup_none. now replace (S n - 1)%nat with n by lia.
  - change (between_bars (f :: g :: fields)) with (f ++ 124 :: between_bars (g :: fields)). cbn [setup_colors]. rewrite strsep_app by exact F1. rewrite EP.
    rewrite (IH n); [reflexivity|discriminate|cbn [length] in *; lia|exact F3].
Qed.

(** A tag with a parenthesis makes the line say that another process wrote it, and a message of its own. *)
Theorem C144_forged_refuted : exists o evil init, u_bin evil = false /\ u_bin init = false /\ o_fmt o <> FCsv /\ u_pname evil <> u_pname init /\ legible init /\
  (forall r, u_tag evil <> r ++ [32]) /\ ~ In 58 (u_tag init) /\
  exists text, text_render false o evil = Ok (Some (map Some text)) /\ text_render false o init = Ok (Some (map Some text)).
Proof.
  exists (mkO FProcess false [] false []),
    (mkU 0 0 6 66 (bytes_of_string "evil") 66 (bytes_of_string "evil") (bytes_of_string "sshd        (init): login ok") (bytes_of_string "bye") false 0),
    (mkU 0 0 6 1 (bytes_of_string "init") 1 (bytes_of_string "init") (bytes_of_string "sshd") (bytes_of_string "login ok(evil): bye") false 0).
  assert (NS : forall l : list Z, last l 0 <> 32 -> forall r, l <> r ++ [32]) by (intros l H r ->; apply H; apply last_last).
  split; [reflexivity|]. split; [reflexivity|]. split; [discriminate|]. split; [discriminate|]. split.
  { constructor; try reflexivity; cbn -[Z.pow]; try lia.
    - repeat split; try (cbn; intuition discriminate). apply NS. discriminate.
    - repeat split; cbn; intuition discriminate.
    - repeat split; cbn; intuition discriminate. }
  split; [apply NS; discriminate|]. split; [cbn; intuition discriminate|].
  exists (bytes_of_string "I sshd        (init): login ok(evil): bye" ++ [10]).
  split.
  - destruct (text_render_text false (mkO FProcess false [] false []) (mkU 0 0 6 66 (bytes_of_string "evil") 66 (bytes_of_string "evil") (bytes_of_string "sshd        (init): login ok") (bytes_of_string "bye") false 0)) as (p & q & ls & E & _ & -> & R);
      [discriminate|reflexivity|cbn; lia|]. rewrite R. vm_compute in E. injection E as <- <-. vm_compute. reflexivity.
  - destruct (text_render_text false (mkO FProcess false [] false []) (mkU 0 0 6 1 (bytes_of_string "init") 1 (bytes_of_string "init") (bytes_of_string "sshd") (bytes_of_string "login ok(evil): bye") false 0)) as (p & q & ls & E & _ & -> & R);
      [discriminate|reflexivity|cbn; lia|]. rewrite R. vm_compute in E. injection E as <- <-. vm_compute. reflexivity.
Qed.

(** An entry of a thread, in the long format, with colours and labels. *)
Definition ex_u : uentry := mkU 0 7000000 3 12 (bytes_of_string "a-b") 34 (bytes_of_string "w-1") (bytes_of_string "net") (bytes_of_string "one" ++ [10] ++ bytes_of_string "two") false 0.
Example C144_ex : legible ex_u /\ ~ In 46 (bytes_of_string "11-16 18:00:00") /\
  read_line FLong (bytes_of_string "11-16 18:00:00.007 E net         (a-b-12/w-1-34)  : one") = Some (lesson FLong (bytes_of_string "11-16 18:00:00") ex_u (bytes_of_string "one")) /\
  lines_in (u_msg ex_u) = [bytes_of_string "one"; bytes_of_string "two"] /\
  between_bars (map bytes_of_string [""; ""; "4;1;31"; "1;31"]%string) = bytes_of_string "||4;1;31|1;31" /\
  nth 3 (setup_colors 8 (Some (bytes_of_string "||4;1;31|1;31"))) [] = 27 :: bytes_of_string "[1;31m".
Proof.
  assert (NS : forall l : list Z, last l 0 <> 32 -> forall r, l <> r ++ [32]) by (intros l H r ->; apply H; apply last_last).
  split; [|split; [cbn; intuition discriminate|split; [vm_compute; reflexivity|repeat split; vm_compute; reflexivity]]].
  constructor; try reflexivity; cbn -[Z.pow]; try lia.
  - repeat split; try (cbn; intuition discriminate). apply NS. discriminate.
  - repeat split; cbn; intuition discriminate.
  - repeat split; cbn; intuition discriminate.
Qed.
Print Assumptions C144_lines_partial.
Print Assumptions C144_colours.
Print Assumptions C144_forged_refuted.
