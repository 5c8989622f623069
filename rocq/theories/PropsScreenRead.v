(** C143: what one learns from the text that ulogcat prints. Vocabulary: ScreenReadSpec.v ([read_screen], [tells],
    [clear], [missing], [printable]), SaidSpec.v, SaidRunSpec.v. *)
From Coq Require Import ZArith String List Bool Lia ZifyBool ZifyNat Arith.
From Verif Require Import Bytes BytesProofs Ring RingSpec RingHistory Parse ParseSpec Iov Cat CatSpec Render Live LiveSpec SaidSpec Program ProgramSpec
  SaidRunSpec SaidScreen CsvSpec ScreenReadSpec.
From Verif Require PropsCsv PropsProgram.
Import ListNotations.
Open Scope Z_scope.

Lemma rows_line a r : ~ In 10 a -> rows (a ++ 10 :: r) = a :: rows r.
Proof.
  induction a as [|c a IH]; intros H; [reflexivity|]. cbn [app rows]. destruct (Z.eqb_spec c 10) as [->|]; [exfalso; apply H; now left|].
  rewrite IH; [reflexivity|]. intros X. apply H. now right.
Qed.
Lemma rows_all (f : list Z -> list Z) ls r : (forall l, In l ls -> ~ In 10 (f l)) -> rows (concat (map (fun l => f l ++ [10]) ls) ++ r) = map f ls ++ rows r.
Proof.
  induction ls as [|l ls IH]; intros H; [reflexivity|]. cbn [map concat]. rewrite <- !app_assoc. cbn [app].
  rewrite rows_line by (apply H; now left). rewrite IH; [reflexivity|]. intros x Hx. apply H. now right.
Qed.
Lemma lines_no10 m : forall l, In l (lines_in m) -> ~ In 10 l.
Proof.
  induction m as [|c r IH]; cbn [lines_in]; intros l H.
  - destruct H as [<-|[]]. intros [].
  - destruct (Z.eqb_spec c 10).
    + destruct r; [destruct H as [<-|[]]; intros []|]. destruct H as [<-|H]; [intros []|auto].
    + destruct (lines_in r) as [|x xs].
      * destruct H as [<-|[]]. intros [X|[]]. auto.
      * destruct H as [<-|H]; [|apply IH; now right]. intros [X|X]; [auto|]. revert X. apply IH. now left.
Qed.
Lemma rstrip_spaces n : rstrip (repeat 32 n) = [].
Proof. induction n as [|n IH]; [reflexivity|]. cbn [repeat rstrip]. now rewrite IH. Qed.
Lemma rstrip_app tag n : (forall t, tag <> t ++ [32]) -> rstrip (tag ++ repeat 32 n) = tag.
Proof.
  induction tag as [|c tag IH]; intros H; [apply rstrip_spaces|]. cbn [app rstrip].
  destruct tag as [|d tag].
  - cbn [app]. rewrite rstrip_spaces. destruct (Z.eqb_spec c 32) as [->|]; [exfalso; apply (H []); reflexivity|reflexivity].
  - rewrite IH; [reflexivity|]. intros t E. apply (H (c :: t)). cbn [app]. now rewrite E.
Qed.
Lemma row_label p tag text : clear tag -> row (label p tag ++ text) = Some (letter p, tag, text).
Proof.
  intros (_ & C & S). unfold label. cbn [app row]. rewrite <- !app_assoc.
  replace (tag ++ repeat 32 (12 - length tag) ++ [58; 32] ++ text) with ((tag ++ repeat 32 (12 - length tag)) ++ 58 :: 32 :: text) by (rewrite <- app_assoc; reflexivity).
  rewrite PropsCsv.until_app.
  - now rewrite rstrip_app.
  - intros X. apply in_app_or in X. destruct X as [X|X]; [auto|]. apply repeat_spec in X. discriminate X.
Qed.
Lemma letter_not10 p : letter p <> 10.
Proof.
  unfold letter. assert (H : 0 <= p mod 8 < 8) by (apply Z.mod_pos_bound; lia).
  assert (C : p mod 8 = 0 \/ p mod 8 = 1 \/ p mod 8 = 2 \/ p mod 8 = 3 \/ p mod 8 = 4 \/ p mod 8 = 5 \/ p mod 8 = 6 \/ p mod 8 = 7) by lia.
  repeat destruct C as [C|C]; rewrite C; discriminate.
Qed.
Lemma label_no10 p tag : ~ In 10 tag -> ~ In 10 (label p tag).
Proof.
  intros H. unfold label. intros X. cbn [app] in X. destruct X as [X|[X|X]]; [now apply (letter_not10 p)|discriminate X|].
  apply in_app_or in X. destruct X as [X|X]; [auto|]. apply in_app_or in X. destruct X as [X|[X|[X|[]]]]; try discriminate X.
  apply repeat_spec in X. discriminate X.
Qed.
Lemma read_block x r : clear (s_tag (snd x)) -> read_screen (text_line x ++ r) = map Some (tells x) ++ read_screen r.
Proof.
  intros C. unfold read_screen, text_line, block, tells.
  rewrite (map_ext _ (fun l => (label (s_prio (snd x)) (s_tag (snd x)) ++ l) ++ [10])) by (intros; now rewrite app_assoc).
  rewrite (rows_all (fun l => label (s_prio (snd x)) (s_tag (snd x)) ++ l)).
  - rewrite map_app, !map_map. f_equal. apply map_ext. intros l. now rewrite row_label.
  - intros l Hl X. apply in_app_or in X. destruct X as [X|X]; [|now apply lines_no10 in Hl].
    revert X. apply label_no10. apply C.
Qed.
Lemma read_blocks l : Forall (fun x => clear (s_tag (snd x))) l -> read_screen (concat (map text_line l)) = map Some (flat_map tells l).
Proof.
  induction 1 as [|x l C F IH]; [reflexivity|]. cbn [map concat flat_map]. rewrite read_block by exact C. rewrite IH. now rewrite map_app.
Qed.
Lemma read_notice nm n note r : clear nm -> n < 2 ^ 31 -> notice nm n note -> exists t, missing nm n t /\ read_screen (note ++ r) = Some t :: read_screen r.
Proof.
  intros C L H. destruct (H L) as (digits & -> & F & V & Z0). exists (87, nm, digits ++ bytes_of_string " log entries dropped"). split; [exists digits; auto|].
  assert (E : (bytes_of_string "W " ++ nm ++ repeat 32 (12 - length nm) ++ bytes_of_string ": " ++ digits ++ bytes_of_string " log entries dropped" ++ [10]) ++ r =
              (label 4 nm ++ (digits ++ bytes_of_string " log entries dropped")) ++ 10 :: r).
  { unfold label. change (letter 4) with 87. change (bytes_of_string "W ") with [87; 32]. change (bytes_of_string ": ") with [58; 32]. rewrite <- !app_assoc. reflexivity. }
  rewrite E. unfold read_screen. rewrite rows_line.
  - cbn [map]. now rewrite row_label.
  - intros X. apply in_app_or in X. destruct X as [X|X]; [revert X; apply label_no10, C|].
    apply in_app_or in X. destruct X as [X|X]; [rewrite Forall_forall in F; apply F in X; lia|].
    revert X. vm_compute. intuition discriminate.
Qed.

(** Programs say texts through the library, then the device is dumped (ulogcat -d). One who reads what is printed line
    by line, and each line as a letter, a tag up to the colon, and a text, learns for each line that was said (but for
    the oldest, if the buffer was too small, and for those of others, without the right to read them) the letter of its
    level, its tag and the line, in order; and how many messages are missing. The tags and the name of the device hold
    neither line feed nor colon and do not end with a space. *)
Theorem C143_read_partial : forall nm mem pow2 procs (l : list (Z * said)) rfid (all : bool) uid paths,
  init_ok nm mem pow2 -> ~ In 0 nm -> NoDup procs -> ~ In rfid procs -> Forall (fun x => In (fst x) procs) l -> Forall printable l ->
  clear nm -> Forall (fun x => clear (s_tag (snd x))) l -> zlen l < 2 ^ 31 ->
  exists d outs node mark, run (init_dev nm mem pow2) (opens procs ++ map (fun x => say (fst x) (snd x)) l) = Ok (d, outs) /\
    add_ulog_device d rfid all uid = Ok (Some (node, mark)) /\
  exists lost kept, l = lost ++ kept /\ (lost = [] \/ 2 ^ pow2 - 12300 < weights (map snd kept)) /\
    let mine := if all then kept else filter (fun x => t_euid (s_task (snd x)) mod 2 ^ 32 =? uid mod 2 ^ 32) kept in
  exists head, (head = [] /\ (lost = [] \/ mine = []) \/ lost <> [] /\ exists t, head = [t] /\ missing nm (zlen lost) t) /\
    forall fuel, (2 * (length mine + 1) < fuel)%nat ->
      exists ns' c' text, process_logs fuel (live_env false uid) true 0 [node] (open_ctx 0 [mark]) 0 = Ok (Some (ns', c', 0)) /\
        output (mkO FShort false [] false []) paths (c_out c') = Ok (map Some text) /\
        read_screen text = map Some (head ++ flat_map tells mine).
Proof.
  intros nm mem pow2 procs l rfid all uid paths HI HN ND NR IP PR CN CT LL.
  destruct (said_screen nm mem pow2 procs l rfid all uid paths HI HN ND NR IP) as (d & outs & node & mark & R & A & lost & kept & EL & W & note & NT & SC).
  { eapply Forall_impl; [|exact PR]. intros x (P1 & P2 & P3 & P4 & P5). constructor; auto. }
  exists d, outs, node, mark. split; [exact R|]. split; [exact A|]. exists lost, kept. split; [exact EL|]. split; [exact W|].
  cbv zeta in *. set (mine := if all then kept else _) in *.
  assert (CM : Forall (fun x => clear (s_tag (snd x))) mine).
  { rewrite EL in CT. apply Forall_app in CT. destruct CT as [_ CT]. unfold mine. destruct all; [exact CT|]. rewrite Forall_forall in *.
    intros x Hx. apply CT. now apply filter_In in Hx. }
  clearbody mine. destruct NT as [(X & ->)|(NL & NM & NT)].
  - exists []. split; [now left|]. intros fuel HF. destruct (SC fuel HF) as (ns' & c' & P1 & P2). exists ns', c', (concat (map text_line mine)).
    split; [exact P1|]. split; [exact P2|]. cbn [app]. now apply read_blocks.
  - destruct (read_notice nm (zlen lost) note (concat (map text_line mine)) CN) as (t & MT & RT); [|exact NT|].
    { rewrite EL, zlen_app in LL. pose proof (zlen_nonneg kept). lia. }
    exists [t]. split; [right; split; [exact NL|]; exists t; auto|]. intros fuel HF. destruct (SC fuel HF) as (ns' & c' & P1 & P2).
    exists ns', c', (note ++ concat (map text_line mine)). split; [exact P1|]. split; [exact P2|]. rewrite RT, (read_blocks _ CM). reflexivity.
Qed.
(** Two programs, a text of two lines. *)
Definition ex_s (fid prio : Z) (tag text : list Z) : Z * said :=
  (fid, mkSaid (mkTask fid fid (bytes_of_string "prog") [] 5) fid 0 prio tag text).
Definition ex_l : list (Z * said) :=
  [ex_s 7 6 (bytes_of_string "net work") (bytes_of_string "a: b" ++ [10] ++ bytes_of_string "E x: c"); ex_s 8 3 [] (bytes_of_string "down" ++ [10])].
Lemma ex_printable x : In x ex_l -> printable x.
Proof.
  intros H. unfold printable, roomy, sayable, c_string, ParseSpec.uint32, ParseSpec.int32.
  repeat destruct H as [<-|H]; try contradiction; repeat split; try (vm_compute; congruence); try (vm_compute; intuition discriminate).
Qed.
Example C143_ex : init_ok (bytes_of_string "ulog_main") (zrepeat 170 16384) 14 /\ ~ In 0 (bytes_of_string "ulog_main") /\ NoDup [7; 8] /\ ~ In 9 [7; 8] /\
  Forall (fun x => In (fst x) [7; 8]) ex_l /\ Forall printable ex_l /\ clear (bytes_of_string "ulog_main") /\
  Forall (fun x => clear (s_tag (snd x))) ex_l /\ zlen ex_l < 2 ^ 31 /\
  flat_map tells ex_l = [(73, bytes_of_string "net work", bytes_of_string "a: b"); (73, bytes_of_string "net work", bytes_of_string "E x: c"); (69, [], bytes_of_string "down")].
Proof.
  assert (CL : forall t, ~ In 10 t -> ~ In 58 t -> last t 0 <> 32 -> clear t).
  { intros t A B C. split; [exact A|]. split; [exact B|]. intros x ->. apply C. apply last_last. }
  split. { split; [lia|]. split; [rewrite zlen_zrepeat; reflexivity|vm_compute; discriminate]. }
  split; [vm_compute; intuition discriminate|]. split; [repeat constructor; cbn; intuition lia|]. split; [cbn; lia|].
  split; [unfold ex_l, ex_s; repeat (apply Forall_cons; [cbn; auto|]); apply Forall_nil|]. split; [apply Forall_forall, ex_printable|].
  split; [apply CL; vm_compute; intuition discriminate|]. split; [|split; [reflexivity|vm_compute; reflexivity]].
  unfold ex_l, ex_s. repeat (apply Forall_cons; [cbn [snd s_tag]; apply CL; vm_compute; intuition discriminate|]). apply Forall_nil.
Qed.
(** With a line feed in its tag a message looks exactly like two messages of other programs, of another level. *)
Theorem C143_forged_refuted : exists x a b, printable x /\ printable a /\ printable b /\
  t_tgid (s_task (snd x)) <> t_tgid (s_task (snd b)) /\ s_prio (snd x) <> s_prio (snd b) /\
  clear (s_tag (snd a)) /\ clear (s_tag (snd b)) /\ text_line x = text_line a ++ text_line b.
Proof.
  exists (ex_s 7 6 (bytes_of_string "a           : b" ++ [10] ++ bytes_of_string "E sys         ") (bytes_of_string "halt")),
    (ex_s 7 6 (bytes_of_string "a") (bytes_of_string "b")), (ex_s 8 3 (bytes_of_string "sys") (bytes_of_string "halt")).
  assert (CL : forall t, ~ In 10 t -> ~ In 58 t -> last t 0 <> 32 -> clear t).
  { intros t A B C. split; [exact A|]. split; [exact B|]. intros x ->. apply C. apply last_last. }
  unfold printable, roomy, sayable, c_string, ParseSpec.uint32, ParseSpec.int32.
  repeat split; try (vm_compute; congruence); try (vm_compute; intuition discriminate); try (intros t; destruct t as [|? [|? [|? [|? ?]]]]; discriminate).
Qed.
(** Messages of the two gravest levels show alike. *)
Theorem C143_levels_refuted : exists x y, printable x /\ printable y /\ level_of (s_prio (snd x)) <> level_of (s_prio (snd y)) /\
  clear (s_tag (snd x)) /\ clear (s_tag (snd y)) /\ text_line x = text_line y.
Proof.
  exists (ex_s 7 0 (bytes_of_string "a") (bytes_of_string "b")), (ex_s 7 1 (bytes_of_string "a") (bytes_of_string "b")).
  unfold printable, roomy, sayable, c_string, ParseSpec.uint32, ParseSpec.int32.
  repeat split; try (vm_compute; congruence); try (vm_compute; intuition discriminate); try (intros t; destruct t as [|? [|? [|? [|? ?]]]]; discriminate).
Qed.
Print Assumptions C143_read_partial.
Print Assumptions C143_forged_refuted.
Print Assumptions C143_levels_refuted.
