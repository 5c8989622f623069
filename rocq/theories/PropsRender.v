(** Properties C46 to C48 and C67: the text rendering.

    Vocabulary: RenderSpec.v ([csv_shows], [entry_ok], [no_comma], [lines_of], [prio_letter],
    [with_msg]). *)
From Coq Require Import ZArith String List Bool Lia ZifyBool ZifyNat Arith.
From Verif Require Import Bytes BytesProofs Render RenderSpec RenderProofs.
Import ListNotations.
Open Scope Z_scope.

(** ** C46 *)

(** For every entry (the decoders mask the priority with 7) and every setting, nothing is written or
    read outside the buffer of 5248 bytes, and the bytes handed to the output were all written.
    The same for the banner of a device. *)
Definition all_written (r : option (list (option Z))) : Prop :=
  forall cells, r = Some cells -> zlen cells <= 5248 /\ Forall (fun c => c <> None) cells.
Lemma written_map l : zlen l <= 5248 -> all_written (Some (map Some l)).
Proof.
  intros H cells E. injection E as <-. rewrite zlen_map. split; [exact H|].
  apply Forall_map. induction l; constructor; [discriminate|]. apply IHl. rewrite zlen_cons in H. lia.
Qed.
Theorem C46_buffer : forall klog o e, 0 <= u_prio e < 8 ->
  exists r, text_render klog o e = Ok r /\ all_written r.
Proof.
  intros klog o e H.
  assert (T : o_fmt o <> FCsv -> u_bin e = false -> exists r, text_render klog o e = Ok r /\ all_written r).
  { intros F B. destruct (text_render_text klog o e F B H) as (pre & post & ls & _ & _ & _ & E).
    eexists. split; [exact E|]. apply written_map.
    rewrite zlen_cut by (unfold text_render_size; lia). unfold text_render_size.
    destruct (Z.leb_spec (5 * 1024 + 128) (zlen (full_text pre post ls))); lia. }
  destruct (o_fmt o) eqn:F.
  5: { rewrite (text_render_csv klog o e F). eexists. split; [reflexivity|].
       destruct (Z.leb_spec (zlen (csv_line e)) text_render_size) as [L|L]; [|discriminate].
       now apply written_map. }
  all: destruct (u_bin e) eqn:B; [exists None; split; [unfold text_render; now rewrite F, B|discriminate]|].
  all: apply T; [discriminate|reflexivity].
Qed.
Theorem C46_banner : forall path, exists r, render_banner path = Ok r /\ all_written r.
Proof.
  intros path. unfold render_banner.
  assert (HB : zlen (banner_text path) <= 5000).
  { unfold banner_text, local_str. rewrite !zlen_app, zlen_ztake, zlen_cons. change (zlen (@nil Z)) with 0.
    change (zlen (bytes_of_string "---------------------------------------")) with 39. lia. }
  destruct (snprintf_after [] fresh (banner_text path) (zlen_nonneg _)) as (r & R & Hr).
  cbn [map app] in R. change (zlen (@nil Z)) with 0 in R. rewrite zlen_fresh in R, Hr. rewrite R. cbn [bind].
  unfold cut in *. unfold text_render_size in *.
  destruct (Z.leb_spec (5 * 1024 + 128) 0); [lia|].
  destruct (Z.ltb_spec (zlen (banner_text path)) (5 * 1024 + 128)); [|lia].
  pose proof (zlen_nonneg (banner_text path)). pose proof (zlen_nonneg r).
  unfold handed. destruct (Z.ltb_spec (zlen (banner_text path)) 0); [lia|].
  destruct (Z.ltb_spec (zlen (map Some (banner_text path) ++ r)) (zlen (banner_text path))) as [X|X];
    [rewrite zlen_app, zlen_map in X; lia|].
  cbn [orb]. eexists. split; [reflexivity|]. rewrite ztake_app_exact by (now rewrite zlen_map).
  apply written_map. lia.
Qed.
Definition ex_e : uentry :=
  mkU 3 7000000 6 12 (bytes_of_string "proc") 13 (bytes_of_string "thr") (bytes_of_string "tag")
      (bytes_of_string "two" ++ [10] ++ bytes_of_string "lines" ++ [10]) false 0.
Example C46_ex : 0 <= u_prio ex_e < 8.
Proof. cbn; lia. Qed.
Print Assumptions C46_buffer.
Print Assumptions C46_banner.

(** ** C47 *)

(** A CSV line shows the entry; it is printed exactly if it fits into the render buffer. *)
Theorem C47_shape : forall klog o e, o_fmt o = FCsv -> entry_ok e ->
  exists line, csv_shows line e /\
    text_render klog o e = Ok (if zlen line <=? 5248 then Some (map Some line) else None).
Proof.
  intros klog o e F H. exists (csv_line e). split; [now apply csv_line_shows|]. now rewrite (text_render_csv klog o e F).
Qed.
(** That is so for each entry whose names and payload, counted twice if binary, have at most 5171
    bytes; a log record has at most 5120 bytes, so each text entry is printed. *)
Theorem C47_printed_partial : forall klog o e, o_fmt o = FCsv -> entry_ok e ->
  zlen (u_tag e) + zlen (u_pname e) + zlen (u_tname e) + (if u_bin e then 2 else 1) * zlen (u_msg e) <= 5171 ->
  exists line, csv_shows line e /\ text_render klog o e = Ok (Some (map Some line)).
Proof.
  intros klog o e F H L. exists (csv_line e). split; [now apply csv_line_shows|].
  rewrite (text_render_csv klog o e F). pose proof (csv_line_len e H) as HL. unfold csv_len in HL.
  destruct (Z.leb_spec (zlen (csv_line e)) text_render_size) as [X|X]; [reflexivity|].
  unfold text_render_size in X. destruct (u_bin e); lia.
Qed.
(** Lossless when the names hold no comma: different entries give different lines. *)
Theorem C47_lossless_partial : forall klog o e f cells, o_fmt o = FCsv ->
  entry_ok e -> entry_ok f -> no_comma e -> no_comma f ->
  text_render klog o e = Ok (Some cells) -> text_render klog o f = Ok (Some cells) -> e = f.
Proof.
  intros klog o e f cells F He Hf Ne Nf Ee Ef. rewrite (text_render_csv klog o e F) in Ee.
  rewrite (text_render_csv klog o f F) in Ef.
  destruct (Z.leb_spec (zlen (csv_line e)) text_render_size); [|discriminate].
  destruct (Z.leb_spec (zlen (csv_line f)) text_render_size); [|discriminate].
  apply csv_inj; auto.
  assert (M : map (@Some Z) (csv_line e) = map Some (csv_line f)) by congruence.
  clear - M. revert M. generalize (csv_line e) (csv_line f). induction l as [|x l IH]; intros [|y l'] M; try discriminate; auto.
  cbn in M. injection M as -> M. f_equal. now apply IH.
Qed.
Definition ex_csv : opts := mkO FCsv false [] false [].
Definition ex_b : uentry := mkU (-1) 7000000 6 12 (bytes_of_string "proc") 13 [] (bytes_of_string "tag") [0; 10; 44; 255] true 16711680.
Lemma ex_b_ok : entry_ok ex_b.
Proof. split; unfold int32; cbn; try lia. repeat constructor; lia. Qed.
Example C47_ex : o_fmt ex_csv = FCsv /\ entry_ok ex_b /\ no_comma ex_b /\ csv_payload ex_b = bytes_of_string "000a2cff" /\
  csv_prefix ex_b = bytes_of_string "0xffffffff,0x006acfc0,6,0xff0000,1,tag,proc,12,,13,8,".
Proof.
  split; [reflexivity|]. split; [apply ex_b_ok|].
  split; [unfold no_comma; cbn; repeat split; intuition lia|]. split; vm_compute; reflexivity.
Qed.
(** Not every entry is printed: a binary one of 3000 bytes is dropped without a word. *)
Theorem C47_dropped_refuted : exists e, entry_ok e /\ zlen (u_msg e) = 3000 /\
  text_render false ex_csv e = Ok None.
Proof.
  set (e := mkU 0 0 6 1 [112] 1 [] [116] (zrepeat 0 3000) true 0).
  assert (HL : zlen (u_msg e) = 3000) by (subst e; cbn [u_msg]; rewrite zlen_zrepeat; lia).
  exists e. split; [|split; [exact HL|]].
  - split; unfold int32; try (cbn; lia).
    + subst e. cbn [u_msg]. unfold zrepeat. apply Forall_forall. intros x Hx. apply repeat_spec in Hx. lia.
    + rewrite HL. lia.
  - rewrite text_render_csv by reflexivity.
    destruct (Z.leb_spec (zlen (csv_line e)) text_render_size) as [X|X]; [|reflexivity]. exfalso.
    unfold csv_line in X. rewrite !zlen_app, zlen_payload in X. unfold csv_len in X. rewrite HL in X.
    pose proof (zlen_nonneg (csv_prefix e)). rewrite zlen_cons in X. pose proof (zlen_nonneg (@nil Z)).
    unfold text_render_size in X. subst e. cbn [u_bin] in X. lia.
Qed.
(** With commas in the names the line does not tell the entry: tag "a,b" of process "c" and tag "a"
    of process "b,c" give the same. *)
Theorem C47_commas_refuted : exists e f, entry_ok e /\ entry_ok f /\ e <> f /\
  text_render false ex_csv e = text_render false ex_csv f /\ text_render false ex_csv e <> Ok None.
Proof.
  set (e := mkU 1 2 6 1 [99] 1 [] [97; 44; 98] [120] false 0).
  set (f := mkU 1 2 6 1 [98; 44; 99] 1 [] [97] [120] false 0).
  assert (E : csv_line e = csv_line f) by (vm_compute; reflexivity).
  exists e, f. rewrite !text_render_csv by reflexivity. rewrite E.
  split; [split; unfold int32; cbn; try lia; repeat constructor; lia|].
  split; [split; unfold int32; cbn; try lia; repeat constructor; lia|].
  split; [discriminate|]. split; [reflexivity|].
  assert (L : zlen (csv_line f) <= text_render_size) by (vm_compute; discriminate).
  destruct (Z.leb_spec (zlen (csv_line f)) text_render_size); [discriminate|lia].
Qed.
Print Assumptions C47_shape.
Print Assumptions C47_printed_partial.
Print Assumptions C47_lossless_partial.
Print Assumptions C47_dropped_refuted.
Print Assumptions C47_commas_refuted.

(** ** C48 *)

(** For each setting and entry there are one prefix, showing the letter of the priority and the tag
    (at least its first 127 bytes) and ending with a colon and a space, and one suffix ending with a
    line feed, the same for all messages [m]: each line of the message is printed between them, if
    all of it is shorter than the buffer. *)
Theorem C48_lines : forall klog o e, o_fmt o <> FCsv -> u_bin e = false -> 0 <= u_prio e < 8 ->
  exists pre post a b, pre = a ++ [prio_letter (u_prio e); 32] ++ ztake 127 (u_tag e) ++ b ++ [58; 32] /\
    (post = [10] \/ post = 27 :: bytes_of_string "[0m" ++ [10]) /\
    forall m, exists ls, lines_of m ls /\
      let text := concat (map (fun l => pre ++ l ++ post) ls) in
      zlen text < 5248 -> text_render klog o (with_msg e m) = Ok (Some (map Some text)).
Proof.
  intros klog o e F B P. destruct (parts_ok klog o e P) as (pre & post & E & Epost).
  destruct (prefix_prio_tag klog o e pre post E) as (a & b & Epre).
  exists pre, post, a, b. split; [exact Epre|]. split.
  { rewrite Epost. destruct (o_color o); auto. }
  intros m. destruct (text_render_text klog o (with_msg e m) F B P) as (pre' & post' & ls & E' & L & _ & R).
  rewrite parts_with_msg, E in E'. assert (pre' = pre /\ post' = post) as [-> ->] by (split; congruence).
  exists ls. split; [exact L|]. intros text HT. rewrite R. unfold cut, full_text. fold text.
  destruct (Z.leb_spec text_render_size 0) as [X|X]; [unfold text_render_size in X; lia|].
  destruct (Z.ltb_spec (zlen text) text_render_size) as [Y|Y]; [reflexivity|unfold text_render_size in Y; lia].
Qed.
(** The split into lines is the only one. *)
Theorem C48_lines_unique : forall m l1 l2, lines_of m l1 -> lines_of m l2 -> l1 = l2.
Proof.
  intros m l1 l2 H1 H2. rewrite <- (lines_unique l1 m (S (length m)) H1) by lia. now apply lines_unique; [|lia].
Qed.
(** Two lines, aligned format, with colours. *)
Definition ex_o : opts := mkO FAligned true (setup_colors 8 (Some (bytes_of_string "|||31||||"))) true [].
Example C48_ex : o_fmt ex_o <> FCsv /\ u_bin ex_e = false /\ 0 <= u_prio ex_e < 8 /\
  lines_of (u_msg ex_e) [bytes_of_string "two"; bytes_of_string "lines"] /\
  ulog_parts ex_o ex_e = Ok (bytes_of_string "U I tag         (proc/thr)                       : ",
                             27 :: bytes_of_string "[0m" ++ [10]).
Proof.
  split; [discriminate|]. split; [reflexivity|]. split; [cbn; lia|]. split; [|vm_compute; reflexivity].
  split; [repeat constructor; cbn; intuition lia|]. left. split; [discriminate|reflexivity].
Qed.
Print Assumptions C48_lines_unique.
Print Assumptions C48_lines.

(** ** C67 *)

(** What is handed out is the text, or, when that has 5248 bytes or more, its first 5247 bytes and a
    NUL byte. *)
Theorem C67_cut : forall klog o e, o_fmt o <> FCsv -> u_bin e = false -> 0 <= u_prio e < 8 ->
  exists text, text <> [] /\ last text 0 = 10 /\
    text_render klog o e = Ok (Some (map Some (if zlen text <? 5248 then text else ztake 5247 text ++ [0]))).
Proof.
  intros klog o e F B P. destruct (parts_ok klog o e P) as (pre & post & E & Epost).
  destruct (text_render_text klog o e F B P) as (pre' & post' & ls & E' & L & _ & R).
  rewrite E in E'. assert (pre' = pre /\ post' = post) as [-> ->] by (split; congruence). clear E'.
  assert (Hl : ls <> []) by (destruct L as [_ [[X _]|(i & la & -> & _)]]; [exact X|destruct i; discriminate]).
  assert (LT : exists t, full_text pre post ls = t ++ [10]).
  { destruct (exists_last Hl) as (i & la & ->). unfold full_text. rewrite map_app, concat_app. cbn [map concat].
    rewrite app_nil_r, Epost, !app_assoc. eauto. }
  exists (full_text pre post ls). destruct LT as [t LT]. split; [|split].
  - rewrite LT. destruct t; discriminate.
  - rewrite LT. apply last_last.
  - rewrite R. unfold cut. destruct (Z.leb_spec text_render_size 0) as [X|X]; [unfold text_render_size in X; lia|]. reflexivity.
Qed.
Example C67_ex : o_fmt ex_o <> FCsv /\ u_bin ex_e = false /\ 0 <= u_prio ex_e < 8.
Proof. split; [discriminate|]. split; [reflexivity|]. cbn; lia. Qed.

(** A message of 110 lines of one character (220 bytes) shown with the aligned format does not fit:
    the output ends with a NUL byte instead of a line feed, and the last lines are lost. *)
Theorem C67_whole_lines_refuted : exists e o cells, entry_ok e /\ zlen (u_msg e) = 220 /\ ~ In 0 (u_msg e) /\
  o = mkO FAligned false [] false [] /\
  text_render false o e = Ok (Some cells) /\ zlen cells = 5248 /\ znth 5247 (map (fun c => match c with Some b => b | None => -1 end) cells) = 0.
Proof.
  set (m := concat (repeat [97; 10] 110)).
  set (e := mkU 0 0 6 1 [112] 1 [] [116] m false 0). set (o := mkO FAligned false [] false []).
  destruct (text_render_text false o e ltac:(discriminate) eq_refl ltac:(cbn; lia)) as (pre & post & ls & E & _ & EL & R).
  assert (Els : lines (S (length (u_msg e))) (u_msg e) = repeat [97] 110) by (vm_compute; reflexivity).
  rewrite Els in EL.
  assert (Hz : zlen pre = 49 /\ zlen post = 1).
  { assert (E2 : parts false o e = Ok (bytes_of_string "I t           (p)                              : ", [10])) by (vm_compute; reflexivity).
    rewrite E2 in E. injection E as <- <-. split; vm_compute; reflexivity. }
  assert (HF : forall n, zlen (full_text pre post (repeat [97] n)) = 51 * Z.of_nat n).
  { unfold full_text. induction n as [|n IH]; [reflexivity|]. cbn [repeat map concat]. rewrite zlen_app, IH, !zlen_app, zlen_cons.
    change (zlen (@nil Z)) with 0. lia. }
  specialize (HF 110%nat). rewrite <- EL in HF. change (51 * Z.of_nat 110) with 5610 in HF.
  set (T := full_text pre post ls) in *. clearbody T.
  assert (EC : cut text_render_size T = ztake 5247 T ++ [0]).
  { unfold cut. destruct (Z.leb_spec text_render_size 0) as [X|X]; [unfold text_render_size in X; lia|].
    destruct (Z.ltb_spec (zlen T) text_render_size) as [Y|Y]; [unfold text_render_size in Y; lia|]. reflexivity. }
  rewrite EC in R.
  assert (H5 : zlen (ztake 5247 T) = 5247) by (rewrite zlen_ztake; lia).
  exists e, o, (map Some (ztake 5247 T ++ [0])). split.
  { split; unfold int32; try (cbn; lia).
    - subst e m. cbn [u_msg]. clear. generalize 110%nat as n. induction n; [constructor|]. cbn [repeat concat app]. repeat constructor; auto; lia. }
  split; [reflexivity|]. split.
  { subst e m. cbn [u_msg]. clear. generalize 110%nat as n. induction n; cbn; [tauto|]. intuition lia. }
  split; [reflexivity|]. split; [exact R|]. split.
  { rewrite zlen_map, zlen_app, H5. reflexivity. }
  rewrite map_map. rewrite map_id. unfold znth. rewrite <- H5 at 1.
  unfold zlen. rewrite Nat2Z.id. rewrite app_nth2 by lia. now rewrite Nat.sub_diag.
Qed.
Print Assumptions C67_cut.
Print Assumptions C67_whole_lines_refuted.
