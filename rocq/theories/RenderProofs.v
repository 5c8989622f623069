From Coq Require Import ZArith String List Bool Lia ZifyBool ZifyNat Arith.
From Verif Require Import Bytes BytesProofs Render RenderSpec.
Import ListNotations.
Open Scope Z_scope.

(** ** Writing *)
Lemma put_ok b off bs : 0 <= off -> off + zlen bs <= zlen b ->
  put b off bs = Ok (ztake off b ++ map Some bs ++ zdrop (off + zlen bs) b).
Proof.
  intros H1 H2. unfold put. destruct (Z.ltb_spec off 0); [lia|].
  destruct (Z.ltb_spec (zlen b) (off + zlen bs)); [lia|]. reflexivity.
Qed.
(** Appending to what is written. *)
Lemma put_after out rest bs : zlen bs <= zlen rest ->
  exists rest', put (map Some out ++ rest) (zlen out) bs = Ok (map Some (out ++ bs) ++ rest') /\
    zlen rest' = zlen rest - zlen bs.
Proof.
  intros H. exists (zdrop (zlen bs) rest).
  pose proof (zlen_nonneg out). pose proof (zlen_nonneg bs).
  rewrite put_ok; [|lia|rewrite zlen_app, zlen_map; lia]. split.
  - rewrite ztake_app_exact by (now rewrite zlen_map). rewrite map_app, <- app_assoc.
    rewrite zdrop_app, zlen_map by lia. rewrite (zdrop_all _ (map Some out)) by (rewrite zlen_map; lia).
    replace (zlen out + zlen bs - zlen out) with (zlen bs) by lia. reflexivity.
  - rewrite zlen_zdrop. lia.
Qed.

(** What a bounded print leaves of a text. *)
Definition cut (size : Z) (l : list Z) : list Z :=
  if size <=? 0 then [] else if zlen l <? size then l else ztake (size - 1) l ++ [0].

Lemma zlen_cut size l : 0 <= size -> zlen (cut size l) = if size <=? zlen l then size else zlen l.
Proof.
  intros H. unfold cut. pose proof (zlen_nonneg l).
  destruct (Z.leb_spec size 0), (Z.ltb_spec (zlen l) size), (Z.leb_spec size (zlen l)); try lia;
    rewrite ?zlen_app, ?zlen_ztake, ?zlen_cons; change (zlen (@nil Z)) with 0; try lia.
Qed.
Lemma cut_app size a b : 0 <= size -> cut size a ++ cut (size - zlen (cut size a)) b = cut size (a ++ b).
Proof.
  intros H. rewrite zlen_cut by auto. pose proof (zlen_nonneg a). pose proof (zlen_nonneg b).
  unfold cut at 1 3. rewrite zlen_app.
  destruct (Z.leb_spec size 0).
  { assert (size = 0) by lia. subst. destruct (Z.leb_spec 0 (zlen a)); [|lia]. reflexivity. }
  destruct (Z.ltb_spec (zlen a) size), (Z.leb_spec size (zlen a)); try lia.
  - unfold cut. destruct (Z.leb_spec (size - zlen a) 0); [lia|].
    destruct (Z.ltb_spec (zlen b) (size - zlen a)), (Z.ltb_spec (zlen a + zlen b) size); try lia; auto.
    rewrite app_assoc. f_equal. rewrite ztake_app. rewrite (ztake_all _ a) by lia.
    f_equal. f_equal. lia.
  - replace (size - size) with 0 by lia. unfold cut. cbn [Z.leb Z.compare]. rewrite app_nil_r.
    destruct (Z.ltb_spec (zlen a + zlen b) size); [lia|]. now rewrite ztake_app_le by lia.
Qed.

Lemma snprintf_after out rest text : 0 <= zlen rest ->
  exists rest', snprintf (map Some out ++ rest) (zlen out) (zlen rest) text =
    Ok (map Some (out ++ cut (zlen rest) text) ++ rest', zlen text) /\
    zlen rest' = zlen rest - zlen (cut (zlen rest) text).
Proof.
  intros H. unfold snprintf. rewrite zlen_cut by auto. unfold cut.
  destruct (Z.leb_spec (zlen rest) 0).
  { exists rest. rewrite app_nil_r. split; [reflexivity|]. pose proof (zlen_nonneg text).
    destruct (Z.leb_spec (zlen rest) (zlen text)); lia. }
  pose proof (zlen_nonneg text).
  set (bs := ztake (zlen rest - 1) text ++ [0]).
  assert (Hb : zlen bs <= zlen rest).
  { subst bs. rewrite zlen_app, zlen_ztake, zlen_cons. change (zlen (@nil Z)) with 0. lia. }
  destruct (put_after out rest bs Hb) as (r & -> & Hr). cbn [bind].
  destruct (Z.ltb_spec (zlen text) (zlen rest)), (Z.leb_spec (zlen rest) (zlen text)); try lia.
  - subst bs. rewrite ztake_all in * by lia. exists (Some 0 :: r).
    split.
    + f_equal. f_equal. rewrite app_assoc, map_app, <- app_assoc. reflexivity.
    + rewrite zlen_cons. rewrite zlen_app, zlen_cons in Hr. change (zlen (@nil Z)) with 0 in Hr. lia.
  - exists r. split; [reflexivity|]. rewrite Hr. subst bs.
    rewrite zlen_app, zlen_ztake, zlen_cons. change (zlen (@nil Z)) with 0. lia.
Qed.

(** ** Text formats *)
Definition parts (klog : bool) (o : opts) (e : uentry) : M (list Z * list Z) :=
  if klog then klog_parts o e else ulog_parts o e.
Lemma parts_ok klog o e : 0 <= u_prio e < 8 -> exists pre post, parts klog o e = Ok (pre, post) /\
  post = (if o_color o then [27; 91; 48; 109] else []) ++ [10].
Proof.
  intros H. unfold parts, klog_parts, ulog_parts.
  destruct (Z.ltb_spec (u_prio e) 0); [lia|]. destruct (Z.leb_spec 8 (u_prio e)); [lia|]. cbn [orb].
  destruct klog; do 2 eexists; (split; [reflexivity|]); reflexivity.
Qed.

Lemma split_nl_spec m : let (a, x) := split_nl m in
  ~ In 10 a /\ match x with None => m = a | Some r => m = a ++ 10 :: r /\ (length r < length m)%nat end.
Proof.
  induction m as [|c m IH]; cbn; [tauto|].
  destruct (Z.eqb_spec c 10) as [->|Hc]; cbn; [split; auto|].
  destruct (split_nl m) as [a x]. destruct IH as [H1 H2]. split.
  - cbn. intros [?|?]; [congruence|contradiction].
  - destruct x as [r|]; [|now subst]. destruct H2 as [-> H2]. cbn. split; auto.
Qed.

Fixpoint lines (fuel : nat) (m : list Z) : list (list Z) :=
  match fuel with
  | O => []
  | S n => let (a, x) := split_nl m in
           a :: match x with Some (c :: r) => lines n (c :: r) | _ => [] end
  end.

Lemma lines_ok fuel : forall m, (length m < fuel)%nat -> lines_of m (lines fuel m).
Proof.
  induction fuel as [|n IH]; intros m H; [lia|]. cbn.
  pose proof (split_nl_spec m) as S. destruct (split_nl m) as [a [[|c r]|]]; destruct S as [N S].
  - destruct S as [-> _]. split; [repeat constructor; auto|]. left. split; [discriminate|]. cbn. now rewrite app_nil_r.
  - destruct S as [-> Hl]. specialize (IH (c :: r) ltac:(lia)). destruct IH as [F D].
    split; [constructor; auto|]. destruct D as [[D1 D2]|(init & last & D1 & D2 & D3)].
    + left. split; [discriminate|]. cbn [map concat]. rewrite <- D2, <- app_assoc. reflexivity.
    + right. exists (a :: init), last. rewrite D1. split; [reflexivity|]. split.
      * destruct D2 as [D2| ->]; auto. left. intros ->. cbn in D3. discriminate.
      * cbn [map concat]. rewrite <- app_assoc, <- D3, <- app_assoc. reflexivity.
  - subst. split; [repeat constructor; auto|]. right. exists [], a. split; [reflexivity|]. split; auto.
Qed.

Definition full_text (pre post : list Z) (ls : list (list Z)) : list Z := concat (map (fun l => pre ++ l ++ post) ls).

Lemma render_lines_ok klog o e pre post fuel : parts klog o e = Ok (pre, post) ->
  forall m out rest, (length m < fuel)%nat ->
  exists rest', render_lines fuel klog o e m (map Some out ++ rest) (zlen out) (zlen rest) =
    Ok (map Some (out ++ cut (zlen rest) (full_text pre post (lines fuel m))) ++ rest',
        zlen out + zlen (cut (zlen rest) (full_text pre post (lines fuel m)))) /\
    zlen rest' = zlen rest - zlen (cut (zlen rest) (full_text pre post (lines fuel m))).
Proof.
  intros HP. induction fuel as [|n IH]; intros m out rest Hm; [lia|].
  cbn [render_lines lines]. pose proof (split_nl_spec m) as S. destruct (split_nl m) as [a x]. destruct S as [_ S].
  unfold print_log_line. change (if klog then klog_parts o e else ulog_parts o e) with (parts klog o e). rewrite HP. cbn [bind].
  pose proof (zlen_nonneg rest) as Hr0.
  destruct (snprintf_after out rest (pre ++ a ++ post) Hr0) as (r1 & -> & Hr1). cbn [bind].
  set (L := pre ++ a ++ post) in *.
  assert (HL : (if zlen rest <=? zlen L then zlen rest else zlen L) = zlen (cut (zlen rest) L)) by (now rewrite zlen_cut).
  rewrite HL.
  destruct x as [[|c r]|].
  - cbn [full_text map concat]. unfold full_text. cbn [map concat]. rewrite app_nil_r. eauto.
  - destruct S as [_ Sl]. destruct (IH (c :: r) (out ++ cut (zlen rest) L) r1 ltac:(lia)) as (r2 & E & H2).
    rewrite zlen_app in E. rewrite <- Hr1. rewrite E.
    exists r2. unfold full_text in *. cbn [map concat]. fold L.
    assert (C : cut (zlen rest) L ++ cut (zlen r1) (concat (map (fun l => pre ++ l ++ post) (lines n (c :: r)))) =
                cut (zlen rest) (L ++ concat (map (fun l => pre ++ l ++ post) (lines n (c :: r))))).
    { rewrite Hr1. now apply cut_app. }
    rewrite <- C. rewrite <- app_assoc, zlen_app. split; [f_equal; f_equal; lia|]. lia.
  - unfold full_text. cbn [map concat]. rewrite app_nil_r. eauto.
Qed.

Lemma cut_nil_iff size l : 0 < size -> zlen (cut size l) = 0 -> l = [].
Proof.
  intros H. rewrite zlen_cut by lia. pose proof (zlen_nonneg l).
  destruct (Z.leb_spec size (zlen l)); [lia|]. apply zlen_zero_nil.
Qed.

Lemma zlen_fresh : zlen fresh = text_render_size.
Proof. unfold fresh. rewrite zlen_zrepeat. unfold text_render_size. lia. Qed.

(** The whole rendering of a text entry. *)
Lemma text_render_text klog o e : o_fmt o <> FCsv -> u_bin e = false -> 0 <= u_prio e < 8 ->
  exists pre post ls, parts klog o e = Ok (pre, post) /\ lines_of (u_msg e) ls /\
    ls = lines (S (length (u_msg e))) (u_msg e) /\
    text_render klog o e = Ok (Some (map Some (cut text_render_size (full_text pre post ls)))).
Proof.
  intros HF HB HP. destruct (parts_ok klog o e HP) as (pre & post & E & Epost).
  exists pre, post, (lines (S (length (u_msg e))) (u_msg e)). split; [exact E|].
  split; [apply lines_ok; lia|]. split; [reflexivity|].
  destruct (render_lines_ok klog o e pre post (S (length (u_msg e))) E (u_msg e) [] fresh ltac:(lia)) as (r & R & Hr).
  cbn [map app] in R. change (zlen (@nil Z)) with 0 in R. rewrite zlen_fresh in R, Hr.
  set (c := cut text_render_size (full_text pre post (lines (S (length (u_msg e))) (u_msg e)))) in *.
  assert (Hc : 0 < zlen c).
  { pose proof (zlen_nonneg c). destruct (Z.eq_dec (zlen c) 0) as [H0|]; [|lia].
    apply cut_nil_iff in H0; [|unfold text_render_size; lia]. exfalso.
    cbn [lines] in H0. destruct (split_nl (u_msg e)). unfold full_text in H0. cbn [map concat] in H0.
    rewrite Epost in H0. destruct pre; [|discriminate]. destruct l; [|discriminate].
    destruct (o_color o); discriminate. }
  assert (H : text_render klog o e = (if zlen c =? 0 then Ok None else handed (map Some c ++ r) (zlen c))).
  { unfold text_render. rewrite HB, R. destruct (o_fmt o); try reflexivity. congruence. }
  rewrite H. destruct (Z.eqb_spec (zlen c) 0); [lia|]. unfold handed.
  destruct (Z.ltb_spec (zlen c) 0); [lia|]. pose proof (zlen_nonneg r).
  destruct (Z.ltb_spec (zlen (map Some c ++ r)) (zlen c)) as [X|X]; [rewrite zlen_app, zlen_map in X; lia|].
  cbn [orb]. rewrite ztake_app_exact by (now rewrite zlen_map). reflexivity.
Qed.

(** ** CSV *)
Lemma zlen_payload e : zlen (csv_payload e) = csv_len e.
Proof.
  unfold csv_payload, csv_len. destruct (u_bin e); auto.
  induction (u_msg e) as [|x l IH]; [reflexivity|]. cbn [map concat]. rewrite zlen_app, IH, zlen_cons.
  unfold hex_byte. rewrite !zlen_cons. change (zlen (@nil Z)) with 0. lia.
Qed.
Definition csv_line (e : uentry) : list Z := csv_prefix e ++ csv_payload e ++ [10].
Lemma text_render_csv klog o e : o_fmt o = FCsv ->
  text_render klog o e = Ok (if zlen (csv_line e) <=? text_render_size then Some (map Some (csv_line e)) else None).
Proof.
  intros HF. unfold text_render. rewrite HF. unfold print_log_line_csv.
  pose proof (zlen_nonneg (csv_prefix e)) as H1. pose proof (zlen_nonneg (csv_payload e)) as H2.
  assert (HL : zlen (csv_line e) = zlen (csv_prefix e) + csv_len e + 1).
  { unfold csv_line. rewrite !zlen_app, zlen_payload, zlen_cons. change (zlen (@nil Z)) with 0. lia. }
  rewrite zlen_payload in H2.
  destruct (snprintf_after [] fresh (csv_prefix e) (zlen_nonneg _)) as (r & R & Hr).
  cbn [map app] in R. change (zlen (@nil Z)) with 0 in R. rewrite zlen_fresh in R, Hr. rewrite R. cbn [bind].
  rewrite zlen_cut in Hr by (unfold text_render_size; lia).
  destruct (Z.leb_spec text_render_size (zlen (csv_prefix e))).
  { cbn [bind]. destruct (Z.leb_spec (zlen (csv_line e)) text_render_size); [lia|]. reflexivity. }
  destruct (Z.ltb_spec text_render_size (zlen (csv_prefix e) + (csv_len e + 1))).
  { cbn [bind]. destruct (Z.leb_spec (zlen (csv_line e)) text_render_size); [lia|]. reflexivity. }
  assert (EC : cut text_render_size (csv_prefix e) = csv_prefix e).
  { unfold cut. destruct (Z.leb_spec text_render_size 0); [unfold text_render_size in *; lia|].
    destruct (Z.ltb_spec (zlen (csv_prefix e)) text_render_size); [auto|lia]. }
  rewrite EC in *.
  destruct (put_after (csv_prefix e) r (csv_payload e)) as (r2 & -> & Hr2); [rewrite zlen_payload; lia|]. cbn [bind].
  destruct (put_after (csv_prefix e ++ csv_payload e) r2 [10]) as (r3 & E3 & Hr3).
  { rewrite zlen_cons. change (zlen (@nil Z)) with 0. rewrite zlen_payload in Hr2. lia. }
  rewrite zlen_app in E3. rewrite E3. cbn [bind].
  destruct (Z.ltb_spec (zlen (csv_prefix e) + (csv_len e + 1)) 0); [lia|].
  destruct (Z.leb_spec (zlen (csv_line e)) text_render_size); [|lia].
  unfold handed. rewrite <- app_assoc. fold (csv_line e).
  replace (zlen (csv_prefix e) + (csv_len e + 1)) with (zlen (csv_line e)) by lia.
  pose proof (zlen_nonneg r3).
  destruct (Z.ltb_spec (zlen (csv_line e)) 0); [lia|].
  destruct (Z.ltb_spec (zlen (map Some (csv_line e) ++ r3)) (zlen (csv_line e))) as [X|X]; [rewrite zlen_app, zlen_map in X; lia|].
  cbn [orb]. rewrite ztake_app_exact by (now rewrite zlen_map). reflexivity.
Qed.

(** Numbers. *)
Lemma num_value_snoc b l x : num_value b (l ++ [x]) = b * num_value b l + digit_value x.
Proof. unfold num_value. now rewrite fold_left_app. Qed.
Lemma digit_dec d : 0 <= d < 10 -> digit_value (48 + d) = d.
Proof. intros H. unfold digit_value. destruct (Z.ltb_spec (48 + d) 58); lia. Qed.
Lemma digit_hex d : 0 <= d < 16 -> digit_value (hexdigit d) = d.
Proof.
  intros H. unfold digit_value, hexdigit. destruct (Z.ltb_spec d 10).
  - destruct (Z.ltb_spec (48 + d) 58); lia.
  - destruct (Z.ltb_spec (87 + d) 58); lia.
Qed.
Lemma dec_digits_num f : forall v, 0 <= v < 10 ^ Z.of_nat f -> num_value 10 (dec_digits f v) = v.
Proof.
  induction f as [|f IH]; intros v H; [cbn in *; lia|]. cbn [dec_digits].
  destruct (Z.ltb_spec v 10).
  - unfold num_value. cbn [fold_left]. rewrite digit_dec by lia. lia.
  - rewrite num_value_snoc. rewrite digit_dec by (apply Z.mod_pos_bound; lia). rewrite IH.
    + pose proof (Z.div_mod v 10). lia.
    + rewrite Nat2Z.inj_succ, Z.pow_succ_r in H by lia. split; [apply Z.div_pos; lia|].
      apply Z.div_lt_upper_bound; lia.
Qed.
Lemma hex_digits_num f : forall v, 0 <= v < 16 ^ Z.of_nat f -> num_value 16 (hex_digits f v) = v.
Proof.
  induction f as [|f IH]; intros v H; [cbn in *; lia|]. cbn [hex_digits].
  destruct (Z.ltb_spec v 16).
  - unfold num_value. cbn [fold_left]. rewrite digit_hex by lia. lia.
  - rewrite num_value_snoc. rewrite digit_hex by (apply Z.mod_pos_bound; lia). rewrite IH.
    + pose proof (Z.div_mod v 16). lia.
    + rewrite Nat2Z.inj_succ, Z.pow_succ_r in H by lia. split; [apply Z.div_pos; lia|].
      apply Z.div_lt_upper_bound; lia.
Qed.
Lemma num_zeros b n l : num_value b (zrepeat 48 n ++ l) = num_value b l.
Proof.
  unfold zrepeat, num_value. rewrite fold_left_app. f_equal.
  induction (Z.to_nat n) as [|k IH]; [reflexivity|]. cbn [repeat fold_left]. 
  replace (b * 0 + digit_value 48) with 0 by (unfold digit_value; cbn; lia). exact IH.
Qed.
Lemma hex0x_value n v : hex_value (hex0x n v) = Some (v mod 2 ^ 32).
Proof.
  unfold hex0x, hex_value. cbn [app]. f_equal. unfold hex_pad, pad0. rewrite num_zeros.
  unfold u32. apply hex_digits_num. change (16 ^ Z.of_nat 8) with (2 ^ 32). apply Z.mod_pos_bound. lia.
Qed.
Lemma dec_digits_head f v : 0 <= v -> (0 < f)%nat -> match dec_digits f v with [] => False | c :: _ => 48 <= c <= 57 end.
Proof.
  revert v; induction f as [|f IH]; intros v H Hf; [lia|]. cbn [dec_digits].
  destruct (Z.ltb_spec v 10); [lia|].
  destruct f as [|f]; [cbn [dec_digits app]; pose proof (Z.mod_pos_bound v 10); lia|].
  specialize (IH (v / 10) ltac:(apply Z.div_pos; lia) ltac:(lia)).
  destruct (dec_digits (S f) (v / 10)); [contradiction|]. exact IH.
Qed.
Lemma dec_d_value v : - 2 ^ 32 <= v <= 2 ^ 32 -> dec_value (dec_d v) = v.
Proof.
  intros H. unfold dec_d, dec_u. assert (E : 10 ^ Z.of_nat 20 = 100000000000000000000) by reflexivity.
  destruct (Z.ltb_spec v 0).
  - cbn [dec_value]. rewrite dec_digits_num; [lia|]. rewrite E. lia.
  - pose proof (dec_digits_head 20 v ltac:(lia) ltac:(lia)) as Hh.
    pose proof (dec_digits_num 20 v ltac:(rewrite E; lia)) as Hn.
    destruct (dec_digits 20 v) as [|c r]; [contradiction|].
    unfold dec_value.
    destruct c as [|p|p]; try lia. do 6 (destruct p as [p|p|]; try lia; try exact Hn).
Qed.

Lemma dec_digits_range f : forall v c, 0 <= v -> In c (dec_digits f v) -> 48 <= c <= 57.
Proof.
  induction f as [|f IH]; intros v c H Hi; [destruct Hi|]. cbn [dec_digits] in Hi.
  destruct (Z.ltb_spec v 10).
  - destruct Hi as [<-|[]]. lia.
  - apply in_app_or in Hi. destruct Hi as [Hi|[<-|[]]].
    + apply (IH (v / 10)); auto. apply Z.div_pos; lia.
    + pose proof (Z.mod_pos_bound v 10). lia.
Qed.
Lemma dec_d_no44 v : ~ In 44 (dec_d v).
Proof.
  unfold dec_d, dec_u. destruct (Z.ltb_spec v 0); intros X.
  - destruct X as [X|X]; [lia|]. apply dec_digits_range in X; lia.
  - apply dec_digits_range in X; lia.
Qed.
Lemma hexdigit_range d : 0 <= d < 16 -> 48 <= hexdigit d.
Proof. intros H. unfold hexdigit. destruct (d <? 10); lia. Qed.
Lemma hex_digits_range f : forall v c, 0 <= v -> In c (hex_digits f v) -> 48 <= c.
Proof.
  induction f as [|f IH]; intros v c H Hi; [destruct Hi|]. cbn [hex_digits] in Hi.
  destruct (Z.ltb_spec v 16).
  - destruct Hi as [<-|[]]. apply hexdigit_range. lia.
  - apply in_app_or in Hi. destruct Hi as [Hi|[<-|[]]].
    + apply (IH (v / 16)); auto. apply Z.div_pos; lia.
    + apply hexdigit_range, Z.mod_pos_bound. lia.
Qed.
Lemma hex0x_no44 n v : ~ In 44 (hex0x n v).
Proof.
  unfold hex0x, hex_pad, pad0. intros X. apply in_app_or in X. destruct X as [[X|[X|[]]]|X]; try lia.
  apply in_app_or in X. destruct X as [X|X].
  - unfold zrepeat in X. apply repeat_spec in X. lia.
  - apply hex_digits_range in X; [lia|]. unfold u32. apply Z.mod_pos_bound. lia.
Qed.

Lemma unhex_payload l : Forall (fun b => 0 <= b < 256) l -> unhex (concat (map hex_byte l)) = l.
Proof.
  induction 1 as [|b l H F IH]; [reflexivity|]. cbn [map concat hex_byte app unhex]. rewrite IH. f_equal.
  assert (0 <= b / 16 < 16) by (split; [apply Z.div_pos; lia|apply Z.div_lt_upper_bound; lia]).
  rewrite digit_hex by auto. rewrite digit_hex by (apply Z.mod_pos_bound; lia).
  pose proof (Z.div_mod b 16). lia.
Qed.

Lemma csv_line_shows e : entry_ok e -> csv_shows (csv_line e) e.
Proof.
  intros []. unfold int32 in *.
  exists (hex0x 8 (u_sec e)), (hex0x 8 (u_nsec e)), (dec_d (u_prio e)), (hex0x 6 (u_color e)),
    (dec_d (if u_bin e then 1 else 0)), (dec_d (u_pid e)), (dec_d (u_tid e)), (dec_d (csv_len e)), (csv_payload e).
  split.
  { unfold csv_line, csv_prefix, comma. cbn [map concat]. rewrite app_nil_r. rewrite <- !app_assoc. reflexivity. }
  pose proof (zlen_nonneg (u_msg e)).
  repeat split; rewrite ?hex0x_value, ?dec_d_value; auto; try lia.
  - destruct (u_bin e); reflexivity.
  - rewrite zlen_payload. reflexivity.
  - unfold csv_len. destruct (u_bin e); lia.
  - pose proof (zlen_payload e) as P. unfold csv_payload, csv_len in *. destruct (u_bin e); auto.
    split; auto. now apply unhex_payload.
Qed.

Lemma split44 a b x y : ~ In 44 a -> ~ In 44 b -> (a ++ [44]) ++ x = (b ++ [44]) ++ y -> a = b /\ x = y.
Proof.
  revert b; induction a as [|c a IH]; intros [|d b] Ha Hb E; cbn in E.
  - injection E as E. auto.
  - injection E as E1 E2. exfalso. apply Hb. now left.
  - injection E as E1 E2. exfalso. apply Ha. now left.
  - injection E as E1 E2. destruct (IH b) as [-> ->]; auto.
    + intros X. apply Ha. now right.
    + intros X. apply Hb. now right.
    + now subst.
Qed.

Lemma app_snoc_inj {A} (a b : list A) x y : a ++ [x] = b ++ [y] -> a = b /\ x = y.
Proof. apply app_inj_tail. Qed.

Lemma int32_inj a b : int32 a -> int32 b -> a mod 2 ^ 32 = b mod 2 ^ 32 -> a = b.
Proof.
  unfold int32. intros. pose proof (Z.div_mod a (2 ^ 32)). pose proof (Z.div_mod b (2 ^ 32)). lia.
Qed.


Lemma csv_inj e f : entry_ok e -> entry_ok f -> no_comma e -> no_comma f -> csv_line e = csv_line f -> e = f.
Proof.
  intros He Hf (N1 & N2 & N3) (N4 & N5 & N6) E.
  unfold csv_line, csv_prefix, comma in E. cbn [map concat] in E. rewrite !app_nil_r in E.
  rewrite <- !app_assoc in E. rewrite !(app_assoc _ [44]) in E.
  pose proof hex0x_no44. pose proof dec_d_no44.
  do 11 (apply split44 in E; [|now auto|now auto]; let X := fresh "X" in destruct E as [X E]).
  apply (f_equal hex_value) in X, X0, X2. rewrite !hex0x_value in *.
  apply (f_equal dec_value) in X1, X3, X6, X8, X9.
  destruct He, Hf. unfold int32 in *.
  pose proof (zlen_nonneg (u_msg e)). pose proof (zlen_nonneg (u_msg f)).
  rewrite !dec_d_value in X1, X3, X6, X8 by (try lia; destruct (u_bin e), (u_bin f); lia).
  injection X as X. injection X0 as X0. injection X2 as X2.
  apply app_snoc_inj in E. destruct E as [E _].
  assert (Hs : u_sec e = u_sec f).
  { apply int32_inj; unfold int32; auto. }
  assert (Hn : u_nsec e = u_nsec f).
  { apply int32_inj; unfold int32; auto. }
  assert (Hc : u_color e = u_color f) by (rewrite !Z.mod_small in X2 by auto; auto).
  assert (Hb : u_bin e = u_bin f) by (destruct (u_bin e), (u_bin f); auto; lia).
  assert (Hm : u_msg e = u_msg f).
  { unfold csv_payload in E. rewrite <- Hb in E. destruct (u_bin e); auto.
    apply (f_equal unhex) in E. rewrite !unhex_payload in E by auto. auto. }
  destruct e, f; cbn in *; subst; reflexivity.
Qed.

(** How long a CSV prefix can be. *)
Lemma hex_digits_len f : forall v, zlen (hex_digits f v) <= Z.of_nat f.
Proof.
  induction f as [|f IH]; intros v; [cbn; lia|]. cbn [hex_digits]. specialize (IH (v / 16)).
  destruct (v <? 16); rewrite ?zlen_app, zlen_cons; change (zlen (@nil Z)) with 0; lia.
Qed.
Lemma hex0x_len n v : n <= 8 -> zlen (hex0x n v) <= 10.
Proof.
  intros H. unfold hex0x, hex_pad, pad0. rewrite !zlen_app, !zlen_cons, zlen_zrepeat. change (zlen (@nil Z)) with 0.
  pose proof (hex_digits_len 8 (u32 v)). lia.
Qed.
Lemma dec_digits_len f : forall v n, 0 <= v < 10 ^ Z.of_nat n -> (0 < n)%nat -> zlen (dec_digits f v) <= Z.of_nat n.
Proof.
  induction f as [|f IH]; intros v n H Hn; [cbn; lia|]. cbn [dec_digits].
  destruct (Z.ltb_spec v 10).
  - rewrite zlen_cons. change (zlen (@nil Z)) with 0. lia.
  - rewrite zlen_app, zlen_cons. change (zlen (@nil Z)) with 0.
    destruct n as [|[|n]]; [lia|cbn in H; lia|].
    specialize (IH (v / 10) (S n)). rewrite Nat2Z.inj_succ, Z.pow_succ_r in H by lia.
    assert (zlen (dec_digits f (v / 10)) <= Z.of_nat (S n)); [|lia]. apply IH; [|lia].
    split; [apply Z.div_pos; lia|apply Z.div_lt_upper_bound; lia].
Qed.
Lemma dec_d_len v : int32 v -> zlen (dec_d v) <= 11.
Proof.
  unfold int32, dec_d, dec_u. intros H. assert (E : 10 ^ Z.of_nat 10 = 10000000000) by reflexivity.
  destruct (Z.ltb_spec v 0).
  - rewrite zlen_cons. pose proof (dec_digits_len 20 (- v) 10 ltac:(rewrite E; lia) ltac:(lia)). lia.
  - pose proof (dec_digits_len 20 v 10 ltac:(rewrite E; lia) ltac:(lia)). lia.
Qed.
Lemma csv_line_len e : entry_ok e ->
  zlen (csv_line e) <= 77 + zlen (u_tag e) + zlen (u_pname e) + zlen (u_tname e) + csv_len e.
Proof.
  intros He. pose proof (eo_pid e He) as eo_pid0. pose proof (eo_tid e He) as eo_tid0. destruct He.
  unfold csv_line, csv_prefix, comma. cbn [map concat]. rewrite !zlen_app, !zlen_cons, zlen_payload.
  change (zlen (@nil Z)) with 0. pose proof (zlen_nonneg (u_msg e)).
  pose proof (hex0x_len 8 (u_sec e)). pose proof (hex0x_len 8 (u_nsec e)). pose proof (hex0x_len 6 (u_color e)).
  pose proof (dec_d_len (u_pid e) eo_pid0). pose proof (dec_d_len (u_tid e) eo_tid0).
  assert (zlen (dec_d (u_prio e)) <= 1).
  { unfold dec_d, dec_u. destruct (Z.ltb_spec (u_prio e) 0); [lia|]. apply (dec_digits_len 20 (u_prio e) 1); cbn; lia. }
  assert (zlen (dec_d (if u_bin e then 1 else 0)) = 1) by (now destruct (u_bin e)).
  assert (zlen (dec_d (csv_len e)) <= 11) by (apply dec_d_len; unfold int32, csv_len; destruct (u_bin e); lia).
  lia.
Qed.

(** What the prefix of a line shows. *)
Lemma ztake_prefix n (a b : list Z) : exists c, ztake n (a ++ b) = ztake n a ++ c.
Proof.
  destruct (Z.leb_spec 0 n).
  - rewrite ztake_app by lia. eauto.
  - exists []. unfold ztake. replace (Z.to_nat n) with O by lia. reflexivity.
Qed.
Lemma prefix_prio_tag klog o e pre post : parts klog o e = Ok (pre, post) ->
  exists a b, pre = a ++ [prio_letter (u_prio e); 32] ++ ztake 127 (u_tag e) ++ b ++ [58; 32].
Proof.
  unfold parts, klog_parts, ulog_parts. intros H.
  assert (P : 0 <= u_prio e < 8).
  { destruct klog; destruct (Z.ltb_spec (u_prio e) 0); try discriminate; destruct (Z.leb_spec 8 (u_prio e)); try discriminate; lia. }
  assert (L : znth (u_prio e) priotab = prio_letter (u_prio e)).
  { assert (u_prio e = 0 \/ u_prio e = 1 \/ u_prio e = 2 \/ u_prio e = 3 \/ u_prio e = 4 \/ u_prio e = 5 \/ u_prio e = 6 \/ u_prio e = 7) as D by lia.
    destruct D as [->|[->|[->|[->|[->|[->|[->| ->]]]]]]]; reflexivity. }
  assert (T : exists t, u_tag e = ztake 127 (u_tag e) ++ t) by (exists (zdrop 127 (u_tag e)); now rewrite ztake_zdrop).
  destruct T as [t T].
  assert (PT : forall n, exists t', padr n (u_tag e) = ztake 127 (u_tag e) ++ t').
  { intros n. exists (t ++ zrepeat 32 (n - zlen (u_tag e))). unfold padr. rewrite app_assoc. now rewrite <- T. }
  assert (PL : forall n x, exists t', padr n (local_str 128 (padr 12 (u_tag e) ++ x)) = ztake 127 (u_tag e) ++ t').
  { intros n x. unfold local_str. change (128 - 1) with 127. unfold padr at 2. rewrite <- app_assoc.
    destruct (ztake_prefix 127 (u_tag e) (zrepeat 32 (12 - zlen (u_tag e)) ++ x)) as [c ->].
    unfold padr. rewrite <- app_assoc. eauto. }
  destruct (Z.ltb_spec (u_prio e) 0); [lia|]. destruct (Z.leb_spec 8 (u_prio e)); [lia|]. cbn [orb] in H.
  rewrite L in H. set (letter := prio_letter (u_prio e)) in *. clearbody letter.
  assert (G : forall hd body q, (exists t', body = ztake 127 (u_tag e) ++ t') ->
    exists a b, (hd ++ [letter] ++ [32] ++ body ++ q) ++ [58; 32] = a ++ [letter; 32] ++ ztake 127 (u_tag e) ++ b ++ [58; 32]).
  { intros hd body q [t' ->]. exists hd, (t' ++ q). rewrite <- !app_assoc. reflexivity. }
  assert (G0 : forall hd body, (exists t', body = ztake 127 (u_tag e) ++ t') ->
    exists a b, (hd ++ [letter] ++ [32] ++ body) ++ [58; 32] = a ++ [letter; 32] ++ ztake 127 (u_tag e) ++ b ++ [58; 32]).
  { intros hd body [t' ->]. exists hd, t'. rewrite <- !app_assoc. reflexivity. }
  destruct klog; destruct (o_fmt o); injection H as <- _.
  all: try (apply G0; auto; fail).
  all: try (apply G; auto; fail).
  - match goal with |- exists a b, (?h ++ ?t ++ 46 :: ?d ++ 32 :: letter :: 32 :: ?x) ++ _ = _ =>
      destruct (G0 (h ++ t ++ [46] ++ d ++ [32]) x (PT _)) as (a & b & E) end.
    exists a, b. rewrite <- E. rewrite <- !app_assoc. cbn [app]. rewrite <- ?app_assoc. reflexivity.
  - match goal with |- exists a b, (?h ++ ?t ++ 46 :: ?d ++ 32 :: letter :: 32 :: ?x) ++ _ = _ =>
      destruct (G0 (h ++ t ++ [46] ++ d ++ [32]) x) as (a & b & E) end.
    { destruct (u_pid e =? u_tid e); apply PL. }
    exists a, b. rewrite <- E. rewrite <- !app_assoc. cbn [app]. rewrite <- ?app_assoc. reflexivity.
Qed.

Lemma parts_with_msg klog o e m : parts klog o (with_msg e m) = parts klog o e.
Proof. reflexivity. Qed.

(** The lines of a message are unique. *)
Lemma split_nl_at a r : ~ In 10 a -> split_nl (a ++ 10 :: r) = (a, Some r).
Proof.
  induction a as [|c a IH]; intros N; [reflexivity|]. cbn [app split_nl].
  destruct (Z.eqb_spec c 10) as [->|]; [exfalso; apply N; now left|].
  rewrite IH; [reflexivity|]. intros X. apply N. now right.
Qed.
Lemma split_nl_none a : ~ In 10 a -> split_nl a = (a, None).
Proof.
  induction a as [|c a IH]; intros N; [reflexivity|]. cbn [split_nl].
  destruct (Z.eqb_spec c 10) as [->|]; [exfalso; apply N; now left|].
  rewrite IH; [reflexivity|]. intros X. apply N. now right.
Qed.
Lemma lines_unique : forall ls m fuel, lines_of m ls -> (length m < fuel)%nat -> lines fuel m = ls.
Proof.
  induction ls as [|l ls IH]; intros m fuel [F D] Hf; (destruct fuel as [|n]; [lia|]).
  - destruct D as [[D _]|(i & la & D & _)]; [congruence|]. destruct i; discriminate.
  - inversion F as [|? ? Nl Fl]; subst. cbn [lines].
    assert (R : (ls = [] /\ m = l) \/ exists r, m = l ++ 10 :: r /\ (r = [] /\ ls = [] \/ r <> [] /\ lines_of r ls)).
    { destruct D as [[_ ->]|(i & la & E & D2 & ->)].
      - right. cbn [map concat]. rewrite <- app_assoc. eexists. split; [reflexivity|].
        destruct ls as [|l2 ls]; [now left|]. right. split.
        + cbn. destruct l2; discriminate.
        + split; [exact Fl|]. left. split; [discriminate|reflexivity].
      - destruct i as [|l0 i].
        + injection E as -> ->. now left.
        + injection E as -> ->. right. cbn [map concat]. rewrite <- !app_assoc. eexists. split; [reflexivity|]. right.
          destruct D2 as [D2|D2]; [|discriminate]. split.
          * destruct i as [|l1 i]; [exact D2|]. cbn. destruct l1; discriminate.
          * split; [exact Fl|]. right. exists i, la. auto. }
    destruct R as [[-> ->]|(r & -> & [[-> ->]|[Hr L]])].
    + now rewrite split_nl_none.
    + now rewrite split_nl_at.
    + rewrite split_nl_at by auto. destruct r as [|c r]; [congruence|]. f_equal. apply IH; [exact L|].
      rewrite app_length in Hf. cbn in *. lia.
Qed.
