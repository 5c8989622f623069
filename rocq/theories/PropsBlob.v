(** Property C147: large data sent in chunks, through a device, to a reader that puts it together
    again. Vocabulary: BlobSpec.v. *)
From Coq Require Import ZArith String List Bool Permutation Sorted Lia ZifyBool ZifyNat Arith.
From Verif Require Import Bytes BytesProofs Ring RingSpec RingHistory RingRefine Parse ParseSpec ParseProofs ParseE2E PropsParse Iov
  BinChunk BinChunkSpec BinChunkProofs Cat CatSpec CatMerge Render Live LiveSpec LiveProofs LiveDump PropsLive SaidSpec PropsSaid BlobSpec BlobProofs.
Import ListNotations.
Open Scope Z_scope.

Definition short_names (m : said) : Prop := zlen (comm_str (t_pcomm (s_task m))) <= 15 /\ zlen (comm_str (t_tcomm (s_task m))) <= 15.

Lemma calls_bits tag n (calls : list (list Z * list (list Z))) :
  Forall (fun c => sent tag n (fst c) (snd c) /\ fst c <> [] /\ zlen (fst c) <= 256 * piece tag n) calls ->
  exists xs, Forall (regular n) xs /\ concat (map snd calls) = concat (map bits xs) /\ map fst calls = map (fun x => concat (snd x)) xs /\
    Forall (fun c => zlen c <= 4076 - 32 - 5 - zlen tag) (concat (map snd calls)).
Proof.
  induction 1 as [|[data cs] calls (H1 & H2 & H3) _ (xs & A & B & C & D)]; cbn [map concat fst snd] in *.
  - exists []. repeat split; constructor.
  - destruct (sent_bits _ _ _ _ H1 H2 H3) as (x & R & -> & <- & F). exists (x :: xs). cbn [map concat]. rewrite B, C.
    split; [constructor; assumption|]. split; [reflexivity|]. split; [reflexivity|]. rewrite <- B. apply Forall_app. auto.
Qed.

Lemma came_shown pid tid tag l : Forall short_names l -> Forall (fun c => zlen c <= 4076 - 32 - 5 - zlen tag) (map s_msg (filter (gave pid tid tag) l)) ->
  map u_msg (filter (came pid tid tag) (map shown l)) = map s_msg (filter (gave pid tid tag) l).
Proof.
  induction l as [|m l IH]; intros S F; [reflexivity|]. inversion S as [|? ? (S1 & S2) S']; subst. cbn [map filter] in *.
  assert (E : came pid tid tag (shown m) = gave pid tid tag m) by reflexivity. rewrite E. destruct (gave pid tid tag m) eqn:G; [|apply IH; assumption].
  cbn [map] in *. inversion F as [|? ? F1 F']; subst. rewrite IH by assumption. f_equal. cbn [shown u_msg]. unfold fitting.
  unfold gave in G. apply andb_prop in G. destruct G as [G B]. apply andb_prop in G. destruct G as [_ G].
  destruct (list_eq_dec Z.eq_dec (s_tag m) tag) as [<-|]; [|discriminate]. rewrite B. apply ztake_all.
  pose proof (names_short (s_task m) S1 S2). lia.
Qed.

Lemma weights_app a b : weights (a ++ b) = weights a + weights b.
Proof. induction a as [|x a IH]; cbn [app weights fold_right]; [reflexivity|]. fold (weights (a ++ b)). fold (weights a). lia. Qed.
Lemma weights_nonneg a : 0 <= weights a.
Proof.
  induction a as [|m a IH]; cbn [weights fold_right]; [lia|]. fold (weights a). unfold weight.
  pose proof (zlen_nonneg (names (s_task m))). pose proof (zlen_nonneg (s_tag m)). pose proof (zlen_nonneg (fitting m)). destruct (binary_of (s_prio m)); lia.
Qed.

(** Several devices to which any programs logged text and binary data through the library, and
    from which anything may have been read; then a dump that shows binary entries too. For every
    device, every thread and every tag: if what the thread gave as binary data under the tag was
    given by calls of ulog_bin_writev_chunk that reported success, with non-empty data of at most
    256 pieces, then a reader of the dump finds in it exactly these data, whole and in order, from
    some point on; all of them if the buffer of the device can hold what was logged.
    (Missing for the full C147: data of more than 256 pieces, see the refutation.) *)
Theorem C147_blobs_partial : forall uid gs ls, Forall (started uid) gs -> Forall2 was_given gs ls ->
  Forall (fun g => c_string (g_nm g)) gs -> Forall (Forall (fun m => 0 <= s_sec m /\ 0 <= s_nsec m)) ls ->
  exists q need, (forall fuel, (need < fuel)%nat ->
      exists ns' c', process_logs fuel (live_env true uid) true 0 (map g_node gs) (open_ctx 0 (map g_mark gs)) 0
                       = Ok (Some (ns', c', 0)) /\ entries (c_out c') = q) /\
  forall d g l pid tid tag n calls, nth_error gs d = Some g -> nth_error ls d = Some l -> g_all g = true -> Forall short_names l ->
    Forall (fun c => sent tag n (fst c) (snd c) /\ fst c <> [] /\ zlen (fst c) <= 256 * piece tag n) calls ->
    map s_msg (filter (gave pid tid tag) l) = concat (map snd calls) ->
    exists k, glue n None (map u_msg (filter (came pid tid tag) (map snd (filter (fun m => Nat.eqb (fst m) d) q)))) = skipn k (map fst calls) /\
      (weights l <= 2 ^ g_pow2 g - 12300 -> k = O).
Proof.
  intros uid gs ls HS HT HN HI. destruct (given_dump true uid gs ls HS HT HN HI) as (us & R & q & P & D).
  exists q, (2 * count us)%nat. split; [exact D|].
  intros d g l pid tid tag n calls Eg El Ga Sh Fc Hm. rewrite (picks_devs _ _ _ P d).
  assert (W : forall x, filter (wanted true) x = x).
  { intros x. induction x as [|y x IH]; cbn; [reflexivity|]. rewrite IH. reflexivity. }
  rewrite W.
  assert (Ru : remembers uid g l (nth d us [])).
  { clear - R Eg El. revert ls us d R Eg El. induction gs as [|g0 gs IH]; intros ls us d R Eg El; [destruct d; discriminate|].
    destruct ls as [|l0 ls]; [destruct d; discriminate|]. cbn [combine] in R. inversion R as [|? u ? us' (R1 & _) R2]; subst.
    destruct d as [|d]; cbn [nth_error nth] in *; [inversion Eg; inversion El; subst; exact R1|apply (IH ls us' d); assumption]. }
  destruct Ru as (lost & kept & -> & Hw & Hu). rewrite Ga in Hu. cbv zeta iota in Hu.
  destruct (calls_bits tag n calls Fc) as (xs & Rx & Ex & Ec & Ff). rewrite Ex in Hm. rewrite filter_app, map_app in Hm.
  apply Forall_app in Sh. destruct Sh as [_ Sh].
  assert (Ek : map u_msg (filter (came pid tid tag) (nth d us [])) = map s_msg (filter (gave pid tid tag) kept)).
  { assert (C : map u_msg (filter (came pid tid tag) (map shown kept)) = map s_msg (filter (gave pid tid tag) kept)).
    { apply came_shown; [exact Sh|]. rewrite Ex, <- Hm in Ff. apply Forall_app in Ff. tauto. }
    destruct kept as [|next kept]; [rewrite Hu; reflexivity|]. destruct Hu as [(_ & ->)|(_ & r & (text & -> & _) & ->)]; [exact C|].
    rewrite <- C. cbn [filter]. unfold came at 1. cbn [u_bin]. rewrite andb_false_r. reflexivity. }
  rewrite Ek, Ec. destruct (glue_suffix n xs _ _ Rx (eq_sym Hm)) as (k & K & K0). exists k. split; [exact K|].
  intros Hl. apply K0. destruct Hw as [->|Hw]; [reflexivity|]. exfalso. rewrite weights_app in Hl. pose proof (weights_nonneg lost). lia.
Qed.
Print Assumptions C147_blobs_partial.

(** ** More than 256 pieces *)
(** A call given the pieces of its data. *)
Lemma sent_pieces tag ps : 0 < piece tag 0 -> Forall (fun p => 0 < zlen p <= piece tag 0) ps -> Forall (fun p => zlen p = piece tag 0) (removelast ps) ->
  zlen (concat ps) < 2 ^ 64 -> sent tag 0 (concat ps) (numbered [] 0 ps).
Proof.
  intros Hp F1 F2 L. pose proof (zlen_nonneg tag). unfold piece in *.
  destruct (writev_chunk_spec (zlen tag + 1) [] [concat ps]) as (all & qs & O & Ca & Co & Fo & Fl); [lia|cbn [concat]; rewrite app_nil_r; exact L|change (zlen (@nil Z)) with 0; lia|].
  cbn [concat] in Co. rewrite app_nil_r in Co. change (zlen (@nil Z)) with 0 in *.
  replace (4076 - (37 + (zlen tag + 1) + 0)) with (4076 - 32 - 4 - (zlen tag + 1) - 0 - 1) in * by lia.
  assert (qs = ps) as -> by (apply (cut_unique _ _ _ Fo Fl F1 F2 Co)).
  apply carries_numbered with (k := 0%nat) in Ca.
  exists (fun _ => 1), [], [concat ps], all. split; [reflexivity|]. split; [cbn [concat]; apply app_nil_r|]. split; [exact L|]. split; [lia|].
  split; [|symmetry; exact Ca]. destruct (O (fun _ => 1)) as [(E & _)|(j & _ & _ & Neg & _)]; [exact E|lia].
Qed.

(** The number of a piece is one byte: data of 257 pieces is sent as the very messages of data of
    256 pieces followed by data of one piece. No reader can tell them apart. *)
Theorem C147_long_refuted : exists tag one two three cs1 cs2 cs3, sent tag 0 one cs1 /\ sent tag 0 two cs2 /\ sent tag 0 three cs3 /\
  two <> [] /\ three <> [] /\ one = two ++ three /\ cs1 = cs2 ++ cs3.
Proof.
  set (tag := bytes_of_string "img"). set (p := zrepeat 7 (piece tag 0)).
  assert (Lp : zlen p = piece tag 0) by (unfold p; apply zlen_zrepeat; vm_compute; discriminate).
  assert (F : forall k, Forall (fun p => 0 < zlen p <= piece tag 0) (repeat p k) /\ Forall (fun p => zlen p = piece tag 0) (removelast (repeat p k))).
  { intros k. assert (A : Forall (fun q => q = p) (repeat p k)) by (apply Forall_forall; intros q Hq; apply repeat_spec in Hq; exact Hq). split.
    - eapply Forall_impl; [|exact A]. intros q ->. rewrite Lp. change (piece tag 0) with 4035. lia.
    - apply Forall_forall. intros q Hq. assert (In q (repeat p k)) by (destruct k; [destruct Hq|]; rewrite (app_removelast_last p) by discriminate; apply in_app_iff; left; exact Hq).
      rewrite Forall_forall in A. rewrite (A q) by assumption. exact Lp. }
  assert (L : forall k, zlen (concat (repeat p k)) = Z.of_nat k * 4035).
  { induction k as [|k IH]; cbn [repeat concat]; [reflexivity|]. rewrite zlen_app, IH, Lp. change (piece tag 0) with 4035. lia. }
  assert (S : forall k, Z.of_nat k * 4035 < 2 ^ 64 -> sent tag 0 (concat (repeat p k)) (numbered [] 0 (repeat p k))).
  { intros k Hk. apply sent_pieces; [reflexivity|apply F|apply F|rewrite L; exact Hk]. }
  assert (E : repeat p 257 = repeat p 256 ++ repeat p 1) by (rewrite <- repeat_app; reflexivity).
  exists tag, (concat (repeat p 257)), (concat (repeat p 256)), (concat (repeat p 1)), (numbered [] 0 (repeat p 257)), (numbered [] 0 (repeat p 256)), (numbered [] 0 (repeat p 1)).
  split; [apply S; reflexivity|]. split; [apply S; reflexivity|]. split; [apply S; reflexivity|].
  split; [intros X; apply (f_equal zlen) in X; rewrite L in X; discriminate X|].
  split; [intros X; apply (f_equal zlen) in X; rewrite L in X; discriminate X|].
  rewrite E. split; [apply concat_app|]. rewrite numbered_app, repeat_length. f_equal.
Qed.
Print Assumptions C147_long_refuted.

(** A thread that logged a text and sent two pieces of data. *)
Definition ex_bt : list Z := bytes_of_string "img".
Definition ex_vec (data : list Z) : list (list Z) := [[]; [0]; data].
Definition ex_bops : list op := [OpOpen 1 false true false false;
  OpWrite 1 ex_task 1 0 (iovec (bin_iov (ex_bt ++ [0]) (ex_vec [7; 8])));
  say 1 ex_m1;
  OpWrite 1 ex_task 2 0 (iovec (bin_iov (ex_bt ++ [0]) (ex_vec [9])))].
Definition ex_said : list said := [bin_said ex_task 1 0 ex_bt [0; 7; 8]; ex_m1; bin_said ex_task 2 0 ex_bt [0; 9]].
Lemma ex_bgiven : given ex_bops [OutVal 0; OutVal 11; OutVal 11; OutVal 10] ex_said.
Proof.
  apply (gv_vec [_; _; _] [_; _; _] [_; _] 1 ex_task 2 0 ex_bt (ex_vec [9])).
  2: { unfold sayable, c_string, uint32, int32; cbn; repeat split; try lia; try discriminate; intuition discriminate. }
  apply (gv_msg [_; _] [_; _] [_]); [|apply ex_sayable; cbn; auto].
  apply (gv_vec [_] [_] [] 1 ex_task 1 0 ex_bt (ex_vec [7; 8])).
  2: { unfold sayable, c_string, uint32, int32; cbn; repeat split; try lia; try discriminate; intuition discriminate. }
  apply (gv_quiet [] []); [constructor|exact Logic.I].
Qed.
Lemma ex_brun : outs_of "ulog_app" ex_bops = Some [OutVal 0; OutVal 11; OutVal 11; OutVal 10].
Proof. vm_compute. reflexivity. Qed.
Lemma ex_blog : started 0 (ex_log "ulog_app" ex_bops) /\ was_given (ex_log "ulog_app" ex_bops) ex_said /\
  g_nm (ex_log "ulog_app" ex_bops) = bytes_of_string "ulog_app" /\ g_all (ex_log "ulog_app" ex_bops) = true /\ g_pow2 (ex_log "ulog_app" ex_bops) = 14.
Proof.
  split.
  { apply ex_log_started; [vm_compute; reflexivity|vm_compute; discriminate|repeat constructor]. }
  pose proof ex_brun as E. pose proof ex_bgiven as G. revert E G. generalize [OutVal 0; OutVal 11; OutVal 11; OutVal 10]. generalize ex_bops ex_said.
  intros ops l outs E G. unfold outs_of in E. unfold was_given, ex_log. destruct (run _ ops) as [[d x]|] eqn:R; [|discriminate].
  destruct (add_ulog_device d 2 true 0) as [[[n m]|]|] eqn:A; try discriminate. cbn [g_nm g_mem g_pow2 g_ops g_all].
  split; [|repeat split]. exists d, outs. rewrite R. split; [congruence|exact G].
Qed.
Example C147_ex : exists g l calls, started 0 g /\ was_given g l /\ c_string (g_nm g) /\ Forall (fun m => 0 <= s_sec m /\ 0 <= s_nsec m) l /\
  g_all g = true /\ Forall short_names l /\
  Forall (fun c => sent ex_bt 0 (fst c) (snd c) /\ fst c <> [] /\ zlen (fst c) <= 256 * piece ex_bt 0) calls /\
  map s_msg (filter (gave 100 107 ex_bt) l) = concat (map snd calls) /\ weights l <= 2 ^ g_pow2 g - 12300 /\ map fst calls = [[7; 8]; [9]].
Proof.
  destruct ex_blog as (A & B & C & D & E). exists (ex_log "ulog_app" ex_bops), ex_said, [([7; 8], [[0; 7; 8]]); ([9], [[0; 9]])].
  revert A B C D E. generalize (ex_log "ulog_app" ex_bops). intros g A B C D E.
  split; [exact A|]. split; [exact B|]. split; [rewrite C; vm_compute; intuition discriminate|].
  split; [repeat apply Forall_cons; try apply Forall_nil; split; vm_compute; discriminate|]. split; [exact D|].
  split; [repeat apply Forall_cons; try apply Forall_nil; split; vm_compute; discriminate|].
  split.
  { apply Forall_cons; [|apply Forall_cons; [|apply Forall_nil]]; (split; [|split; [discriminate|vm_compute; discriminate]]).
    - apply (sent_pieces ex_bt [[7; 8]]); [reflexivity|constructor; [split; vm_compute; first [reflexivity|discriminate]|constructor]|constructor|reflexivity].
    - apply (sent_pieces ex_bt [[9]]); [reflexivity|constructor; [split; vm_compute; first [reflexivity|discriminate]|constructor]|constructor|reflexivity]. }
  split; [vm_compute; reflexivity|]. split; [rewrite E; vm_compute; discriminate|reflexivity].
Qed.
