(** Lemmas about data sent in chunks (C147). *)
From Coq Require Import ZArith String List Bool Permutation Sorted Lia ZifyBool ZifyNat Arith.
From Verif Require Import Bytes BytesProofs Ring RingSpec RingHistory RingRefine Parse ParseSpec ParseProofs ParseE2E PropsParse Iov
  BinChunk BinChunkSpec BinChunkProofs Cat CatSpec CatMerge Render Live LiveSpec LiveProofs LiveDump PropsLive SaidSpec PropsSaid BlobSpec.
Import ListNotations.
Open Scope Z_scope.

(** ** What the device holds *)
Lemma vec_entry t sec nsec tag v : requested false t sec nsec (iovec (bin_iov (tag ++ [0]) v)) = entry_said (bin_said t sec nsec tag (concat v)).
Proof.
  unfold entry_said, requested. cbn [bin_said s_task s_sec s_nsec s_prio s_tag s_msg]. rewrite !iovec_bytes.
  cbn [kernel_iov bin_iov concat]. change (binary_of 134) with true. cbn iota. rewrite app_nil_r. reflexivity.
Qed.
Lemma given_ledger ops outs l : given ops outs l -> forall h, map fst h = ops -> map (fun ev => render (snd ev)) h = outs ->
  (forall f, m_raw (ledger_of h) f = false) /\ m_acc (ledger_of h) = map entry_said l /\ Forall sayable l.
Proof.
  assert (X : forall (h : history) ops o outs x, map fst h = ops ++ [o] -> map (fun ev => render (snd ev)) h = outs ++ [x] ->
    exists h0 y, h = h0 ++ [(o, y)] /\ render y = x /\ map fst h0 = ops /\ map (fun ev => render (snd ev)) h0 = outs).
  { intros h ops0 o outs0 x E1 E2. destruct h as [|ev h _] using rev_ind; [destruct ops0; discriminate|].
    rewrite map_app in E1, E2. cbn [map] in *. apply app_inj_tail in E1, E2. destruct ev as [o' y]. cbn [fst snd] in *.
    destruct E1 as [E1 ->], E2 as [E2 E3]. exists h, y. auto. }
  assert (V : forall y v, render y = OutVal v -> y = AVal v) by (intros y v; destruct y; cbn; congruence).
  assert (NZ : forall m, sayable m -> zlen (e_payload (entry_said m)) <> 0).
  { intros m S Z0. rewrite (entry_said_eq m S) in Z0. cbn [e_payload] in Z0. unfold the_payload, payload in Z0.
    rewrite !zlen_app, zlen_le in Z0.
    repeat match type of Z0 with context [zlen ?z] => lazymatch goal with H : 0 <= zlen z |- _ => fail | _ => pose proof (zlen_nonneg z) end end. lia. }
  induction 1 as [|ops outs l fid m v T IH S|ops outs l fid t sec nsec tag v x T IH S|ops outs l fid euid v T IH|ops outs l o x T IH NV|ops outs l o x T IH Q];
    intros h E1 E2; [assert (h = []) as -> by (destruct h; [reflexivity|discriminate]); cbn; auto|..];
    destruct (X h _ _ _ _ E1 E2) as (h0 & y & -> & Ey & E1' & E2'); destruct (IH h0 E1' E2') as (R & A & Sy);
    unfold ledger_of; rewrite fold_left_app; fold (ledger_of h0); cbn [fold_left].
  - apply V in Ey. subst y. cbn [say record]. rewrite R. fold (entry_said m).
    destruct (Z.eqb_spec (zlen (e_payload (entry_said m))) 0) as [Z0|_]; [exfalso; apply (NZ m S Z0)|].
    cbn [m_raw m_acc]. rewrite A, map_app. split; [exact R|]. split; [reflexivity|]. apply Forall_app. auto.
  - apply V in Ey. subst y. cbn [record]. rewrite R, vec_entry. set (m := bin_said t sec nsec tag (concat v)) in *.
    destruct (Z.eqb_spec (zlen (e_payload (entry_said m))) 0) as [Z0|_]; [exfalso; apply (NZ m S Z0)|].
    cbn [m_raw m_acc]. rewrite A, map_app. split; [exact R|]. split; [reflexivity|]. apply Forall_app. auto.
  - apply V in Ey. subst y. cbn [record m_raw m_acc]. auto.
  - destruct o as [f1 rd wr al nm|f1|f1 nb sg|f1 eu ct va|f1 t sec nsec it|f1 eu|f1 c eu]; destruct y; cbn [render] in Ey;
      try (exfalso; eapply NV; symmetry; exact Ey); cbn [record m_raw m_acc]; auto; destruct c; cbn [record m_raw m_acc]; auto.
    all: match goal with |- context [match ?v with Some _ => _ | None => _ end] => destruct v end; cbn [record m_raw m_acc]; auto.
  - destruct o as [f1 rd wr al nm|f1|f1 nb sg|f1 eu ct va|f1 t sec nsec it|f1 eu|f1 c eu]; try contradiction; destruct y;
      cbn [record m_raw m_acc]; auto; try (destruct c; try contradiction; cbn [record m_raw m_acc]; auto).
    split; [|auto]. intros f. unfold set. destruct (f =? f1); auto.
Qed.

Lemma given_remembers uid g l recs us : started uid g -> was_given g l -> c_string (g_nm g) ->
  content uid g recs -> Forall2 reads_as recs us -> remembers uid g l us /\ Forall sayable l.
Proof.
  intros ((_ & _ & Hn) & _) (d0 & outs & Er & T) Hnm (h & d & gone & kept & (Ef & Ex) & Ea & EK & ->) F.
  assert (outs = map (fun ev => render (snd ev)) h) as -> by congruence.
  destruct (given_ledger _ _ _ T h Ef eq_refl) as (_ & A & S). split; [|exact S]. rewrite A in Ea.
  apply map_eq_app in Ea. destruct Ea as (lost & k & -> & <- & <-). exists lost, k. split; [reflexivity|].
  apply Forall_app in S. destruct S as [Sl Sk]. split.
  { destruct EK as [EK|EK]; [left|right; now rewrite <- (said_total k Sk)]. destruct lost; [reflexivity|discriminate]. }
  cbv zeta.
  set (mine := if g_all g then k else _).
  assert (Em : (if g_all g then map entry_said k else filter (fun e => e_euid e =? u32 uid) (map entry_said k)) = map entry_said mine /\ Forall sayable mine).
  { subst mine. destruct (g_all g); [auto|]. split.
    - apply filter_map_comm. rewrite Forall_forall in *. intros m Hm. rewrite (said_euid m (Sk m Hm)). reflexivity.
    - rewrite Forall_forall in *. intros m Hm. apply filter_In in Hm. now apply Sk. }
  destruct Em as [Em Sm]. rewrite Em in F. clearbody mine. clear Em.
  destruct mine as [|next mine]; [cbn in F; now inversion F|].
  cbn [map stream] in F. rewrite zlen_map in F.
  destruct lost as [|m0 lost].
  - left. split; [reflexivity|]. apply (shown_all _ Sm). exact F.
  - right. split; [discriminate|].
    assert (L : (0 <? zlen (m0 :: lost)) = true) by (rewrite zlen_cons; pose proof (zlen_nonneg lost); lia). rewrite L in F.
    cbn [app] in F. inversion F as [|a r b us' R R']; subst. exists r. split.
    + destruct (said_warned (g_nm g) (zlen (m0 :: lost)) next (Forall_inv Sm) Hnm Hn (zlen_nonneg _)) as (v & P & W).
      replace r with (entry_of v); [exact W|]. symmetry. apply (reads_fun _ _ _ R). exists v. auto.
    + f_equal. apply (shown_all _ Sm). exact R'.
Qed.

Lemma given_dump csv uid gs ls : Forall (started uid) gs -> Forall2 was_given gs ls ->
  Forall (fun g => c_string (g_nm g)) gs -> Forall (Forall (fun m => 0 <= s_sec m /\ 0 <= s_nsec m)) ls ->
  exists us, Forall2 (fun gl u => remembers uid (fst gl) (snd gl) u /\ Forall sayable (snd gl)) (combine gs ls) us /\
  exists q, picks utime (fun d => filter (wanted csv) (nth d us [])) q /\
    forall fuel, (2 * count us < fuel)%nat ->
      exists ns' c', process_logs fuel (live_env csv uid) true 0 (map g_node gs) (open_ctx 0 (map g_mark gs)) 0
                       = Ok (Some (ns', c', 0)) /\ entries (c_out c') = q.
Proof.
  intros HS HT HN HI. destruct (C102_any_times csv uid gs HS) as (recs & us & A & B & C).
  assert (R : Forall2 (fun gl u => remembers uid (fst gl) (snd gl) u /\ Forall sayable (snd gl)) (combine gs ls) us).
  { clear - HS HT HN A B. revert ls us HT B HS HN. induction A as [|g r gs recs Hg A IH]; intros ls us HT B HS HN;
      inversion HT as [|? l ? ls' T1 T2]; inversion B as [|? u ? us' B1 B2]; subst; cbn [combine]; constructor.
    - cbn [fst snd]. eapply given_remembers; [exact (Forall_inv HS)|exact T1|exact (Forall_inv HN)|exact Hg|exact B1].
    - apply IH; auto; eapply Forall_inv_tail; eassumption. }
  exists us. split; [exact R|]. destruct C as (q & P & C).
  { clear - R HI HT. revert us R HI.
    induction HT as [|g l gs ls T HT IH]; intros us R HI; cbn [combine] in R; inversion R as [|? u ? us' R1 R2]; subst; constructor.
    - destruct R1 as (R1 & _). eapply remembers_times; [exact (Forall_inv HI)|exact R1].
    - apply IH; [exact R2|exact (Forall_inv_tail HI)]. }
  exists q. split; [exact P|]. intros fuel Hf. apply (C fuel Hf 0). lia.
Qed.

(** ** Gluing *)
Lemma znth_app_exact (a : list Z) x b : znth (zlen a) (a ++ x :: b) = x.
Proof. rewrite znth_app by apply zlen_nonneg. rewrite Z.ltb_irrefl, Z.sub_diag. reflexivity. Qed.
Lemma glue_cont : forall n hdr ps k b rest, zlen hdr = n -> (1 <= k)%nat -> (k + length ps <= 256)%nat ->
  glue n (Some b) (numbered hdr k ps ++ rest) = glue n (Some (b ++ concat ps)) rest.
Proof.
  intros n hdr ps. induction ps as [|p ps IH]; intros k b rest Hn Hk Hl; cbn [numbered app concat]; [rewrite app_nil_r; reflexivity|].
  cbn [length] in Hl.
  assert (E : znth n (hdr ++ Z.of_nat k mod 256 :: p) = Z.of_nat k).
  { rewrite <- Hn, znth_app_exact. apply Z.mod_small. lia. }
  cbn [glue]. rewrite E. replace (Z.of_nat k =? 0) with false by lia.
  rewrite IH by lia. f_equal. f_equal. rewrite app_assoc. f_equal.
  replace (hdr ++ Z.of_nat k mod 256 :: p) with ((hdr ++ [Z.of_nat k mod 256]) ++ p) by (rewrite <- app_assoc; reflexivity).
  f_equal. apply zdrop_app_exact. rewrite zlen_app, Hn. reflexivity.
Qed.
Lemma glue_skip : forall n hdr ps k rest, zlen hdr = n -> (1 <= k)%nat -> (k + length ps <= 256)%nat ->
  glue n None (numbered hdr k ps ++ rest) = glue n None rest.
Proof.
  intros n hdr ps. induction ps as [|p ps IH]; intros k rest Hn Hk Hl; cbn [numbered app]; [reflexivity|].
  cbn [length] in Hl.
  assert (E : znth n (hdr ++ Z.of_nat k mod 256 :: p) = Z.of_nat k).
  { rewrite <- Hn, znth_app_exact. apply Z.mod_small. lia. }
  cbn [glue]. rewrite E. replace (Z.of_nat k =? 0) with false by lia. apply IH; lia.
Qed.

Lemma numbered_split : forall hdr ps k a b, numbered hdr k ps = a ++ b -> b = numbered hdr (k + length a) (skipn (length a) ps) /\ (length a <= length ps)%nat.
Proof.
  intros hdr ps. induction ps as [|p ps IH]; intros k a b H; cbn [numbered] in H.
  - symmetry in H. apply app_eq_nil in H. destruct H as [-> ->]. cbn. auto.
  - destruct a as [|x a]; cbn [app length skipn] in *.
    + rewrite Nat.add_0_r, <- H. split; [reflexivity|lia].
    + injection H as _ H. destruct (IH _ _ _ H) as [-> L]. split; [f_equal; lia|lia].
Qed.
Lemma numbered_app : forall hdr a b k, numbered hdr k (a ++ b) = numbered hdr k a ++ numbered hdr (k + length a) b.
Proof.
  intros hdr a. induction a as [|p a IH]; intros b k; cbn [numbered app length]; [rewrite Nat.add_0_r; reflexivity|].
  rewrite IH. do 2 f_equal. f_equal. lia.
Qed.

Definition bits (x : list Z * list (list Z)) : list (list Z) := numbered (fst x) 0 (snd x).
Definition regular (n : Z) (x : list Z * list (list Z)) : Prop := zlen (fst x) = n /\ snd x <> [] /\ (length (snd x) <= 256)%nat.
Lemma glue_all : forall n xs cur, Forall (regular n) xs ->
  glue n cur (concat (map bits xs)) = (match cur with Some b => [b] | None => [] end) ++ map (fun x => concat (snd x)) xs.
Proof.
  intros n xs. induction xs as [|[hdr ps] xs IH]; intros cur F; cbn [map concat].
  - cbn [glue]. rewrite app_nil_r. reflexivity.
  - inversion F as [|? ? (Hn & Hne & Hl) F']; subst. cbn [fst snd] in *. unfold bits at 1. cbn [fst snd].
    destruct ps as [|p ps]; [contradiction|]. cbn [numbered app length] in *. cbn [glue].
    assert (E : znth (zlen hdr) (hdr ++ Z.of_nat 0 mod 256 :: p) = 0) by apply znth_app_exact.
    rewrite E. cbn [Z.eqb]. f_equal. rewrite glue_cont by lia. rewrite IH by exact F'. cbn [concat app]. f_equal. f_equal.
    replace (hdr ++ Z.of_nat 0 mod 256 :: p) with ((hdr ++ [Z.of_nat 0 mod 256]) ++ p) by (rewrite <- app_assoc; reflexivity).
    apply zdrop_app_exact. rewrite zlen_app. reflexivity.
Qed.
Lemma glue_suffix : forall n xs a b, Forall (regular n) xs -> concat (map bits xs) = a ++ b ->
  exists k, glue n None b = skipn k (map (fun x => concat (snd x)) xs) /\ (a = [] -> k = O).
Proof.
  intros n xs. induction xs as [|x xs IH]; intros a b F E; cbn [map concat] in E.
  - symmetry in E. apply app_eq_nil in E. destruct E as [-> ->]. exists O. auto.
  - destruct a as [|y a].
    + cbn [app] in E. subst b. exists O. split; [|auto]. change (bits x ++ concat (map bits xs)) with (concat (map bits (x :: xs))). rewrite glue_all by exact F. reflexivity.
    + inversion F as [|? ? R F']; subst. apply app_eq_app in E. destruct E as (l & [(E1 & E2)|(E1 & E2)]).
      * destruct R as (Hn & Hne & Hl). unfold bits in E1. destruct (numbered_split _ _ _ _ _ E1) as [El Ll]. exists 1%nat. split; [|discriminate].
        rewrite E2, El. rewrite glue_skip; [|exact Hn|cbn; lia|rewrite skipn_length; lia]. rewrite glue_all by exact F'. reflexivity.
      * destruct (IH _ _ F' E2) as (k & K & _). exists (S k). split; [exact K|discriminate].
Qed.

(** ** One call *)
Lemma pieces_count : forall mx ps, 0 < mx -> Forall (fun p : list Z => 0 < zlen p) ps -> Forall (fun p => zlen p = mx) (removelast ps) ->
  ps <> [] -> (Z.of_nat (length ps) - 1) * mx < zlen (concat ps).
Proof.
  intros mx ps Hm. induction ps as [|p ps IH]; intros F1 F2 Hne; [contradiction|]. inversion F1; subst. cbn [concat length]. rewrite zlen_app.
  destruct ps as [|q ps]; [cbn [length concat]; pose proof (zlen_nonneg (@nil Z)); change (Z.of_nat 1 - 1) with 0; lia|]. change (removelast (p :: q :: ps)) with (p :: removelast (q :: ps)) in F2. inversion F2; subst.
  assert (q :: ps <> []) as Q by discriminate. specialize (IH ltac:(assumption) ltac:(assumption) Q). cbn [length] in *.
  replace (Z.of_nat (S (S (length ps))) - 1) with (1 + (Z.of_nat (S (length ps)) - 1)) by lia. rewrite Z.mul_add_distr_r. lia.
Qed.
Lemma sent_bits tag n data cs : sent tag n data cs -> data <> [] -> zlen data <= 256 * piece tag n ->
  exists x, regular n x /\ cs = bits x /\ concat (snd x) = data /\ Forall (fun c => zlen c <= 4076 - 32 - 5 - zlen tag) cs.
Proof.
  intros (res & hdr & iov & vs & Hn & Hd & Hs & Ht & E & ->) Hne Hz. pose proof (zlen_nonneg tag) as Tg. rewrite <- Hd in Hs.
  assert (H4 : 37 + (zlen tag + 1) + zlen hdr < 4076).
  { destruct (Z.leb_spec 4076 (37 + (zlen tag + 1) + zlen hdr)) as [L|L]; [|exact L]. rewrite refused in E by lia. discriminate E. }
  destruct (writev_chunk_spec (zlen tag + 1) hdr iov ltac:(lia) Hs H4) as (all & ps & O & Ca & Co & Fo & Fl).
  assert (A : vs = all).
  { destruct (O res) as [(E' & _)|(j & _ & _ & Neg & E')]; rewrite E' in E; [congruence|]. exfalso. assert (res j = 0) by congruence. lia. }
  subst vs. apply carries_numbered with (k := 0%nat) in Ca. exists (hdr, ps). cbn [fst snd]. unfold bits, regular. cbn [fst snd].
  assert (Pn : ps <> []) by (intros ->; apply Hne; rewrite <- Hd, <- Co; reflexivity).
  split; [split; [exact Hn|]; split; [exact Pn|]|].
  - assert (0 < piece tag n) by (unfold piece; lia).
    pose proof (pieces_count (piece tag n) ps ltac:(assumption)) as PC. rewrite Co, Hd in PC.
    assert (Z.of_nat (length ps) - 1 < 256); [|lia].
    apply (Z.mul_lt_mono_pos_r (piece tag n)); [assumption|]. eapply Z.lt_le_trans; [apply PC|exact Hz]; [| |exact Pn].
    + eapply Forall_impl; [|exact Fo]. cbn beta. intros p Hp. lia.
    + eapply Forall_impl; [|exact Fl]. cbn beta. intros p Hp. unfold piece. lia.
  - split; [exact Ca|]. split; [congruence|]. rewrite Ca. apply (numbered_len hdr ps 0) in Fo. eapply Forall_impl; [|exact Fo]. cbn beta. intros c Hc. lia.
Qed.
