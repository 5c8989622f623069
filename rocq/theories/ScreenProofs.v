(** From the entries that a device has accepted to the bytes that ulogcat prints: the part that does
    not depend on how the entries were written (used for C134 and later). *)
From Coq Require Import ZArith String List Bool Permutation Sorted Lia ZifyBool ZifyNat Arith.
From Verif Require Import Bytes BytesProofs Ring RingSpec RingHistory RingRefine RingLemmas RingObs Parse ParseSpec ParseProofs ParseE2E PropsParse Iov
  Cat CatSpec CatMerge Render RenderSpec RenderProofs Live LiveSpec LiveProofs LiveDump PropsRing PropsLive SaidSpec PropsSaid Program ProgramSpec PropsProgram.
Import ListNotations.
Open Scope Z_scope.

(** An entry with what a viewer reads in it; [eu]: the user it is attributed to. *)
Record looks {A} (ent : A -> entry) (u : A -> uentry) (eu : A -> Z) (a : A) : Prop := {
  lk_meta : exists pid tid pay, ent a = mkEntry (meta pid tid (u_sec (u a)) (u_nsec (u a)) (eu a)) pay;
  lk_read : reads_as (enc 2 (ent a)) (u a);
  lk_text : u_bin (u a) = false;
  lk_prio : 0 <= u_prio (u a) < 8;
  lk_sec : 0 <= u_sec (u a) < 2 ^ 31;
  lk_nsec : 0 <= u_nsec (u a) < 2 ^ 31;
  lk_room : zlen (block (u_prio (u a)) (u_tag (u a)) (u_msg (u a))) < 5248 }.
Definition shows_as (u : uentry) : list Z := block (u_prio u) (u_tag u) (u_msg u).

Lemma warned_any nm n pid tid sec nsec euid pay : ~ In 0 nm -> zlen nm <= 15 -> 0 <= n -> int32 sec -> int32 nsec ->
  exists v, parsed_as (enc 2 (report nm n (mkEntry (meta pid tid sec nsec euid) pay))) v /\
    warning nm n (mkSaid (mkTask 0 0 [] [] 0) sec nsec 0 [] []) (entry_of v).
Proof.
  intros Hnm L Hn H6 H7. destruct (Z.ltb_spec n (2 ^ 31)) as [B|B].
  - destruct (C24_report_parses_partial nm n pid tid sec nsec euid pay Hnm L H6 H7 (conj Hn B)) as (digits & P & D1 & D2).
    eexists. split; [exact P|]. eexists. split; [reflexivity|]. intros _. exists digits. auto.
  - eexists. split; [apply report_parsed; assumption|]. eexists. split; [reflexivity|]. intros X. lia.
Qed.
Lemma read_all {A} (ent : A -> entry) u eu l : Forall (looks ent u eu) l ->
  forall us, Forall2 reads_as (map (enc 2) (map ent l)) us -> us = map u l.
Proof.
  induction 1 as [|m l Hm Hl IH]; intros us H; inversion H as [|a x b us' R R']; subst; [reflexivity|].
  cbn [map]. f_equal; [|now apply IH]. apply (reads_fun _ _ _ R). apply (lk_read _ _ _ _ Hm).
Qed.

Lemma entries_screen {A} (ent : A -> entry) (u : A -> uentry) (eu : A -> Z) nm mem pow2 ops d outs rfid all uid node mark paths (l : list A) :
  init_ok nm mem pow2 -> ~ In 0 nm -> Forall user_op ops ->
  run (init_dev nm mem pow2) ops = Ok (d, outs) -> add_ulog_device d rfid all uid = Ok (Some (node, mark)) ->
  (forall h, map fst h = ops -> map (fun ev => render (snd ev)) h = outs -> m_acc (ledger_of h) = map ent l) ->
  Forall (looks ent u eu) l ->
  exists lost kept, l = lost ++ kept /\ (lost = [] \/ 2 ^ pow2 - 12300 < RingSpec.total (map ent kept)) /\
    let mine := if all then kept else filter (fun a => eu a mod 2 ^ 32 =? uid mod 2 ^ 32) kept in
  exists note, ((lost = [] \/ mine = []) /\ note = [] \/ lost <> [] /\ mine <> [] /\ notice nm (zlen lost) note) /\
    forall fuel, (2 * (length mine + 1) < fuel)%nat ->
      exists ns' c', process_logs fuel (live_env false uid) true 0 [node] (open_ctx 0 [mark]) 0 = Ok (Some (ns', c', 0)) /\
        output (mkO FShort false [] false []) paths (c_out c') = Ok (map Some (note ++ concat (map (fun a => shows_as (u a)) mine))).
Proof.
  intros HI HN UA E A0 HL LK. set (g := mkLog nm mem pow2 ops rfid all node mark).
  destruct (C102_any_times false uid [g]) as (recs & us & CT & RS & D).
  { constructor; [|constructor]. split; [exact HI|]. split; [exact UA|]. exists d, outs. split; [exact E|exact A0]. }
  inversion CT as [|? rec ? recs' CT1 CT2]; subst. inversion CT2; subst. clear CT CT2.
  inversion RS as [|? w ? us' RS1 RS2]; subst. inversion RS2; subst. clear RS RS2.
  destruct CT1 as (h & d1 & gone & kept' & (Ef & Ex) & Ea & EK & ->). cbn [g g_nm g_mem g_pow2 g_ops g_all] in *.
  assert (outs = map (fun ev => render (snd ev)) h) as Eo by congruence. rewrite (HL h Ef (eq_sym Eo)) in Ea.
  apply map_eq_app in Ea as (lost & kept & -> & <- & <-). exists lost, kept. split; [reflexivity|].
  apply Forall_app in LK as [_ LK]. split.
  { destruct EK as [EK|EK]; [left; now destruct lost|right; exact EK]. }
  cbv zeta. set (mine := if all then kept else _).
  assert (MI : (if all then map ent kept else filter (fun e => e_euid e =? u32 uid) (map ent kept)) = map ent mine /\ Forall (looks ent u eu) mine).
  { subst mine. destruct all; [auto|]. split.
    - apply filter_map_comm. eapply Forall_impl; [|exact LK]. intros a La. destruct (lk_meta _ _ _ _ La) as (pid & tid & pay & ->). rewrite e_euid_meta. reflexivity.
    - rewrite Forall_forall in *. intros a Ha. apply filter_In in Ha. now apply LK. }
  destruct MI as [MI LM]. rewrite MI in RS1. clear MI LK. clearbody mine. rewrite zlen_map in RS1.
  assert (WU : (mine = [] /\ w = []) \/ (lost = [] /\ w = map u mine) \/
    (lost <> [] /\ exists c0 mine0 r, mine = c0 :: mine0 /\ warning nm (zlen lost) (mkSaid (mkTask 0 0 [] [] 0) (u_sec (u c0)) (u_nsec (u c0)) 0 [] []) r /\ w = r :: map u mine)).
  { destruct mine as [|c0 mine0]; [cbn in RS1; inversion RS1; auto|]. right. cbn [map stream] in RS1. destruct lost as [|x lost].
    - left. split; [reflexivity|]. apply (read_all ent u eu _ LM). exact RS1.
    - right. split; [discriminate|]. exists c0, mine0.
      assert (L : (0 <? zlen (x :: lost)) = true) by (rewrite zlen_cons; pose proof (zlen_nonneg lost); lia). rewrite L in RS1.
      cbn [app] in RS1. inversion RS1 as [|a r b us' R R']; subst. exists r. split; [reflexivity|]. split; [|f_equal; apply (read_all ent u eu _ LM); exact R'].
      inversion LM as [|? ? L0 _]; subst. destruct (lk_meta _ _ _ _ L0) as (pid & tid & pay & EE). rewrite EE in R.
      pose proof (lk_sec _ _ _ _ L0). pose proof (lk_nsec _ _ _ _ L0).
      destruct (warned_any nm (zlen (x :: lost)) pid tid (u_sec (u c0)) (u_nsec (u c0)) (eu c0) pay HN (proj2 (proj2 HI)) (zlen_nonneg _)) as (v & P & W);
        try (unfold ProgramSpec.int32, ParseSpec.int32; lia).
      replace r with (entry_of v); [exact W|]. symmetry. apply (reads_fun _ _ _ R). exists v. auto. }
  clear RS1. assert (TM : Forall (fun u => 0 <= u_sec u /\ 0 <= u_nsec u) (map u mine)).
  { rewrite Forall_map. eapply Forall_impl; [|exact LM]. intros a La. pose proof (lk_sec _ _ _ _ La). pose proof (lk_nsec _ _ _ _ La). lia. }
  assert (TW : Forall (fun u => 0 <= u_sec u /\ 0 <= u_nsec u) w).
  { destruct WU as [[_ ->]|[[_ ->]|(_ & c0 & mine0 & r & -> & (tx & -> & _) & ->)]]; [constructor|exact TM|]. constructor; [|exact TM].
    cbn [u_sec u_nsec SaidSpec.s_sec SaidSpec.s_nsec]. inversion TM; subst. assumption. }
  destruct (D (Forall_cons _ TW (Forall_nil _))) as (q & PK & DD). clear D.
  assert (TX : forall seen text, text_of plain paths false seen (map (fun x => (0%nat, x)) (map u mine)) text -> text = concat (map (fun a => shows_as (u a)) mine)).
  { clear - LM. induction LM as [|c l P _ IH]; intros seen text X; cbn [map concat] in *; [now inversion X|]. inversion X as [|? ? ? ? ba li re B L X' E1 E2 E3]; subst.
    cbn [andb] in B. subst ba. rewrite (IH _ _ X'). cbn [app]. f_equal.
    rewrite (shows_block (u c) (lk_text _ _ _ _ P) (lk_prio _ _ _ _ P) (lk_room _ _ _ _ P)) in L. destruct L as [L|[L _]]; [|discriminate]. injection L as L.
    symmetry. exact (some_inj _ _ L). }
  assert (WA : filter (wanted false) (map u mine) = map u mine).
  { clear - LM. induction LM as [|c l P _ IH]; cbn [map filter]; [reflexivity|]. rewrite IH. unfold wanted. now rewrite (lk_text _ _ _ _ P). }
  assert (PF : forall d, filter (wanted false) (nth d [w] []) = match d with O => filter (wanted false) w | _ => [] end) by (intros [|[|k]]; reflexivity).
  pose proof (picks_one _ _ _ PK _ PF) as EQ. clear PK PF.
  assert (CO : (count [w] <= length mine + 1)%nat /\ exists note,
     ((lost = [] \/ mine = []) /\ note = [] \/ lost <> [] /\ mine <> [] /\ notice nm (zlen lost) note) /\
     forall text, text_of plain paths false [] q text -> text = note ++ concat (map (fun a => shows_as (u a)) mine)).
  { destruct WU as [[-> ->]|[[-> ->]|(L & c0 & mine0 & r & EM & W & ->)]].
    - split; [cbn; lia|]. exists []. split; [auto|]. intros text X. rewrite EQ in X. cbn in X. inversion X. reflexivity.
    - split; [unfold count; cbn; rewrite ?app_length, ?map_length; cbn; lia|]. exists []. split; [auto|].
      intros text X. rewrite EQ, WA in X. apply (TX _ _ X).
    - split; [unfold count; cbn; rewrite ?app_length, ?map_length; cbn; lia|].
      destruct (notice_shown _ _ _ _ (proj2 (proj2 HI)) W) as (note & NO & RE). exists note. split.
      + right. split; [exact L|]. split; [congruence|exact NO].
      + intros tx X. assert (wanted false r = true) as WR by (destruct W as (? & -> & _); reflexivity).
        rewrite EQ in X. cbn [filter] in X. rewrite WR, WA in X. cbn [map] in X. inversion X as [|? ? ? ? ba li re Bn Ln X' Y1 Y2 Y3]; subst tx.
        cbn [andb] in Bn. subst ba. rewrite (TX _ _ X'). cbn [app]. rewrite RE in Ln. destruct Ln as [Ln|[Ln _]]; [|discriminate]. injection Ln as Ln. now rewrite (some_inj _ _ Ln). }
  destruct CO as (CO & note & NO & TT). exists note. split; [exact NO|]. intros fuel HF.
  destruct (DD fuel ltac:(lia) 0 ltac:(lia)) as (ns' & c' & PL & EN). cbn [Z.eqb] in EN. change (map g_node [g]) with [node] in PL. change (map g_mark [g]) with [mark] in PL.
  exists ns', c'. split; [exact PL|]. destruct (C103_text plain paths false uid 0 [mark] fuel true 0 [node] ns' c' 0 ltac:(lia) PL) as (text & O & TO).
  rewrite EN in TO. change (1 <? zlen [mark]) with false in TO. rewrite <- (TT _ TO). exact O.
Qed.
