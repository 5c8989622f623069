(** From what programs say through the library, by whatever interface, to the bytes that ulogcat prints
    (used for C137 and later). *)
From Coq Require Import ZArith String List Bool Permutation Sorted Lia ZifyBool ZifyNat Arith.
From Verif Require Import Bytes BytesProofs Ring RingSpec RingHistory RingRefine RingLemmas RingObs Parse ParseSpec ParseProofs ParseE2E PropsParse Iov
  Cat CatSpec Render Live LiveSpec PropsRing SaidSpec PropsSaid Program ProgramSpec SaidRunSpec PropsProgram ScreenProofs MixedProofs.
Import ListNotations.
Open Scope Z_scope.

(** A text said through the open file [fst x]. *)
Record texted (x : Z * said) : Prop := {
  tx_say : sayable (snd x);
  tx_bin : binary_of (s_prio (snd x)) = false;
  tx_sec : 0 <= s_sec (snd x) < 2 ^ 31;
  tx_nsec : 0 <= s_nsec (snd x) < 2 ^ 31;
  tx_room : roomy x }.

Lemma block_level p tag text : block (level_of p) tag text = block p tag text.
Proof. unfold block, label, letter, level_of. now rewrite Z.mod_mod by lia. Qed.
Lemma texted_looks x : texted x -> looks (fun x => entry_said (snd x)) (fun x => shown (snd x)) (fun x => t_euid (s_task (snd x))) x.
Proof.
  intros T. pose proof (tx_say _ T) as S. constructor.
  - exists (t_tgid (s_task (snd x))), (t_pid (s_task (snd x))), (the_payload (snd x)). rewrite (entry_said_eq _ S). reflexivity.
  - destruct (said_parsed _ S) as (v & A & B). exists v. rewrite B. auto.
  - unfold shown. cbn [u_bin]. apply (tx_bin _ T).
  - unfold shown. cbn [u_prio]. apply Z.mod_pos_bound. lia.
  - apply (tx_sec _ T).
  - apply (tx_nsec _ T).
  - unfold shown. cbn [u_prio u_tag u_msg]. rewrite block_level. apply (tx_room _ T).
Qed.
Lemma said_goes fs : forall l d, Forall (fun x => In (fst x, false) fs) l -> Forall texted l -> reachable d -> d_files d = mfiles fs -> NoDup (map fst fs) ->
  exists d', goes d fs (map (fun x => say (fst x) (snd x)) l) d' fs (map (fun x => entry_said (snd x)) l).
Proof.
  induction l as [|x l IH]; intros d I T R F N.
  - exists d. now apply goes_nil.
  - inversion I as [|? ? I0 I1]; subst. inversion T as [|? ? T0 T1]; subst. pose proof (tx_say _ T0) as S.
    destruct (goes_write d fs (fst x) false (s_task (snd x)) (s_sec (snd x)) (s_nsec (snd x))
      (kernel_iov (s_prio (snd x)) (s_tag (snd x)) (if binary_of (s_prio (snd x)) then s_msg (snd x) else s_msg (snd x) ++ [0])) R F N I0) as (d1 & G); [discriminate| |].
    { change (requested false _ _ _ _) with (entry_said (snd x)). rewrite (entry_said_eq _ S). cbn [e_payload]. unfold the_payload, payload. rewrite !zlen_app, zlen_le.
      repeat match goal with |- context [zlen ?z] => lazymatch goal with H : 0 <= zlen z |- _ => fail | _ => pose proof (zlen_nonneg z) end end. lia. }
    destruct (goes_reach _ _ _ _ _ _ G) as (R1 & F1 & N1). destruct (IH d1 I1 T1 R1 F1 N1) as (d2 & G2). exists d2. cbn [map].
    exact (goes_app _ _ _ _ _ _ _ _ _ _ G G2).
Qed.
Lemma opens_goes : forall q fs d, NoDup (map fst fs ++ q) -> reachable d -> d_files d = mfiles fs ->
  exists d', goes d fs (opens q) d' (fs ++ map (fun f => (f, false)) q) [].
Proof.
  induction q as [|f q IH]; intros fs d N R F.
  - exists d. cbn [opens map]. rewrite app_nil_r in *. now apply goes_nil.
  - assert (NI : ~ In f (map fst fs)) by (apply NoDup_remove_2 in N; intros X; apply N, in_or_app; auto).
    assert (N0 : NoDup (map fst fs)).
    { clear - N. induction (map fst fs) as [|x l IH]; [constructor|]. cbn [app] in N. inversion N as [|? ? A B]; subst. constructor; [|now apply IH]. intros X. apply A, in_or_app. auto. }
    destruct (goes_open d fs f R F N0 NI) as (d1 & G1). destruct (goes_reach _ _ _ _ _ _ G1) as (R1 & F1 & N1).
    destruct (IH (fs ++ [(f, false)]) d1) as (d2 & G2); [|exact R1|exact F1|].
    { rewrite map_app. cbn [map fst]. rewrite <- app_assoc. exact N. }
    exists d2. pose proof (goes_app _ _ _ _ _ _ _ _ _ _ G1 G2) as G. rewrite <- app_assoc in G. exact G.
Qed.

Lemma said_screen nm mem pow2 procs (l : list (Z * said)) rfid all uid paths :
  init_ok nm mem pow2 -> ~ In 0 nm -> NoDup procs -> ~ In rfid procs -> Forall (fun x => In (fst x) procs) l -> Forall texted l ->
  dumped nm mem pow2 (opens procs ++ map (fun x => say (fst x) (snd x)) l) l rfid all uid paths.
Proof.
  intros HI HN ND NR IP T. set (d0 := init_dev nm mem pow2).
  assert (R0 : reachable d0) by (exists nm, mem, pow2, [], []; split; [exact HI|split; [constructor|reflexivity]]).
  destruct (opens_goes procs [] d0 ND R0 eq_refl) as (d1 & G1). cbn [app] in G1. set (fs := map (fun f => (f, false)) procs) in *.
  destruct (goes_reach _ _ _ _ _ _ G1) as (R1 & F1 & N1).
  destruct (said_goes fs l d1) as (d & G2); auto.
  { eapply Forall_impl; [|exact IP]. intros x Hx. unfold fs. apply in_map_iff. exists (fst x). auto. }
  destruct (goes_reach _ _ _ _ _ _ G2) as (R2 & F2 & N2).
  pose proof (goes_app _ _ _ _ _ _ _ _ _ _ G1 G2) as G. destruct (goes_ledger _ _ _ _ _ _ _ G) as (outs & ER & UA & HL). cbn [app] in HL.
  destruct (goes_added d fs rfid all uid R2 F2) as (node & mark & AD).
  { unfold fs. rewrite map_map. cbn [fst]. rewrite map_id. exact NR. }
  exists d, outs, node, mark. split; [exact ER|]. split; [exact AD|].
  destruct (entries_screen (fun x : Z * said => entry_said (snd x)) (fun x => shown (snd x)) (fun x => t_euid (s_task (snd x))) nm mem pow2 _ d outs rfid all uid node mark paths l HI HN UA ER AD HL)
    as (lost & kept & EL & TT & SC).
  { eapply Forall_impl; [|exact T]. intros x Hx. now apply texted_looks. }
  exists lost, kept. split; [exact EL|]. assert (TK : Forall texted kept) by (rewrite EL in T; now apply Forall_app in T). split.
  { destruct TT as [TT|TT]; [now left|right]. rewrite <- said_total; [rewrite map_map; exact TT|]. rewrite Forall_map. eapply Forall_impl; [|exact TK]. intros x Hx. apply (tx_say _ Hx). }
  cbv zeta in *. destruct SC as (note & NT & SC). exists note. split; [exact NT|]. intros fuel HF. destruct (SC fuel HF) as (ns' & c' & P1 & P2). exists ns', c'.
  split; [exact P1|]. rewrite P2. do 4 f_equal. apply map_ext. intros x. unfold shows_as, shown, text_line. cbn [u_prio u_tag u_msg]. apply block_level.
Qed.
