(** Property C49 for texts that the kernel would not write. *)
From Coq Require Import ZArith String List Bool Lia ZifyBool ZifyNat Arith.
From Verif Require Import Bytes BytesProofs Parse Klog KlogSpec KlogProofs KlogTextSpec.
Import ListNotations.
Open Scope Z_scope.

Lemma hex_value_digit c : isxdigit c = match hex_value c with Some _ => true | None => false end.
Proof.
  unfold isxdigit, isdigit, hex_value.
  destruct ((48 <=? c) && (c <=? 57)) eqn:E1, ((97 <=? c) && (c <=? 102)) eqn:E2, ((65 <=? c) && (c <=? 70)) eqn:E3; cbn [orb]; reflexivity || lia.
Qed.
Definition hex_check (a : Z) : bool :=
  match hex_value a with Some x => (hex2dec a =? x) && (0 <=? x) && (x <? 16) | None => true end.
Lemma hex_all : forallb (fun n => hex_check (Z.of_nat n)) (seq 0 128) = true.
Proof. vm_compute. reflexivity. Qed.
Lemma hex_value_ok a x : hex_value a = Some x -> hex2dec a = x /\ 0 <= x < 16.
Proof.
  intros H. assert (R : 0 <= a < 128) by (unfold hex_value in H; destruct ((48 <=? a) && (a <=? 57)) eqn:E1, ((97 <=? a) && (a <=? 102)) eqn:E2, ((65 <=? a) && (a <=? 70)) eqn:E3; try discriminate; lia).
  pose proof hex_all as E. rewrite forallb_forall in E. specialize (E (Z.to_nat a)). rewrite Z2Nat.id in E by lia.
  assert (K : hex_check a = true) by (apply E, in_seq; lia). unfold hex_check in K. rewrite H in K. lia.
Qed.
Lemma unesc_decodes : forall n s, (length s <= n)%nat -> decodes s (unesc s).
Proof.
  induction n as [|n IH]; intros s L; [destruct s; [constructor|cbn in L; lia]|].
  destruct s as [|c r]; [constructor|]. cbn [length] in L.
  assert (P : (forall v r', ~ escape (c :: r) v r') -> decodes (c :: r) (c :: unesc r)) by (intros H; apply dec_plain; [exact H|apply IH; lia]).
  destruct r as [|x [|a [|b r']]]; try (apply P; intros v r' (a' & b' & x' & y' & E & _); discriminate).
  cbn [unesc]. destruct ((c =? 92) && (x =? 120) && isxdigit a && isxdigit b) eqn:E.
  - rewrite !hex_value_digit in E. destruct (hex_value a) as [va|] eqn:Ea; [|rewrite andb_false_r in E; discriminate].
    destruct (hex_value b) as [vb|] eqn:Eb; [|rewrite andb_false_r in E; discriminate].
    destruct (hex_value_ok a va Ea) as [A1 A2]. destruct (hex_value_ok b vb Eb) as [B1 B2].
    apply dec_escape with r'; [|apply IH; cbn [length] in L; lia]. exists a, b, va, vb.
    split; [f_equal; [lia|f_equal; lia]|]. split; [exact Ea|]. split; [exact Eb|]. unfold unhex2. rewrite A1, B1.
    assert (K : forallb (fun i => forallb (fun j => Z.lor (Z.shiftl (Z.of_nat i) 4) (Z.of_nat j) =? 16 * Z.of_nat i + Z.of_nat j) (seq 0 16)) (seq 0 16) = true) by (vm_compute; reflexivity).
    rewrite forallb_forall in K. specialize (K (Z.to_nat va) ltac:(apply in_seq; lia)). rewrite forallb_forall in K.
    specialize (K (Z.to_nat vb) ltac:(apply in_seq; lia)). rewrite !Z2Nat.id in K by lia. lia.
  - apply P. intros v r2 (a' & b' & x' & y' & E1 & E2 & E3 & _). injection E1 as -> -> -> -> ->.
    rewrite !hex_value_digit, E2, E3 in E. discriminate.
Qed.

(** Whatever the text of the record, also one that the kernel would not write: what is stored is what
    the text stands for, in the place of the text. *)
Theorem C49_any : forall A s R, ~ In 0 s -> ~ In 10 s ->
  exists t G, decodes s t /\ zlen t + zlen G = zlen s /\
    klog_parse (A ++ s ++ 10 :: R) (zlen A - 1) = Ok (A ++ t ++ 0 :: G ++ R, Some (zlen A, zlen t + 1)).
Proof.
  intros A s R H0 H10. destruct (klog_parse_ok A s R H0 H10) as (G & E & L). exists (unesc s), G.
  split; [apply (unesc_decodes (length s)); lia|]. split; [exact L|exact E].
Qed.
Example C49_any_ex : decodes (bytes_of_string "a\x4Fb\xzz") (bytes_of_string "aOb\xzz") /\ ~ In 0 (bytes_of_string "a\x4Fb\xzz") /\ ~ In 10 (bytes_of_string "a\x4Fb\xzz").
Proof.
  split; [|split; vm_compute; intuition discriminate].
  change (bytes_of_string "a\x4Fb\xzz") with [97; 92; 120; 52; 70; 98; 92; 120; 122; 122].
  change (bytes_of_string "aOb\xzz") with [97; 79; 98; 92; 120; 122; 122].
  apply dec_plain; [intros v r (a & b & x & y & E & _); discriminate|].
  apply dec_escape with [98; 92; 120; 122; 122]; [exists 52, 70, 4, 15; repeat split; reflexivity|].
  do 5 (apply dec_plain; [intros v r (a & b & x & y & E & E2 & _); try discriminate; injection E as <- <- <-; discriminate|]). constructor.
Qed.

Print Assumptions C49_any.
