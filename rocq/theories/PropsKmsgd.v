(** Properties C52 and C99: kmsgd relays each line of the kernel stream as exactly one message. *)
From Coq Require Import ZArith String List Bool Lia ZifyBool ZifyNat.
From Verif Require Import Bytes BytesProofs Parse Klog KlogSpec KlogProofs Kmsgd KmsgdSpec KmsgdProofs.
Import ListNotations.
Open Scope Z_scope.

(** For any buffer size: whatever sizes the reads have, the messages emitted are exactly the complete
    lines of what was read so far, in order; the unfinished line [r] is kept. No access leaves the
    buffer and the loop ends. While something
    is available every read makes progress, so enough reads relay every line. Restricted to streams without NUL bytes. *)
Theorem C52_lines_partial : forall N stream avail, 2 <= N ->
  ~ In 0 stream -> lines_below (N - 1) stream ->
  exists s rest o r, krun N (kinit N) stream avail = Ok (s, rest, o) /\
    stream = with_lf (lines_out o) ++ r ++ rest /\
    Forall (fun l => ~ In 10 l) (lines_out o) /\ ~ In 10 r /\
    (Forall (fun n => 0 < n) avail -> zlen rest <= Z.max 0 (zlen stream - zlen avail)).
Proof.
  intros N stream avail HN H0 HL.
  destruct (krun_ok N avail (kinit N) [] stream) as (s & rest & o & r & ls & E & LO & ES & F & NR & _ & G).
  - split; [|split]; [|reflexivity|reflexivity]. cbn [kinit ks_buf]. rewrite zlen_zrepeat; lia.
  - change (zlen (@nil Z)) with 0. lia.
  - exact H0.
  - exact HL.
  - exists s, rest, o, r. apply relayed_lines in LO. subst ls. cbn [app] in ES. repeat (split; [auto|]). exact G.
Qed.


(** The hypotheses are met by the buffer of the code, two lines and reads that cut them. *)
Example C52_lines_example :
  let stream := bytes_of_string "<6>[    1.000000] usb 1-1: new device" ++ [10] ++ bytes_of_string "<3>oops" ++ [10] in
  2 <= 16384 /\ ~ In 0 stream /\ lines_below (16384 - 1) stream /\
  exists s o, krun 64 (kinit 64) stream [5; 30; 3; 100] = Ok (s, [], o) /\
    lines_out o = [bytes_of_string "<6>[    1.000000] usb 1-1: new device"; bytes_of_string "<3>oops"].
Proof.
  split; [lia|]. split; [cbn; intuition discriminate|]. split.
  - intros a l b E _. apply (f_equal zlen) in E. rewrite !zlen_app in E.
    pose proof (zlen_nonneg a). pose proof (zlen_nonneg b).
    match type of E with ?x = _ => let y := eval vm_compute in x in change x with y in E end. lia.
  - do 2 eexists. split; vm_compute; reflexivity.
Qed.

(** An anomaly marker in a line raises an event besides the line, and the line is relayed whole. *)
Example C52_event_example : exists s,
  krun 64 (kinit 64) (bytes_of_string "---[ end trace 0c0b ]---" ++ [10; 97; 10]) [64] =
    Ok (s, [], [Line (bytes_of_string "---[ end trace 0c0b ]---"); Evt (bytes_of_string "0c0b"); Line [97]]).
Proof. eexists. vm_compute. reflexivity. Qed.

(** The whole output: each line, followed by the anomaly that it reports, if it reports one. *)
Theorem C99_events_partial : forall N stream avail, 2 <= N -> ~ In 0 stream -> lines_below (N - 1) stream ->
  exists s rest o r ls, krun N (kinit N) stream avail = Ok (s, rest, o) /\ stream = with_lf ls ++ r ++ rest /\
    Forall (fun l => ~ In 10 l) ls /\ ~ In 10 r /\ relayed ls o.
Proof.
  intros N stream avail HN H0 HL. destruct (krun_ok N avail (kinit N) [] stream) as (s & rest & o & r & ls & E & LO & ES & F & NR & _ & G).
  - split; [|split]; [|reflexivity|reflexivity]. cbn [kinit ks_buf]. rewrite zlen_zrepeat; lia.
  - change (zlen (@nil Z)) with 0. lia.
  - exact H0.
  - exact HL.
  - exists s, rest, o, r, ls. cbn [app] in ES. repeat (split; [auto|]). exact LO.
Qed.
Example C99_events_ex : anomaly (bytes_of_string "---[ end trace 0c0b ]---") (bytes_of_string "0c0b") /\ forall id, ~ anomaly (bytes_of_string "[ end trace 0c0b ]---") id.
Proof.
  split.
  - exists [], (bytes_of_string "]---"). split; [reflexivity|]. split; [cbn; intuition discriminate|]. intros a' b' _. apply zlen_nonneg.
  - intros id (a & b & E & _). assert (Z0 : strstr (bytes_of_string "[ end trace 0c0b ]---") mark = None) by reflexivity. exact (strstr_none _ _ Z0 _ _ E).
Qed.
(** With a NUL byte in the stream the claim fails: the line search stops there (strchr), and complete
    lines that were read are not relayed. *)
Theorem C52_nul_refuted : exists stream, lines_below (16384 - 1) stream /\
  exists s, krun 16384 (kinit 16384) stream [zlen stream] = Ok (s, [], []) /\
    stream = with_lf [[97; 0; 98]; [99]].
Proof.
  exists [97; 0; 98; 10; 99; 10]. split.
  - intros a l b E _. apply (f_equal zlen) in E. rewrite !zlen_app in E.
    pose proof (zlen_nonneg a). pose proof (zlen_nonneg b).
    change (zlen [97; 0; 98; 10; 99; 10]) with 6 in E. lia.
  - assert (HB : zlen (zrepeat 0 16384) = 16384) by (rewrite zlen_zrepeat; lia).
    change (zlen [97; 0; 98; 10; 99; 10]) with 6. cbn [krun ks_off ks_buf]; unfold kinit; cbn [ks_off ks_buf].
    change (ztake (Z.min 6 (16384 - 1 - 0)) [97; 0; 98; 10; 99; 10]) with [97; 0; 98; 10; 99; 10].
    unfold kstep, kinit. cbn [ks_off ks_buf].
    set (B := zrepeat 0 16384) in *. clearbody B.
    rewrite mem_write_ok by (change (zlen [97; 0; 98; 10; 99; 10]) with 6; lia). cbn [bind]. rewrite ztake_0. cbn [app].
    change (0 + zlen [97; 0; 98; 10; 99; 10]) with 6.
    assert (HT : zlen (zdrop 6 B) = 16378) by (rewrite zlen_zdrop; lia).
    destruct (zdrop 6 B) as [|x R]; [discriminate|].
    change (97 :: 0 :: 98 :: 10 :: 99 :: 10 :: x :: R) with ([97; 0; 98; 10; 99; 10] ++ x :: R).
    rewrite store_at by reflexivity. cbn [bind app]. cbn [split_loop].
    change (97 :: 0 :: 98 :: 10 :: 99 :: 10 :: 0 :: R) with ([] ++ [97] ++ 0 :: 98 :: 10 :: 99 :: 10 :: 0 :: R).
    rewrite strchr_none by (cbn; intuition discriminate). cbn [bind Z.ltb Z.compare andb].
    eexists. split; reflexivity.
Qed.

Print Assumptions C52_lines_partial.
Print Assumptions C52_nul_refuted.
Print Assumptions C99_events_partial.
