(** Properties C01 to C16 of the log device.

    Every theorem is about [step] and [run] of Ring.v (the driver as it is written) and uses only
    the vocabulary of RingSpec.v (entries and their encoding) and RingHistory.v (histories and
    what a reader still gets).  The examples show that the hypotheses are met. *)
From Coq Require Import ZArith String List Bool Lia.
From Verif Require Import Bytes Ring RingSpec RingHistory RingInv RingObs RingLemmas RingLemmas2 RingLemmas3.
Import ListNotations.
Open Scope Z_scope.

(** ** Example material: a 16 kB device, a writer (file 1) and readers *)

Definition ex_nm : list Z := bytes_of_string "ulog_main".
Definition ex_mem : list Z := zrepeat 170 16384.
Definition ex_task (uid : Z) : task := mkTask 100 100 (bytes_of_string "prog") (bytes_of_string "prog") uid.
Definition ex_thread : task := mkTask 100 107 (bytes_of_string "prog") (bytes_of_string "worker") 1000.
Definition ex_write (uid : Z) (data : list Z) : op :=
  OpWrite 1 (ex_task uid) 12 34 (IterUbuf (mkSeg data (zlen data))).
Definition ex_big : list Z := zrepeat 65 5000.

Example ex_init : init_ok ex_nm ex_mem 14.
Proof. split; [lia|]. split; [vm_compute; reflexivity|]. vm_compute. discriminate. Qed.

Definition ex_ops : list op :=
  [OpOpen 1 false true false false; OpOpen 2 true false true false; OpOpen 3 true false false false;
   ex_write 1000 [1; 2; 3]; ex_write 5 [9]; ex_write 1000 ex_big; ex_write 5 ex_big;
   ex_write 1000 ex_big; ex_write 5 ex_big; ex_write 1000 [7]].

Definition ex_state (ops : list op) : dev :=
  match run (init_dev ex_nm ex_mem 14) ops with Ok (d, _) => d | Bug _ => init_dev [] [] 0 end.
Definition ex_outs (ops : list op) : list out :=
  match run (init_dev ex_nm ex_mem 14) ops with Ok (_, x) => x | Bug _ => [] end.

Example ex_users : Forall user_op ex_ops.
Proof. repeat constructor. Qed.

Lemma ex_reach : forall ops, Forall user_op ops ->
  match run (init_dev ex_nm ex_mem 14) ops with Ok _ => true | Bug _ => false end = true ->
  reachable (ex_state ops).
Proof.
  intros ops H1 H2. unfold ex_state. destruct (run (init_dev ex_nm ex_mem 14) ops) as [[d x]|] eqn:E; [|discriminate].
  exists ex_nm, ex_mem, 14, ops, x. split; [exact ex_init|]. split; [exact H1|exact E].
Qed.

(** Results of operations on an example state, without computing the state in the proof. *)
Definition ex_out (d : dev) (o : op) : option out :=
  match step d o with Ok (_, x) => Some x | Bug _ => None end.
Definition ex_next (d : dev) (o : op) : dev := match step d o with Ok (d', _) => d' | Bug _ => d end.
Lemma ex_step : forall d o x, ex_out d o = Some x -> step d o = Ok (ex_next d o, x).
Proof.
  intros d o x H. unfold ex_out, ex_next in *. destruct (step d o) as [[d' y]|]; [|discriminate]. congruence.
Qed.
Definition ex_mode (d : dev) (fid : Z) : option (bool * Z * Z) :=
  match reader_of d fid with Some r => Some (r_all r, r_ver r, r_dropped r) | None => None end.
Lemma ex_reader : forall d fid m, ex_mode d fid = Some m ->
  exists r, reader_of d fid = Some r /\ (r_all r, r_ver r, r_dropped r) = m.
Proof.
  intros d fid m H. unfold ex_mode in H. destruct (reader_of d fid) as [r|]; [|discriminate].
  exists r. split; [reflexivity|congruence].
Qed.

Example ex_reachable : reachable (ex_state ex_ops).
Proof. apply ex_reach; [exact ex_users|]. vm_compute. reflexivity. Qed.

(** ** C01 *)

(** Every delivery is one whole entry accepted before, in order and not twice: with it, what the
    file got since open or flush is still a subsequence of what was accepted. *)
Theorem C01_reads_exact : forall nm mem pow2 ops, init_ok nm mem pow2 -> Forall user_op ops ->
  exists h d, explains h nm mem pow2 ops d /\
  always (fun past o x =>
    match o, x with
    | OpReadBody fid _ _ _, AEntry ver e => 1 <= ver <= 2 /\ subseq (m_got past fid ++ [e]) (m_acc past)
    | OpReadBody _ _ _ _, AReport ver _ _ next => 1 <= ver <= 2 /\ In next (m_acc past)
    | OpReadBody _ _ _ _, (AErr _ | ARetry | ANoFile) => True
    | OpReadBody _ _ _ _, _ => False
    | _, (AEntry _ _ | AReport _ _ _ _) => False
    | _, _ => True
    end) h.
Proof.
  intros nm mem pow2 ops Hi Hu. apply history_always; [exact Hi|exact Hu|].
  intros m o x (H1 & H2). destruct o, x; cbn in *; tauto.
Qed.

(** The reads of the example: a drop report of 3 entries (file 2), then the entries. *)
Example C01_ex : ex_outs (ex_ops ++ [OpReadBody 2 0 100 100; OpReadBody 2 0 5000 5000])
  = ex_outs ex_ops ++
    [OutData (enc 2 (report ex_nm 3 (requested false (ex_task 5) 12 34 (IterUbuf (mkSeg ex_big 5000)))));
     OutData (enc 2 (requested false (ex_task 5) 12 34 (IterUbuf (mkSeg ex_big 5000))))].
Proof. vm_compute. reflexivity. Qed.

(** ** C02 *)

(** When an unrestricted file gets an entry, that entry is the one at index (received + reported)
    in the list of accepted entries. *)
Theorem C02_exact_accounting : forall nm mem pow2 ops, init_ok nm mem pow2 -> Forall user_op ops ->
  exists h d, explains h nm mem pow2 ops d /\
  always (fun past o x =>
    match o, x with
    | OpReadBody fid _ _ _, AEntry _ e =>
      m_all past fid = true -> nth_error (m_acc past) (Z.to_nat (m_seen past fid)) = Some e
    | OpReadBody fid _ _ _, AReport _ _ n next =>
      0 < n /\ (m_all past fid = true ->
                nth_error (m_acc past) (Z.to_nat (m_seen past fid + n)) = Some next)
    | _, _ => True
    end) h /\ (forall fid, 0 <= m_seen (ledger_of h) fid).
Proof.
  intros nm mem pow2 ops Hi Hu.
  destruct (history_good nm mem pow2 ops Hi Hu) as (h & d & a & H1 & _ & _ & _ & _ & _ & H2).
  exists h, d. split; [exact H1|]. split.
  - eapply always_imp; [|exact H2]. intros m o x (G1 & G2). destruct o, x; cbn in *; tauto.
  - exact (seen_nonneg h nm H2).
Qed.

(** The reports of a history are recognizable by their bytes unless an entry imitates their
    ids. *)
Theorem C02_reports_recognizable : forall ver nm n next e,
  zlen (e_meta e) = 20 /\ zlen (e_payload e) <= 4076 ->
  zlen (e_meta next) = 20 /\ zlen (e_payload next) <= 4076 -> zlen nm <= 15 ->
  ~ (e_pid e = -1 /\ e_tid e = -1) -> enc ver e <> enc ver (report nm n next).
Proof. exact report_distinct. Qed.

(** ** C03 *)

Theorem C03_failed_read_consumes_nothing : forall d fid euid count valid d' e, reachable d ->
  step d (OpReadBody fid euid count valid) = Ok (d', OutErr e) ->
  (e = EINVAL \/ e = EFAULT) /\
  (forall count2 valid2,
     step d' (OpReadBody fid euid count2 valid2) = step d (OpReadBody fid euid count2 valid2)) /\
  (unrestricted d fid -> d' = d) /\
  (forall ops, Forall user_op ops -> exists d1 d2 x1 x2,
     run d ops = Ok (d1, x1) /\ run d' ops = Ok (d2, x2) /\ outputs_except fid ops x1 = outputs_except fid ops x2).
Proof.
  intros d fid euid count valid d' e Hr E.
  split; [exact (read_err_codes d fid euid count valid d' e Hr E)|].
  assert (0 < size (d_log d)) as Hs by (pose proof (reachable_size d Hr); lia).
  destruct (read_err_step d fid euid count valid d' e Hs E) as [A B].
  split; [exact A|]. split; [exact B|].
  intros ops Hu. exact (passive_independent d (OpReadBody fid euid count valid) d' (OutErr e) ops Hr I E Hu).
Qed.

Theorem C03_no_data_changes_nothing : forall d fid nonblock signal d' x,
  step d (OpReadCheck fid nonblock signal) = Ok (d', x) -> d' = d.
Proof. exact read_check_state. Qed.

Example C03_ex : exists d', step (ex_state ex_ops) (OpReadBody 3 1000 60 60) = Ok (d', OutErr EINVAL).
Proof. eexists. apply ex_step. vm_compute. reflexivity. Qed.

(** ** C04 *)

Theorem C04_faulting_write : forall d fid t sec nsec it d' f, reachable d -> user_iter it ->
  lookup fid (d_files d) = Some f -> f_write f = true ->
  step d (OpWrite fid t sec nsec it) = Ok (d', OutErr EFAULT) ->
  forall fid2, lookup fid2 (d_files d) = None \/ unrestricted d fid2 ->
  exists n q k, would_get d fid2 n q /\
    minimal_loss (size (d_log d)) (esize (requested (f_raw f) t sec nsec it)) q k /\
    would_get d' fid2 (n + Z.of_nat k) (skipn k q).
Proof.
  intros d fid t sec nsec it d' f Hr Hu El Hw E fid2 H2.
  destruct (write_effect d fid t sec nsec it d' _ f Hr Hu El Hw E)
    as [(_ & _ & X & _)|[(_ & X & _)|[(_ & _ & X & _)|(_ & _ & _ & X)]]]; try discriminate X.
  exact (X fid2 H2).
Qed.

Example C04_ex : exists d', step (ex_state ex_ops)
  (OpWrite 1 ex_thread 1 2 (IterIovec [mkSeg [1; 2] 2; mkSeg [] 0; mkSeg [3; 4; 5] 1])) = Ok (d', OutErr EFAULT).
Proof. eexists. apply ex_step. vm_compute. reflexivity. Qed.

(** ** C05 *)

(** [run] gives [Bug] on any access outside the buffer and on any scan longer than the buffer. *)
Theorem C05_no_bad_access : forall nm mem pow2 ops, init_ok nm mem pow2 -> Forall user_op ops ->
  exists d outs, run (init_dev nm mem pow2) ops = Ok (d, outs) /\ length outs = length ops /\
  forall fid euid count valid, exists d' x, ulogger_read_nb 2 d fid euid count valid = Ok (d', x).
Proof.
  intros nm mem pow2 ops Hi Hu.
  destruct (history_good nm mem pow2 ops Hi Hu) as (h & d & a & (H1 & H2) & _).
  exists d, (map (fun ev => render (snd ev)) h). split; [exact H2|]. split.
  - rewrite map_length, <- H1, map_length. reflexivity.
  - intros fid euid count valid. apply (read_nb_terminates d fid euid count valid 0).
    exists nm, mem, pow2, ops, (map (fun ev => render (snd ev)) h). auto.
Qed.

(** ** C06 *)

Theorem C06_restricted_sees_own : forall nm mem pow2 ops, init_ok nm mem pow2 -> Forall user_op ops ->
  exists h d, explains h nm mem pow2 ops d /\
  always (fun past o x =>
    match o, x with
    | OpReadBody fid euid _ _, (AEntry _ e | AReport _ _ _ e) =>
      m_all past fid = false -> e_euid e = u32 euid
    | _, _ => True
    end) h.
Proof.
  intros nm mem pow2 ops Hi Hu. apply history_always; [exact Hi|exact Hu|].
  intros m o x (H1 & H2). destruct o, x; cbn in *; tauto.
Qed.

(** File 3 is restricted: reading as uid 1000 skips the entries of uid 5. *)
Example C06_ex : ex_outs (ex_ops ++ [OpReadBody 3 1000 100 100; OpReadBody 3 1000 5000 5000;
                                     OpReadBody 3 1000 5000 5000; OpReadBody 3 1000 5000 5000])
  = ex_outs ex_ops ++
    [OutData (enc 2 (report ex_nm 3 (requested false (ex_task 1000) 12 34 (IterUbuf (mkSeg ex_big 5000)))));
     OutData (enc 2 (requested false (ex_task 1000) 12 34 (IterUbuf (mkSeg ex_big 5000))));
     OutData (enc 2 (requested false (ex_task 1000) 12 34 (IterUbuf (mkSeg [7] 1)))); OutRetry].
Proof. vm_compute. reflexivity. Qed.

(** ** C07 *)

(** Every entry delivered was made by an earlier write; unless that file was in raw mode, its
    metadata and names are those of the writing task and the data come after. *)
Theorem C07_identity : forall nm mem pow2 ops, init_ok nm mem pow2 -> Forall user_op ops ->
  exists h d, explains h nm mem pow2 ops d /\
  forall pre fid euid count valid ver e post,
    h = pre ++ (OpReadBody fid euid count valid, AEntry ver e) :: post ->
    exists pre1 wfid t sec nsec it v pre2,
      pre = pre1 ++ (OpWrite wfid t sec nsec it, AVal v) :: pre2 /\
      (m_raw (ledger_of pre1) wfid = false ->
       e_meta e = le 4 (t_tgid t) ++ le 4 (t_pid t) ++ le 4 sec ++ le 4 nsec ++ le 4 (t_euid t) /\
       e_payload e = ztake 4076 (names t ++ iter_bytes it)).
Proof.
  intros nm mem pow2 ops Hi Hu.
  destruct (history_good nm mem pow2 ops Hi Hu) as (h & d & a & H1 & _ & _ & _ & _ & _ & H2).
  exists h, d. split; [exact H1|]. intros pre fid euid count valid ver e post E.
  pose proof (delivered_in_acc _ _ _ _ _ _ _ _ (H2 pre _ _ post E)) as Hin.
  destruct (acc_made_by pre e Hin) as (p1 & wfid & t & sec & nsec & it & v & p2 & Ep & Ee).
  exists p1, wfid, t, sec, nsec, it, v, p2. split; [exact Ep|].
  intros Hraw. rewrite Ee. unfold requested. rewrite Hraw. split; reflexivity.
Qed.

(** ** C08 *)

(** After a flush, whatever is delivered comes from a write made after it, and the drops reported
    are fewer than the writes made after it. *)
Theorem C08_flush : forall nm mem pow2 ops, init_ok nm mem pow2 -> Forall user_op ops ->
  exists h d, explains h nm mem pow2 ops d /\
  forall pre ffid feuid v mid fid euid count valid x post,
    h = pre ++ (OpIoctl ffid FlushLog feuid, AVal v) :: mid ++ (OpReadBody fid euid count valid, x) :: post ->
    match x with
    | AEntry _ e => exists mid1 wfid t sec nsec it w mid2,
        mid = mid1 ++ (OpWrite wfid t sec nsec it, AVal w) :: mid2 /\
        e = requested (m_raw (ledger_of (pre ++ (OpIoctl ffid FlushLog feuid, AVal v) :: mid1)) wfid) t sec nsec it
    | AReport _ _ n _ => n < writes mid
    | _ => True
    end.
Proof.
  intros nm mem pow2 ops Hi Hu.
  destruct (history_good nm mem pow2 ops Hi Hu) as (h & d & a & H1 & _ & _ & _ & _ & _ & H2).
  exists h, d. split; [exact H1|]. intros pre ffid feuid v mid fid euid count valid x post E.
  set (fl := (OpIoctl ffid FlushLog feuid, AVal v)) in *.
  assert (E' : h = ((pre ++ [fl]) ++ mid) ++ (OpReadBody fid euid count valid, x) :: post).
  { rewrite E, <- !app_assoc. reflexivity. }
  pose proof (H2 _ _ _ _ E') as HG.
  assert (H0 : m_acc (ledger_of (pre ++ [fl])) = []) by (rewrite ledger_snoc; reflexivity).
  destruct (acc_after_flush mid (pre ++ [fl]) H0) as [A B].
  destruct x; try exact I.
  - destruct (A e (delivered_in_acc _ _ _ _ _ _ _ _ HG)) as (m1 & wfid & t & sec & nsec & it & w & m2 & Em & Ee).
    exists m1, wfid, t, sec, nsec, it, w, m2. split; [exact Em|]. rewrite Ee, <- app_assoc. reflexivity.
  - destruct HG as ((_ & HG & _) & _).
    assert (Hp : always (fun m o x => good_event m nm o x) ((pre ++ [fl]) ++ mid)).
    { intros p o y q Eq. apply (H2 p o y (q ++ (OpReadBody fid euid count valid, AReport ver nm0 n next) :: post)).
      rewrite E', Eq, <- app_assoc. reflexivity. }
    pose proof (seen_nonneg _ nm Hp fid). lia.
Qed.

Theorem C08_flush_empties : forall d fid euid d' v, reachable d ->
  step d (OpIoctl fid FlushLog euid) = Ok (d', OutVal v) ->
  (forall rd uid, is_reader d' rd -> drains d' rd uid []) /\
  (forall rd wr all d2, step d' (OpOpen rd true wr all false) = Ok (d2, OutVal 0) ->
     forall uid, drains d2 rd uid []).
Proof. exact flush_empties. Qed.

Example C08_ex : exists d', step (ex_state ex_ops) (OpIoctl 1 FlushLog 0) = Ok (d', OutVal 0) /\ is_reader d' 2.
Proof.
  exists (ex_next (ex_state ex_ops) (OpIoctl 1 FlushLog 0)). split; [apply ex_step; vm_compute; reflexivity|].
  destruct (ex_reader (ex_next (ex_state ex_ops) (OpIoctl 1 FlushLog 0)) 2 (true, 2, 0)) as (r & Hr & _);
  [vm_compute; reflexivity|]. exists r. exact Hr.
Qed.

(** ** C09 *)

Theorem C09_poll_exact : forall d fid euid d1 b, reachable d -> is_reader d fid ->
  step d (OpPoll fid euid) = Ok (d1, OutPoll b) ->
  forall k count valid, exists d2 x,
    ulogger_read_nb (S (S k)) d1 fid euid count valid = Ok (d2, x) /\ (b = true <-> x <> OutErr EAGAIN).
Proof. exact poll_exact. Qed.

Example C09_ex : (exists d', step (ex_state ex_ops) (OpPoll 3 1000) = Ok (d', OutPoll true)) /\
  (exists d', step (ex_state ex_ops) (OpPoll 3 77) = Ok (d', OutPoll false)) /\ is_reader (ex_state ex_ops) 3.
Proof.
  split; [eexists; apply ex_step; vm_compute; reflexivity|]. split; [eexists; apply ex_step; vm_compute; reflexivity|].
  destruct (ex_reader (ex_state ex_ops) 3 (false, 2, 3)) as (r & Hr & _); [vm_compute; reflexivity|]. exists r. exact Hr.
Qed.

(** ** C10 *)

(** Full statement: the value is the size of the next read.  This is false when a drop report is
    due: the value is the size of the entry behind the report. *)
Theorem C10_next_len_refuted : exists d fid euid d1 n, reachable d /\ unrestricted d fid /\
  step d (OpIoctl fid GetNextEntryLen euid) = Ok (d1, OutVal n) /\ 0 < n /\
  exists d2, step d1 (OpReadBody fid euid n n) = Ok (d2, OutErr EINVAL).
Proof.
  set (ops := [OpOpen 1 false true false false; OpOpen 2 true false true false;
               ex_write 0 ex_big; ex_write 0 [1]; ex_write 0 ex_big; ex_write 0 ex_big; ex_write 0 ex_big]).
  exists (ex_state ops), 2, 0, (ex_next (ex_state ops) (OpIoctl 2 GetNextEntryLen 0)), 30.
  split; [apply ex_reach; [repeat constructor|vm_compute; reflexivity]|].
  split. { destruct (ex_reader (ex_state ops) 2 (true, 2, 1)) as (r & Hr & E); [vm_compute; reflexivity|].
           exists r. split; [exact Hr|congruence]. }
  split; [apply ex_step; vm_compute; reflexivity|]. split; [lia|]. eexists. apply ex_step. vm_compute. reflexivity.
Qed.

(** What holds: 0 means that there is nothing to read; the value is exact if no report is due;
    in every case a buffer of max(value, 128) bytes is large enough. *)
Theorem C10_next_len_partial : forall d fid euid d1 x, reachable d -> is_reader d fid ->
  step d (OpIoctl fid GetNextEntryLen euid) = Ok (d1, x) ->
  exists n, x = OutVal n /\ 0 <= n /\
   forall count valid d2 y, step d1 (OpReadBody fid euid count valid) = Ok (d2, y) ->
     (n = 0 <-> y = OutRetry) /\
     (n <> 0 -> ~ report_due d fid ->
        (count < n -> y = OutErr EINVAL) /\
        (n <= count -> n <= valid -> exists bs, y = OutData bs /\ zlen bs = n)) /\
     (n <> 0 -> Z.max n 128 <= count -> Z.max n 128 <= valid ->
        exists bs, y = OutData bs /\ zlen bs <= Z.max n 128).
Proof. exact next_len. Qed.

Example C10_ex : let d := ex_state [OpOpen 1 false true false false; OpOpen 2 true false true false; ex_write 0 [1; 2]] in
  exists d1 d2 bs, step d (OpIoctl 2 GetNextEntryLen 0) = Ok (d1, OutVal 31) /\
                   step d1 (OpReadBody 2 0 31 31) = Ok (d2, OutData bs).
Proof.
  intros d. exists (ex_next d (OpIoctl 2 GetNextEntryLen 0)). do 2 eexists.
  split; apply ex_step; vm_compute; reflexivity.
Qed.

(** ** C11 *)

Theorem C11_log_len : forall d fid euid d' x, reachable d -> unrestricted d fid ->
  step d (OpIoctl fid GetLogLen euid) = Ok (d', x) ->
  exists n q, owes d fid n q /\ x = OutVal (total q) /\ total q < size (d_log d) /\
    (total q = 0 <-> q = []) /\ d' = d.
Proof. exact log_len. Qed.

Example C11_ex : exists d', step (ex_state ex_ops) (OpIoctl 2 GetLogLen 0) = Ok (d', OutVal 12330) /\
  unrestricted (ex_state ex_ops) 2.
Proof.
  eexists. split; [apply ex_step; vm_compute; reflexivity|].
  destruct (ex_reader (ex_state ex_ops) 2 (true, 2, 3)) as (r & Hr & E); [vm_compute; reflexivity|].
  exists r. split; [exact Hr|congruence].
Qed.

(** ** C12 *)

(** [kept] is the number of the caller's bytes that are kept. *)
Theorem C12_write_stored : forall d fid t sec nsec it d' v f, reachable d -> user_iter it ->
  lookup fid (d_files d) = Some f -> f_write f = true -> f_raw f = false ->
  step d (OpWrite fid t sec nsec it) = Ok (d', OutVal v) ->
  let e := mkEntry (meta_of t sec nsec) (ztake 4076 (names t ++ iter_bytes it)) in
  v = zlen (e_payload e) - zlen (names t) /\
  forall fid2, lookup fid2 (d_files d) = None \/ unrestricted d fid2 ->
  exists n q k, would_get d fid2 n q /\ would_get d' fid2 (n + Z.of_nat k) (skipn k q ++ [e]).
Proof.
  intros d fid t sec nsec it d' v f Hr Hu El Hw Hraw E e.
  assert (He : e = requested (f_raw f) t sec nsec it) by (rewrite Hraw; reflexivity).
  pose proof (write_effect d fid t sec nsec it d' _ f Hr Hu El Hw E) as H. cbv zeta in H. rewrite <- He in H.
  pose proof (RingRefine.zlen_names t) as HN.
  assert (Hl : zlen (e_payload e) = Z.min 4076 (zlen (names t) + zlen (iter_bytes it))).
  { unfold e. cbn [e_payload]. rewrite BytesProofs.zlen_ztake, BytesProofs.zlen_app.
    pose proof (BytesProofs.zlen_nonneg (iter_bytes it)). lia. }
  pose proof (BytesProofs.zlen_nonneg (iter_bytes it)).
  destruct H as [(X & _)|[(X & _)|[(_ & _ & Hv & X)|(_ & _ & X & _)]]].
  - congruence.
  - rewrite X in Hl. change (zlen (@nil Z)) with 0 in Hl. lia.
  - split. { injection Hv as ->. rewrite Hl, Hraw. unfold accepted, room. lia. }
    intros fid2 H2. destruct (X fid2 H2) as (n & q & k & A & _ & B). exists n, q, k. auto.
  - discriminate X.
Qed.

(** The split into buffers is irrelevant. *)
Theorem C12_split_irrelevant : forall d fid t sec nsec it1 it2 d1 d2 x1 x2, reachable d ->
  readable it1 -> readable it2 -> iter_bytes it1 = iter_bytes it2 ->
  step d (OpWrite fid t sec nsec it1) = Ok (d1, x1) ->
  step d (OpWrite fid t sec nsec it2) = Ok (d2, x2) -> x1 = x2 /\ indistinguishable d1 d2.
Proof. exact split_irrelevant. Qed.

(** A write whose memory is accessible succeeds (a raw write must have its 20-byte header). *)
Theorem C12_write_succeeds : forall d fid t sec nsec it d' x f, reachable d -> readable it ->
  lookup fid (d_files d) = Some f -> f_write f = true ->
  (f_raw f = true -> 20 <= zlen (iter_bytes it)) ->
  step d (OpWrite fid t sec nsec it) = Ok (d', x) -> exists v, x = OutVal v /\ 0 <= v.
Proof.
  intros d fid t sec nsec it d' x f Hr Hrd El Hw Hl E.
  pose proof (BytesProofs.zlen_nonneg (iter_bytes it)). pose proof (RingRefine.zlen_names t).
  destruct (write_effect d fid t sec nsec it d' _ f Hr (readable_user it Hrd) El Hw E)
    as [(A & B & _)|[(_ & X & _)|[(_ & _ & X & _)|(_ & X & _)]]].
  - specialize (Hl A). lia.
  - exists 0. split; [exact X|lia].
  - eexists. split; [exact X|]. unfold accepted, room. destruct (f_raw f); lia.
  - rewrite (readable_nofault it _ Hrd) in X. discriminate X.
Qed.

Example C12_ex : exists d1 d2, reachable (ex_state ex_ops) /\
  step (ex_state ex_ops) (OpWrite 1 ex_thread 1 2 (IterIovec [mkSeg [1; 2] 2; mkSeg [] 0; mkSeg ex_big 5000])) = Ok (d1, OutVal 4064) /\
  step (ex_state ex_ops) (OpWrite 1 ex_thread 1 2 (IterUbuf (mkSeg ([1; 2] ++ ex_big) 5002))) = Ok (d2, OutVal 4064).
Proof. do 2 eexists. split; [exact ex_reachable|]. split; apply ex_step; vm_compute; reflexivity. Qed.

(** ** C13 *)

Theorem C13_no_unnecessary_loss : forall d fid t sec nsec it d' v f, reachable d -> user_iter it ->
  lookup fid (d_files d) = Some f -> f_write f = true ->
  step d (OpWrite fid t sec nsec it) = Ok (d', OutVal v) ->
  let e := requested (f_raw f) t sec nsec it in e_payload e <> [] ->
  forall fid2, lookup fid2 (d_files d) = None \/ unrestricted d fid2 ->
  exists n q k, would_get d fid2 n q /\ minimal_loss (size (d_log d)) (esize e) q k /\
                would_get d' fid2 (n + Z.of_nat k) (skipn k q ++ [e]).
Proof.
  intros d fid t sec nsec it d' v f Hr Hu El Hw E e Hne fid2 H2.
  destruct (write_effect d fid t sec nsec it d' _ f Hr Hu El Hw E)
    as [(_ & _ & X & _)|[(X & _)|[(_ & _ & _ & X)|(_ & _ & X & _)]]]; try discriminate X.
  - contradiction.
  - exact (X fid2 H2).
Qed.

Example C13_ex : exists f d', lookup 1 (d_files (ex_state ex_ops)) = Some f /\ f_write f = true /\
  step (ex_state ex_ops) (ex_write 0 ex_big) = Ok (d', OutVal 4071) /\ unrestricted (ex_state ex_ops) 2.
Proof.
  exists (mkFile true false None). eexists. split; [vm_compute; reflexivity|]. split; [reflexivity|].
  split; [apply ex_step; vm_compute; reflexivity|].
  destruct (ex_reader (ex_state ex_ops) 2 (true, 2, 3)) as (r & Hr & E); [vm_compute; reflexivity|].
  exists r. split; [exact Hr|congruence].
Qed.

(** ** C14 *)

(** Reads, polls, version changes and queries on a file do not change any result on other
    files. *)
Theorem C14_independent : forall d o d' x ops, reachable d -> passive o -> step d o = Ok (d', x) ->
  Forall user_op ops ->
  exists d1 d2 x1 x2, run d ops = Ok (d1, x1) /\ run d' ops = Ok (d2, x2) /\
    outputs_except (op_file o) ops x1 = outputs_except (op_file o) ops x2.
Proof. exact passive_independent. Qed.

(** Neither does opening or closing another file. *)
Theorem C14_open_close : forall d o d' x ops, reachable d ->
  match o with OpOpen _ _ _ _ _ | OpClose _ => True | _ => False end ->
  step d o = Ok (d', x) -> Forall user_op ops -> Forall (fun p => op_file p <> op_file o) ops ->
  exists d1 d2 xs, run d ops = Ok (d1, xs) /\ run d' ops = Ok (d2, xs).
Proof. exact open_close_independent. Qed.

Example C14_ex : exists d' bs, step (ex_state ex_ops) (OpReadBody 3 1000 5000 5000) = Ok (d', OutData bs).
Proof. do 2 eexists. apply ex_step. vm_compute. reflexivity. Qed.

(** ** C15 *)

Theorem C15_set_version : forall d fid v euid d' x ver, reachable d -> version d fid ver ->
  step d (OpIoctl fid (SetVersion (Some v)) euid) = Ok (d', x) ->
  (v <> 1 /\ v <> 2 -> x = OutErr EINVAL /\ d' = d) /\
  (v = 1 \/ v = 2 -> x = OutVal 0 /\ version d' fid v /\
     forall uid, exists n q, drains d fid uid (stream (name (d_log d)) ver n q) /\
                             drains d' fid uid (stream (name (d_log d)) v n q)).
Proof. exact set_version. Qed.

(** The version 1 form of an entry (a metadata block has 20 bytes) keeps length, ids, time and
    payload of the version 2 form; the header size field is zero and the euid is left out. *)
Theorem C15_layouts : forall e, zlen (e_meta e) = 20 ->
  let v2 := enc 2 e in
  enc 1 e = ztake 2 v2 ++ [0; 0] ++ zsub 4 16 v2 ++ zdrop 24 v2 /\
  zdrop 24 v2 = e_payload e /\ zsub 2 2 v2 = [24; 0] /\ of_le (zsub 20 4 v2) = e_euid e.
Proof. exact enc_layouts. Qed.

Example C15_ex : exists d', step (ex_state ex_ops) (OpIoctl 2 (SetVersion (Some 1)) 0) = Ok (d', OutVal 0) /\
  version (ex_state ex_ops) 2 2.
Proof.
  eexists. split; [apply ex_step; vm_compute; reflexivity|].
  destruct (ex_reader (ex_state ex_ops) 2 (true, 2, 3)) as (r & Hr & E); [vm_compute; reflexivity|].
  exists r. split; [exact Hr|congruence].
Qed.

(** ** C16 *)

(** Nothing is missing unless what is left has nearly the size of the buffer. *)

Theorem C16_late_reader : forall nm mem pow2 ops, init_ok nm mem pow2 -> Forall user_op ops ->
  exists h d, explains h nm mem pow2 ops d /\
  forall fid wr all d', step d (OpOpen fid true wr all false) = Ok (d', OutVal 0) ->
  exists gone kept, m_acc (ledger_of h) = gone ++ kept /\
    (gone = [] \/ 2 ^ pow2 - 12300 < total kept) /\
    forall uid, drains d' fid uid (stream nm 2 (zlen gone)
       (if all then kept else filter (fun e => e_euid e =? u32 uid) kept)).
Proof. exact open_gets. Qed.

Example C16_ex : exists d', step (ex_state ex_ops) (OpOpen 9 true false true false) = Ok (d', OutVal 0).
Proof. eexists. apply ex_step. vm_compute. reflexivity. Qed.

Print Assumptions C01_reads_exact.
Print Assumptions C02_exact_accounting.
Print Assumptions C02_reports_recognizable.
Print Assumptions C03_failed_read_consumes_nothing.
Print Assumptions C03_no_data_changes_nothing.
Print Assumptions C04_faulting_write.
Print Assumptions C05_no_bad_access.
Print Assumptions C06_restricted_sees_own.
Print Assumptions C07_identity.
Print Assumptions C08_flush.
Print Assumptions C08_flush_empties.
Print Assumptions C09_poll_exact.
Print Assumptions C10_next_len_refuted.
Print Assumptions C10_next_len_partial.
Print Assumptions C11_log_len.
Print Assumptions C12_write_stored.
Print Assumptions C12_split_irrelevant.
Print Assumptions C12_write_succeeds.
Print Assumptions C13_no_unnecessary_loss.
Print Assumptions C14_independent.
Print Assumptions C14_open_close.
Print Assumptions C15_set_version.
Print Assumptions C15_layouts.
Print Assumptions C16_late_reader.
