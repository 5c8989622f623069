(** Specification for property C152: where the messages come from that tasks read while others
    write. Everything is said in terms of what user space sees of an execution (LinSpec.history):
    the start of each call and its result. *)
From Coq Require Import ZArith String List Bool Arith.
From Verif Require Import Bytes Ring RingSpec WaitQ LinSpec.
Import ListNotations.
Open Scope Z_scope.

(** Call [c] of task [t] started at [i] and gave [x] at [r]. *)
Definition call_at (H : list label) (i r : nat) (t : nat) (c : call) (x : out) : Prop :=
  nth_error H i = Some (Inv t c) /\ nth_error H r = Some (Res t x) /\ (i < r)%nat /\
  forall q l, (i < q < r)%nat -> nth_error H q = Some l -> who l <> t.

(** The bytes [b] are the message of the write [w], in one of the two versions of the header. *)
Definition message (w : wargs) (b : list Z) : Prop :=
  exists ver raw, 1 <= ver <= 2 /\ b = enc ver (requested raw (wa_task w) (wa_sec w) (wa_nsec w) (wa_it w)).
(** The bytes [b] say how many messages were lost. *)
Definition notice (b : list Z) : Prop := exists ver nm n next, 0 < n /\ b = enc ver (report nm n next).

(** The file is opened at most once, with the right to read everything; nobody flushes the log. *)
Definition opens (fid : Z) (c : call) : bool := match c with COther (OpOpen f _ _ _ _) => f =? fid | _ => false end.
Definition opened_once (H : list label) (fid : Z) : Prop :=
  forall i j t u c c', nth_error H i = Some (Inv t c) -> nth_error H j = Some (Inv u c') ->
  opens fid c = true -> opens fid c' = true -> i = j.
Definition sees_all (H : list label) (fid : Z) : Prop :=
  forall t rd wr all nomem, In (Inv t (COther (OpOpen fid rd wr all nomem))) H -> all = true.
Definition unflushed (H : list label) : Prop := forall t f u, ~ In (Inv t (COther (OpIoctl f FlushLog u))) H.

(** A read on the file that started at [i] and gave the message [b] at [r]. *)
Definition gets (H : list label) (fid : Z) (i r : nat) (b : list Z) : Prop :=
  exists t c, call_at H i r t (CRead c) (OutData b) /\ ra_fid c = fid /\ ~ notice b.
(** The write that started at [k'] did not return before the one that started at [k] did start. *)
Definition not_before (H : list label) (k' k : nat) : Prop :=
  forall u w q y, nth_error H k' = Some (Inv u (CWrite w)) -> nth_error H q = Some (Res u y) -> (k' < q)%nat -> (k < q)%nat.

(** Each message read comes from a write of its own, which had started when the read returned; and
    a read that starts after another one has returned gets a later message. *)
Definition sourced (H : list label) (fid : Z) (src : nat -> nat) : Prop :=
  (forall i r b, gets H fid i r b ->
     exists u w, nth_error H (src r) = Some (Inv u (CWrite w)) /\ (src r < r)%nat /\ message w b) /\
  (forall i1 r1 b1 i2 r2 b2, gets H fid i1 r1 b1 -> gets H fid i2 r2 b2 -> r1 <> r2 -> src r1 <> src r2) /\
  (forall i1 r1 b1 i2 r2 b2, gets H fid i1 r1 b1 -> gets H fid i2 r2 b2 -> (r1 < i2)%nat -> not_before H (src r2) (src r1)).

(** Every read on the file has returned, and none of them told of a loss. *)
Definition reads_returned (H : list label) (fid : Z) : Prop :=
  forall i t c, nth_error H i = Some (Inv t (CRead c)) -> ra_fid c = fid -> exists r x, call_at H i r t (CRead c) x.
Definition no_notice (H : list label) (fid : Z) : Prop :=
  forall i r t c b, call_at H i r t (CRead c) (OutData b) -> ra_fid c = fid -> ~ notice b.
(** The write says something. *)
Definition nonempty (w : wargs) : Prop :=
  forall raw, e_payload (requested raw (wa_task w) (wa_sec w) (wa_nsec w) (wa_it w)) <> [].
(** Then, when a message has been read, every message of a write that was over before its write
    started has been read too. *)
Definition gapless (H : list label) (fid : Z) (src : nat -> nat) : Prop :=
  forall i r b k q u w v, gets H fid i r b -> call_at H k q u (CWrite w) (OutVal v) -> nonempty w -> (q < src r)%nat ->
  exists i' r' b', gets H fid i' r' b' /\ src r' = k.
