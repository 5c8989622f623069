(** What C131 says: calls, their times and their order. *)
From Coq Require Import ZArith List Bool Sorted.
From Verif Require Import Bytes Ring Program Stamp.
Import ListNotations.
Open Scope Z_scope.

(** The time of a call in nanoseconds. *)
Definition when (c : call) : Z := p_sec c * 10 ^ 9 + p_nsec c.
(** The clock before event [i]. *)
Definition clock (evs : list event) (i : nat) : Z :=
  fold_right (fun e a => match e with Tick n => Z.max 0 n + a | _ => a end) 0 (firstn i evs).
Definition by_thread (th : Z) (e : event) : Prop :=
  match e with Tick _ => False | Enter c => t_pid (p_task c) = th | Lock t => t = th end.
(** A call begins at event [i] and ends at event [j]. *)
Definition lasts (evs : list event) (i j : nat) (c : call) : Prop :=
  (i < j)%nat /\ nth_error evs i = Some (Enter c) /\ nth_error evs j = Some (Lock (t_pid (p_task c))) /\
  forall k e, (i < k < j)%nat -> nth_error evs k = Some e -> ~ by_thread (t_pid (p_task c)) e.
(** Threads do one thing after the other. *)
Definition legal (evs : list event) : Prop :=
  (forall j th, nth_error evs j = Some (Lock th) -> exists i c, lasts evs i j c) /\
  (forall i c k c', nth_error evs i = Some (Enter c) -> nth_error evs k = Some (Enter c') -> (i < k)%nat ->
     t_pid (p_task c') = t_pid (p_task c) -> exists j, (i < j < k)%nat /\ nth_error evs j = Some (Lock (t_pid (p_task c)))).
(** [s] is [c] with the time [ns]. *)
Definition same_at (ns : Z) (c s : call) : Prop :=
  when s = ns /\ 0 <= p_nsec s < 10 ^ 9 /\
  s = mkCall (p_fid c) (p_task c) (p_sec s) (p_nsec s) (p_stack c) (p_tag c) (p_level c) (p_prio c) (p_text c).
Definition in_order (l : list call) : Prop := StronglySorted (fun a b => when a <= when b) l.
