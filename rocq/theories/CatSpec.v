(** What the claims about the log reader (C42 to C45) say, without the reader's own helpers. *)
From Coq Require Import ZArith String List Bool Permutation Sorted.
From Verif Require Import Bytes Cat.
Import ListNotations.
Open Scope Z_scope.

(** poll never reports a descriptor that was given as -1 (POSIX), and reports one flag per
    descriptor. *)
Definition poll_sane {W} (en : env W) : Prop :=
  forall w fds w' rev, e_poll en w fds = (w', inr rev) ->
    forall i, nth i rev false = true -> nth i fds false = true.

(** Every frame of a pool of [n] is in exactly one queue, the counters are right, there is at most
    one pending entry per device, and reading never found the pool empty. *)
Record pool_ok (n : nat) (c : ctx) : Prop := {
  po_one_place : Permutation (map f_id (c_free c ++ c_pq c ++ c_rq c)) (seq 0 n);
  po_pending : c_pending c = zlen (c_pq c);
  po_render : c_render c = zlen (c_rq c);
  po_one_per_dev : NoDup (map f_dev (c_pq c));
  po_devs : forall f, In f (c_pq c) -> (f_dev f < length (c_devs c))%nat;
  po_never_empty : ~ In EvNoFrame (c_out c) }.

(** [k] rounds of process_devices, whatever they return. *)
Fixpoint rounds {W} (k : nat) (en : env W) (w : W) (c : ctx) : M (W * ctx) :=
  match k with
  | O => Ok (w, c)
  | S k => let* (w, c, _) := process_devices en w c in rounds k en w c
  end.

(** ** Devices whose content does not change *)

(** An entry of a device: shown by the reader or not (binary entries in text formats), its time,
    its data, whether parse_entry accepts it, and what receive takes off mark_readable. *)
Record item := mkItem { i_show : bool; i_stamp : Z; i_data : fdata; i_ok : bool; i_dec : Z }.
Definition world := list (list item).

Definition rx_of (x : item) : rx :=
  if i_show x then RxFrame (i_stamp x) (i_data x) (i_dec x) (i_ok x) else RxSkip (i_dec x).
(** poll: the descriptors asked for that have something to read; receive: the next entry. *)
Definition static_env : env world :=
  mkEnv world
    (fun w fds => (w, inr (map (fun p => fst p && negb (match snd p with [] => true | _ => false end))
                               (combine fds w))))
    (fun w i => match nth i w [] with
                | [] => (w, RxFail)
                | x :: r => (set_nth i r w, rx_of x)
                end).

(** An entry of the merged order: the device and the entry. *)
Definition mitem := (nat * item)%type.
Definition by_time (a b : mitem) : Prop := i_stamp (snd a) <= i_stamp (snd b).
(** [q] merges the shown entries of [w] by time: sorted, and for each device exactly its shown
    entries in its own order. *)
Record merges (w : world) (q : list mitem) : Prop := {
  mg_sorted : StronglySorted by_time q;
  mg_devs : forall d, map snd (filter (fun m => Nat.eqb (fst m) d) q) = filter i_show (nth d w []) }.
(** Whatever the times: [q] takes from the sequences [f] of the devices, again and again, one of the
    foremost entries that has the least time of the foremost ones, until nothing is left. *)
Inductive picks {A : Type} (time : A -> Z) : (nat -> list A) -> list (nat * A) -> Prop :=
  | pk_end : forall f, (forall d, f d = []) -> picks time f []
  | pk_next : forall f g d x r q, f d = x :: r -> (forall e y s, f e = y :: s -> time x <= time y) ->
      (forall e, g e = if Nat.eqb e d then r else f e) -> picks time g q -> picks time f ((d, x) :: q).
(** Each device's shown entries are in non-decreasing time. *)
Definition timed (w : world) : Prop :=
  Forall (fun l => StronglySorted (fun a b => i_stamp a <= i_stamp b) (filter i_show l)) w.

(** What is printed: device, time and data of the entries that parse_entry accepts. *)
Definition shown_of (q : list mitem) : list (nat * Z * fdata) :=
  map (fun m => (fst m, i_stamp (snd m), i_data (snd m))) (filter (fun m => i_ok (snd m)) q).
Fixpoint printed (evs : list ev) : list (nat * Z * fdata) :=
  match evs with
  | EvFrame f :: r => (f_dev f, f_stamp f, f_data f) :: printed r
  | _ :: r => printed r
  | [] => []
  end.
Definition lastn {A} (n : nat) (l : list A) : list A := skipn (length l - n) l.

Fixpoint sum_dec (l : list item) : Z := match l with [] => 0 | x :: r => i_dec x + sum_dec r end.
(** The mark taken at opening is not used up by reading what was there then. *)
Definition marks_cover (w : world) (marks : list Z) : Prop :=
  length w = length marks /\
  forall d, nth d w [] <> [] ->
            sum_dec (nth d w []) < nth d marks 0 /\ Forall (fun x => 0 <= i_dec x) (nth d w []).
Definition total (w : world) : nat := fold_right (fun l n => (length l + n)%nat) O w.
