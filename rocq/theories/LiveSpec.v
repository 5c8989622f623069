(** What the claims about dumps of driver devices (C102 to C104) say, without the reader's own
    helpers. *)
From Coq Require Import ZArith String List Bool Permutation Sorted.
From Verif Require Import Bytes Ring RingSpec RingHistory Parse ParseSpec Cat CatSpec Render Live.
Import ListNotations.
Open Scope Z_scope.

(** A device with a past: created with [g_nm], [g_mem], [g_pow2], the system calls [g_ops] were
    made on it, then the reader opened it and got the node and the mark. *)
Record log := mkLog { g_nm : list Z; g_mem : list Z; g_pow2 : Z; g_ops : list op;
                      g_fid : Z; g_all : bool; g_node : node; g_mark : Z }.
Definition started (uid : Z) (g : log) : Prop :=
  init_ok (g_nm g) (g_mem g) (g_pow2 g) /\ Forall user_op (g_ops g) /\
  exists d outs, run (init_dev (g_nm g) (g_mem g) (g_pow2 g)) (g_ops g) = Ok (d, outs) /\
    add_ulog_device d (g_fid g) (g_all g) uid = Ok (Some (g_node g, g_mark g)).

(** The records a reader must get: the entries accepted so far less the [gone] oldest, which are
    reported as lost; only those of the caller for a reader without the right to read all. Nothing is
    lost unless the rest has nearly the size of the buffer (12300 bytes less, headers included). *)
Definition content (uid : Z) (g : log) (recs : list (list Z)) : Prop :=
  exists h d gone kept, explains h (g_nm g) (g_mem g) (g_pow2 g) (g_ops g) d /\
    m_acc (ledger_of h) = gone ++ kept /\
    (gone = [] \/ 2 ^ g_pow2 g - 12300 < RingSpec.total kept) /\
    recs = stream (g_nm g) 2 (zlen gone)
             (if g_all g then kept else filter (fun e => e_euid e =? u32 uid) kept).

(** The entry that a viewer sees in a record. *)
Definition entry_of (v : view) : uentry :=
  mkU (v_sec v) (v_nsec v) (v_level v) (v_pid v) (v_pname v) (v_tid v) (v_tname v) (v_tag v)
      (v_message v) (v_binary v) (v_color v).
Definition reads_as (rec : list Z) (u : uentry) : Prop := exists v, parsed_as rec v /\ u = entry_of v.

(** Binary entries are shown in CSV only. *)
Definition wanted (csv : bool) (u : uentry) : bool := csv || negb (u_bin u).
(** Time in microseconds. *)
Definition utime (u : uentry) : Z := u_sec u * 1000000 + u_nsec u / 1000.
(** Per device: times that are not negative and do not decrease. *)
Definition timely (us : list (list uentry)) : Prop :=
  Forall (fun l => StronglySorted (fun a b => utime a <= utime b) l /\
                   Forall (fun u => 0 <= u_sec u /\ 0 <= u_nsec u) l) us.

(** [q] merges the wanted entries by time. *)
Record merged (csv : bool) (us : list (list uentry)) (q : list (nat * uentry)) : Prop := {
  me_sorted : StronglySorted (fun a b => utime (snd a) <= utime (snd b)) q;
  me_devs : forall d, map snd (filter (fun m => Nat.eqb (fst m) d) q) = filter (wanted csv) (nth d us []) }.

Definition count (us : list (list uentry)) : nat := fold_right (fun l n => (length l + n)%nat) O us.

(** The entries handed to the renderer, with their device. *)
Fixpoint entries (evs : list ev) : list (nat * uentry) :=
  match evs with
  | EvFrame f :: r =>
    match fd_entry (f_data f) with
    | Some e => (f_dev f, resolve (fd_buf (f_data f)) e) :: entries r
    | None => entries r
    end
  | _ :: r => entries r
  | [] => []
  end.

(** ** Banners: with several devices, one before what is first shown of each. *)
Fixpoint announced (many : bool) (seen : list nat) (l : list frame) : list ev :=
  match l with
  | [] => []
  | f :: r =>
    (if many && negb (existsb (Nat.eqb (f_dev f)) seen) then [EvBanner (f_dev f)] else []) ++
    (if f_ok f then [EvFrame f] else []) ++ announced many (f_dev f :: seen) r
  end.

(** The text of a list of entries: banners as above, then what the renderer makes of the entry
    (nothing if it refuses it). *)
Inductive text_of (o : opts) (paths : list (list Z)) (many : bool) :
  list nat -> list (nat * uentry) -> list Z -> Prop :=
  | to_nil : forall seen, text_of o paths many seen [] []
  | to_cons : forall seen d u r banner line rest,
      (if many && negb (existsb (Nat.eqb d) seen)
       then render_banner (nth d paths []) = Ok (Some (map Some banner)) else banner = []) ->
      (text_render false o u = Ok (Some (map Some line)) \/
       (text_render false o u = Ok None /\ line = [])) ->
      text_of o paths many (d :: seen) r rest ->
      text_of o paths many seen ((d, u) :: r) (banner ++ line ++ rest).
