(** Vocabulary to say what a parsed entry is, independently of the parser. *)
From Coq Require Import ZArith String List Bool.
From Verif Require Import Bytes Ring RingSpec RingHistory Parse Iov.
Import ListNotations.
Open Scope Z_scope.

(** Pointer [q] designates in memory [mem] the NUL-terminated string [s]. *)
Definition string_at (mem : list Z) (q : ptr) (s : list Z) : Prop :=
  ~ In 0 s /\
  match q with
  | Const c => c = s
  | InBuf off => exists pre post, mem = pre ++ s ++ 0 :: post /\ zlen pre = off
  end.

(** Pointer [q] designates the bytes [s] (not necessarily terminated). *)
Definition bytes_at (mem : list Z) (q : ptr) (s : list Z) : Prop :=
  exists off pre post, q = InBuf off /\ mem = pre ++ s ++ post /\ zlen pre = off.

(** What a log viewer can see of an entry. *)
Record view := mkView {
  v_sec : Z; v_nsec : Z; v_pid : Z; v_tid : Z; v_level : Z; v_color : Z; v_binary : bool;
  v_pname : list Z; v_tname : list Z; v_tag : list Z; v_message : list Z
}.

(** Entry [e] with its pointers into [mem] shows [v]. *)
Definition shows (mem : list Z) (e : pentry) (v : view) : Prop :=
  pe_sec e = v_sec v /\ pe_nsec e = v_nsec v /\ pe_pid e = v_pid v /\ pe_tid e = v_tid v /\
  pe_prio e = v_level v /\ pe_color e = v_color v /\ pe_bin e = v_binary v /\
  string_at mem (pe_pname e) (v_pname v) /\ string_at mem (pe_tname e) (v_tname v) /\
  string_at mem (pe_tag e) (v_tag v) /\
  (if v_binary v then bytes_at mem (pe_msg e) (v_message v) /\ pe_len e = zlen (v_message v)
   else string_at mem (pe_msg e) (v_message v) /\ pe_len e = zlen (v_message v) + 1).

(** What ulog_parse_raw makes of the bytes delivered by a read. *)
Definition parsed_as (bytes : list Z) (v : view) : Prop :=
  exists mem e, ulog_parse_raw bytes = Ok (mem, Some e) /\ zlen mem = zlen bytes /\ shows mem e v.

(** Bounds of C's int32_t and uint32_t. *)
Definition int32 (x : Z) : Prop := - 2 ^ 31 <= x < 2 ^ 31.
Definition uint32 (x : Z) : Prop := 0 <= x < 2 ^ 32.

(** The priority word: level in bits 0-2, binary flag bit 7, colour bits 8-31. *)
Definition level_of (prio : Z) : Z := prio mod 8.
Definition binary_of (prio : Z) : bool := (prio / 128) mod 2 =? 1.
Definition color_of (prio : Z) : Z := prio / 256.

(** A C string does not contain NUL. *)
Definition c_string (s : list Z) : Prop := ~ In 0 s.

(** Going from [d] to [d'], entry [e] was added to what every unrestricted reader gets (open
    already or opened later): the backlog loses its [k] oldest entries, counted as lost, and
    gains [e] at the end. *)
Definition delivers (d d' : dev) (e : entry) : Prop :=
  forall fid2, lookup fid2 (d_files d) = None \/ unrestricted d fid2 ->
  exists n q k, would_get d fid2 n q /\ would_get d' fid2 (n + Z.of_nat k) (skipn k q ++ [e]).
