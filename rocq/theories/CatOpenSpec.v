(** What C94 to C98 say, apart from the model: descriptors held, devices asked for, options. *)
From Coq Require Import ZArith String List Bool.
From Verif Require Import Bytes KlogSpec CatOpen.
Import ListNotations.
Open Scope Z_scope.

(** The descriptors held after some calls, from those held before; [None]: a descriptor that is not held is
    closed. *)
Fixpoint drop1 (fd : Z) (l : list Z) : option (list Z) :=
  match l with
  | [] => None
  | x :: r => if x =? fd then Some r else match drop1 fd r with Some r' => Some (x :: r') | None => None end
  end.
Fixpoint held (l : list Z) (t : list ev) : option (list Z) :=
  match t with
  | [] => Some l
  | Open _ _ fd :: t => held (if fd <? 0 then l else fd :: l) t
  | Close fd :: t => match drop1 fd l with Some l' => held l' t | None => None end
  | _ :: t => held l t
  end.
(** The descriptor given for the output, if any. *)
Definition output (fd : Z) : list Z := if fd <? 0 then [] else [fd].

(** The device file of a log. *)
Definition file_of (name : list Z) : list Z := bytes_of_string "/dev/ulog_" ++ name.
(** The names given, but the one of the copy of the kernel log. *)
Definition asked (names : list (list Z)) : list (list Z) := filter (fun n => negb (bytes_eqb n (bytes_of_string "kmsgd"))) names.
(** The device was opened for reading from this file, earlier than any device after it. *)
Definition from (t : list ev) (d : dev) (path : list Z) : Prop := In (Open path false (d_fd d)) t.
(** The files of the kernel log. *)
Definition kernel_file (wanted : bool) (l : list (list Z)) : Prop :=
  if wanted then l = [bytes_of_string "/dev/kmsg"] \/ l = [bytes_of_string "/dev/ulog_kmsgd"] else l = [].
(** The devices are numbered from 0, and each number has its place in the array given to poll. *)
Definition numbered (c : ctx) : Prop :=
  map d_idx (k_devs c) = map Z.of_nat (seq 0 (length (k_devs c))) /\ k_nfds c = zlen (k_devs c) /\ k_count c = zlen (k_devs c).

(** A system where nothing fails. *)
Record generous (y : sys) : Prop := mkGenerous {
  g_open : forall t p w, 0 <= y_open y t p w; g_len : forall t fd, 0 <= y_len y t fd; g_alloc : forall t a, y_alloc y t a = true;
  g_kread : forall t, y_kread y t = true; g_ksize : 0 <= y_ksize y }.

(** The calls that empty a device. *)
Definition emptied (u : list ev) (path : list Z) : Prop := exists fd r, In (Open path true fd) u /\ In (Flush fd r) u /\ 0 <= fd /\ 0 <= r.
Definition kernel_emptied (u : list ev) : Prop := exists r, In (Kclear r) u /\ 0 <= r.

(** Options of the tool. *)
Definition formats : list (list Z) := map bytes_of_string ["short"; "aligned"; "process"; "long"; "csv"]%string.
Definition stops (o : opt) : Prop := match o with OHelp | OBad => True | OFormat a => ~ In a formats | _ => False end.
Definition number_ok (o : opt) : Prop := match o with OTail a => digits a /\ dec_val a < 2 ^ 31 | _ => True end.
(** The last value given by an option. *)
Fixpoint last_of {A} (f : opt -> option A) (d : A) (l : list opt) : A :=
  match l with [] => d | o :: l => last_of f (match f o with Some x => x | None => d end) l end.
Definition tail_opt (o : opt) : option Z := match o with OTail a => Some (dec_val a) | _ => None end.
Fixpoint index_of (a : list Z) (l : list (list Z)) : Z := match l with [] => 0 | x :: r => if bytes_eqb x a then 0 else 1 + index_of a r end.
Definition format_opt (o : opt) : option Z := match o with OFormat a => Some (index_of a formats) | _ => None end.
Definition names_of (l : list opt) : list (list Z) := flat_map (fun o => match o with OBuffer a => [a] | _ => [] end) l.
