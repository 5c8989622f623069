(** Model of the kernel message relay: kmsgd/kmsgd.c and kmsgd/kmsgd_evt.c.

    [N]: sizeof(buf), 16384 in the code (kmsgd/kmsgd.c:41). The kernel's klogctl(2) is an oracle
    that delivers a stream piece by piece. *)
From Coq Require Import ZArith String List Bool.
From Verif Require Import Bytes Parse Klog.
Import ListNotations.
Open Scope Z_scope.

(** What the relay emits: a line (ULOG_STR, line 62) or an event with its id (ULOG_EVT,
    kmsgd/kmsgd_evt.c:54). *)
Inductive out := Line (l : list Z) | Evt (id : list Z).

(** kmsgd/kmsgd_evt.c:35-56. *)
Definition oops_marker : list Z := bytes_of_string "---[ end trace ".

(** strstr of the C library on a string: offset of the first occurrence. Used at kmsgd/kmsgd_evt.c:35-56. *)
Fixpoint strstr (s needle : list Z) : option Z :=
  if bytes_eqb (ztake (zlen needle) s) needle then Some 0 else
  match s with
  | [] => None
  | _ :: r => match strstr r needle with Some k => Some (k + 1) | None => None end
  end.

(** gen_evt, kmsgd/kmsgd_evt.c:35-56, on the string at offset [p]. *)
Definition gen_evt (buf : list Z) (p : Z) : M (list Z * list out) :=
  let* s := str_at (zdrop p buf) in
  match strstr s oops_marker with
  | None => Ok (buf, [])
  | Some k =>
    let oops := p + k + zlen oops_marker in
    let* e := strchr buf oops 32 in
    match e with
    | None => Ok (buf, [])
    | Some e => let* buf := store buf e 0 in
                let* id := str_at (zdrop oops buf) in Ok (buf, [Evt id])
    end
  end.

(** The loop of kmsgd/kmsgd.c:56-67. *)
Fixpoint split_loop (fuel : nat) (buf : list Z) (p count : Z) : M (list Z * Z * list out) :=
  match fuel with
  | O => Bug Hang
  | S n =>
    let* q := strchr buf p 10 in
    match q with
    | None => Ok (buf, count, [])
    | Some q =>
      let* buf := store buf q 0 in
      let* l := str_at (zdrop p buf) in
      let* (buf, ev) := gen_evt buf p in
      let* (buf, c, o) := split_loop n buf (q + 1) (count + (q + 1 - p)) in
      Ok (buf, c, Line l :: ev ++ o)
    end
  end.

(** State between two iterations of kmsgd/kmsgd.c:43-77: the buffer and [offset]. *)
Record kst := mkKS { ks_buf : list Z; ks_off : Z }.
(** The buffer before the first read, kmsgd/kmsgd.c:43-77. *)
Definition kinit (N : Z) : kst := mkKS (zrepeat 0 N) 0.

(** One iteration; [data]: what klogctl(2) delivered (line 45). *)
Definition kstep (N : Z) (s : kst) (data : list Z) : M (kst * list out) :=
  let* buf := mem_write (ks_buf s) (ks_off s) data in
  let size := ks_off s + zlen data in
  let* buf := store buf size 0 in
  let* (buf, count, o) := split_loop (S (length buf)) buf 0 0 in
  let* buf :=
    (if (0 <? count) && (count <? size)
     then let* m := mem_read buf count (size - count) in mem_write buf 0 m
     else Ok buf) in
  let offset := size - count in
  let offset := if N - 1 <=? offset then 0 else offset in
  Ok (mkKS buf offset, o).

(** Successive reads: of the stream, [n] bytes are available each time, and klogctl gives at most
    N - 1 - offset bytes (line 45). Result: the state, what is left of the stream, the output. *)
Fixpoint krun (N : Z) (s : kst) (stream : list Z) (avail : list Z) : M (kst * list Z * list out) :=
  match avail with
  | [] => Ok (s, stream, [])
  | n :: r =>
    let got := ztake (Z.min n (N - 1 - ks_off s)) stream in
    let* (s', o) := kstep N s got in
    let* (s2, st, o2) := krun N s' (zdrop (zlen got) stream) r in
    Ok (s2, st, o ++ o2)
  end.
