(** Model of the intrusive lists of the reader: ulogcat/libulogcat_list.h, and of the loop that
    destroys the devices in ulogcat3_close.

    A heap maps the address of a node (a number) to its two fields; [None]: no live memory there.
    An access to it is [Bug Oob]. *)
From Coq Require Import List Bool Arith.
From Verif Require Import Bytes.
Import ListNotations.

(** struct listnode, ulogcat/libulogcat_list.h:20-23: (next, prev). *)
Definition heap := nat -> option (nat * nat).
(** An assignment to a node, ulogcat/libulogcat_list.h:20-23. *)
Definition upd (h : heap) (x : nat) (v : option (nat * nat)) : heap := fun y => if y =? x then v else h y.

(** node->next, ulogcat/libulogcat_list.h:20-23. *)
Definition get_next (h : heap) (x : nat) : M nat := match h x with Some (n, _) => Ok n | None => Bug Oob end.
(** node->prev, ulogcat/libulogcat_list.h:20-23. *)
Definition get_prev (h : heap) (x : nat) : M nat := match h x with Some (_, p) => Ok p | None => Bug Oob end.
(** node->next = v, ulogcat/libulogcat_list.h:20-23. *)
Definition set_next (h : heap) (x v : nat) : M heap :=
  match h x with Some (_, p) => Ok (upd h x (Some (v, p))) | None => Bug Oob end.
(** node->prev = v, ulogcat/libulogcat_list.h:20-23. *)
Definition set_prev (h : heap) (x v : nat) : M heap :=
  match h x with Some (n, _) => Ok (upd h x (Some (n, v))) | None => Bug Oob end.

(** list_init, ulogcat/libulogcat_list.h:44-48. *)
Definition list_init (h : heap) (node : nat) : M heap :=
  let* h := set_next h node node in set_prev h node node.

(** list_add_tail, ulogcat/libulogcat_list.h:50-56. *)
Definition list_add_tail (h : heap) (head item : nat) : M heap :=
  let* h := set_next h item head in
  let* t := get_prev h head in
  let* h := set_prev h item t in
  let* t := get_prev h head in
  let* h := set_next h t item in
  set_prev h head item.

(** list_remove, ulogcat/libulogcat_list.h:58-62. *)
Definition list_remove (h : heap) (item : nat) : M heap :=
  let* n := get_next h item in
  let* p := get_prev h item in
  let* h := set_prev h n p in
  let* p := get_prev h item in
  let* n := get_next h item in
  set_next h p n.

(** list_empty, list_head, list_tail, ulogcat/libulogcat_list.h:40-42. *)
Definition list_empty (h : heap) (head : nat) : M bool := let* n := get_next h head in Ok (n =? head).
(** ulogcat/libulogcat_list.h:41. *)
Definition list_head (h : heap) (head : nat) : M nat := get_next h head.
(** ulogcat/libulogcat_list.h:42. *)
Definition list_tail (h : heap) (head : nat) : M nat := get_prev h head.

(** list_for_each and list_for_each_reverse, ulogcat/libulogcat_list.h:34-38: the nodes visited. *)
Fixpoint visit (fuel : nat) (step : nat -> M nat) (head node : nat) : M (list nat) :=
  match fuel with
  | O => Bug Hang
  | S n => if node =? head then Ok [] else
           let* nx := step node in let* r := visit n step head nx in Ok (node :: r)
  end.
(** The nodes that list_for_each takes in turn, ulogcat/libulogcat_list.h:34-36. *)
Definition for_each (fuel : nat) (h : heap) (head : nat) : M (list nat) :=
  let* n := get_next h head in visit fuel (get_next h) head n.
(** The nodes that list_for_each_reverse takes in turn, ulogcat/libulogcat_list.h:37-39. *)
Definition for_each_reverse (fuel : nat) (h : heap) (head : nat) : M (list nat) :=
  let* p := get_prev h head in visit fuel (get_prev h) head p.

(** The loop over the devices of ulogcat3_close (ulogcat/libulogcat_core.c:539-544) with
    log_device_destroy (406-421), which removes the node again and frees the device; the devices
    in the order of their destruction. *)
Fixpoint close_devices (fuel : nat) (h : heap) (head : nat) : M (heap * list nat) :=
  match fuel with
  | O => Bug Hang
  | S n =>
    let* e := list_empty h head in
    if e then Ok (h, []) else
    let* dev := list_head h head in
    let* h := list_remove h dev in
    let* h := list_remove h dev in
    let h := upd h dev None in
    let* (h, r) := close_devices n h head in
    Ok (h, dev :: r)
  end.
