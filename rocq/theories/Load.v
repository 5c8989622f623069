(** Model of loading and unloading the driver: kernel/ulogger-6.x.c:957-971 and 1097-1153, what it gets from the
    kernel and gives back, in order. The same text is in kernel/ulogger-3.x.c:1107-1163 and
    kernel/ulogger-4.x.c:1111-1167. Messages of the kernel log are left out. *)
From Coq Require Import ZArith String List Bool.
From Verif Require Import Bytes Registry.
Import ListNotations.
Open Scope Z_scope.

(** Calls of the kernel, with their results: vmalloc of block [b], misc_register, device_create_file,
    device_remove_file, misc_deregister, vfree, kfree. Used at kernel/ulogger-6.x.c:961, 1111, 1120 and 1125-1153. *)
Inductive lev := Vmalloc (b : Z) (ok : bool) | Register (n : list Z) (ret : Z) | Create (ret : Z)
  | Remove | Deregister (n : list Z) | Vfree (b : Z) | Kfree (b : Z).
(** What the kernel answers while loading, kernel/ulogger-6.x.c:1097-1123. *)
Record kern := mkKern { k_vmalloc : bool; k_reg : Z; k_attr : Z }.

(** ulogger_init with main_buffer_size = [pow2], kernel/ulogger-6.x.c:1097-1123, and init_log,
    kernel/ulogger-6.x.c:957-971. Block 0 is the buffer of log_main, as in [Registry.ulogger_init]. *)
Definition load (y : kern) (pow2 : Z) : list lev * Z :=
  if negb (check_buf_size pow2) then ([], - EINVAL)
  else
    let t := [Vmalloc 0 (k_vmalloc y); Register (bytes_of_string "ulog_main") (k_reg y)] in
    if negb (k_reg y =? 0) then (t, k_reg y)
    else (t ++ [Create (k_attr y)], k_attr y).

(** delete_log, kernel/ulogger-6.x.c:1125-1131; the blocks of a device are its name, structure and buffer
    (kernel/ulogger-6.x.c:1037-1041); other lists do not occur. *)
Definition delete_log (d : dev) : list lev :=
  Deregister (d_name d) :: match d_blocks d with [n; l; b] => [Vfree b; Kfree n; Kfree l] | _ => [] end.
(** The loop of ulogger_exit, kernel/ulogger-6.x.c:1143-1150. *)
Fixpoint delete_logs (logs : list (option dev)) : list lev :=
  match logs with
  | Some d :: r => (if d_main d then [] else delete_log d) ++ delete_logs r
  | _ => []
  end.
(** ulogger_exit, kernel/ulogger-6.x.c:1133-1153. *)
Definition unload (s : reg) : list lev :=
  [Remove; Deregister (bytes_of_string "ulog_main"); Vfree 0] ++ delete_logs (r_logs s).
