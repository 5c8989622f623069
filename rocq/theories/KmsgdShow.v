(** Model of the two ends of the kernel message relay (property C128): what kmsgd gives to libulog, and
    what a viewer makes of the entries of the kmsgd device. *)
From Coq Require Import ZArith String List Bool.
From Verif Require Import Bytes Ring Parse Klog Kmsgd Render SaidSpec.
Import ListNotations.
Open Scope Z_scope.

(** The message logged for an output of the relay: ULOG_STR(ULOG_INFO, p) with tag kmsgd
    (kmsgd/kmsgd.c:25-30,62; libulog/ulog_write.c:447-455), or ULOG_EVT (ULOGN, priority 5) with tag kernel_evt
    (kmsgd/kmsgd_evt.c:28-33,52; libulog/include/ulog.h:261-262), formatted in 256 bytes
    (libulog/ulog_write.c:422-435). The levels of both tags let them through, as they do by default
    (libulog/ulog_write.c:397; not modelled here, see Cookies.v). [t]: the task of kmsgd; [sec], [nsec]:
    the time of the call. *)
Definition evt_text (id : list Z) : list Z := bytes_of_string "EVT:KANOMALY;type='kernel';id='" ++ id ++ [39].
(** The record that ulog_log_buf of kmsgd/kmsgd.c:43-77 makes the driver store. *)
Definition relay_said (t : task) (sec nsec : Z) (o : out) : said :=
  match o with
  | Line l => mkSaid t sec nsec ULOG_INFO (bytes_of_string "kmsgd") l
  | Evt id => mkSaid t sec nsec 5 (bytes_of_string "kernel_evt") (ztake 255 (evt_text id))
  end.

(** ulog_parse_kmsgd_entry, ulogcat/libulogcat_ulog.c:100-104, with kmsgd_fix_entry,
    ulogcat/libulogcat_klog.c:85-98, applied to an entry just before it is rendered
    (ulogcat/libulogcat_core.c:141). [junk]: what follows the message in the frame buffer. *)
Definition ulog_parse_kmsgd_entry (W : Z) (junk : list Z) (u : uentry) : M uentry :=
  let msg := if u_bin u then u_msg u ++ junk else u_msg u ++ 0 :: junk in
  let len := if u_bin u then zlen (u_msg u) else zlen (u_msg u) + 1 in
  let* e := kmsgd_fix_entry W (mkK (u_prio u) (u_sec u) (u_nsec u) msg len) in
  let* s := str_at (k_msg e) in
  Ok (mkU (k_sec e) (k_nsec e) (k_prio e) 0 [] 0 [] (bytes_of_string "KERNEL") s false 0).
