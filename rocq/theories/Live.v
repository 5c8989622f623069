(** The log reader on devices of the driver: ulogcat/libulogcat_ulog.c on top of
    kernel/ulogger-6.x.c, and the text that ulogcat/libulogcat_core.c hands to the output.

    Cat.v leaves open what poll(2) and the receive function of a device answer; here they are the
    system calls of the driver model Ring.v. Simplified: malloc succeeds, nobody else calls the
    driver while the reader runs, the output accepts everything, and the device is not the kmsgd
    one (its entries are rewritten by kmsgd_fix_entry, modelled in Klog.v). *)
From Coq Require Import ZArith String List Bool.
From Verif Require Import Bytes Ring Parse Cat Render.
Import ListNotations.
Open Scope Z_scope.

(** A device of the driver and the file (descriptor) through which the reader uses it.
    The structures are struct file and struct ulogger_log, kernel/ulogger-6.x.c:48-58 and 81-104. *)
Definition node := (Ring.dev * Z)%type.

(** add_ulog_device, ulogcat/libulogcat_ulog.c:127-170: open for reading, then ask for the length
    of what is there (mark_readable). [all]: the caller may read entries of every user
    (ulogger_open, kernel/ulogger-6.x.c:713-714). *)
Definition add_ulog_device (d : Ring.dev) (fid : Z) (all : bool) (euid : Z) : M (option (node * Z)) :=
  let* (d, x) := step d (OpOpen fid true false all false) in
  match x with
  | OutVal _ =>
    let* (d, y) := step d (OpIoctl fid GetLogLen euid) in
    match y with
    | OutVal m => Ok (Some ((d, fid), m))
    | _ => Ok None
    end
  | _ => Ok None
  end.

(** read(2) of [count] bytes into the frame's own buffer, on a non-blocking descriptor. An answer
    that a read cannot give would be a failure.
    Called at ulogcat/libulogcat_ulog.c:36 and 46; the driver: kernel/ulogger-6.x.c:346-418. *)
Definition sys_read (d : Ring.dev) (fid euid count : Z) : Ring.dev * rd :=
  match ulogger_read_nb 2 d fid euid count count with
  | Ok (d', OutData bs) => (d', RdBytes bs)
  | Ok (d', OutErr e) => (d', RdErr e)
  | Ok (d', _) => (d', RdErr EBADF)
  | Bug _ => (d, RdErr EBADF)
  end.

(** ULOGCAT_FRAME_BUFSIZE, ulogcat/libulogcat_private.h:82; ULOGGER_ENTRY_MAX_LEN,
    libulog/include/ulogger.h:72. *)
Definition FRAME_BUFSIZE : Z := 200.
(** libulog/include/ulogger.h:72. *)
Definition ENTRY_MAX_LEN : Z := 5 * 1024.

(** The two reads of ulog_receive_entry, ulogcat/libulogcat_ulog.c:36-48; the rest of it is
    Cat.ulog_receive_entry. *)
Definition live_recv (csv : bool) (euid : Z) (n : node) : node * rx :=
  let (d, fid) := n in
  let (d1, r1) := sys_read d fid euid FRAME_BUFSIZE in
  let again := match r1 with RdErr e => e =? EINVAL | RdBytes _ => false end in
  let (d2, r2) := if again then sys_read d1 fid euid ENTRY_MAX_LEN else (d1, r1) in
  ((d2, fid), match ulog_receive_entry csv r1 true r2 with Ok x => x | Bug _ => RxFail end).

(** poll(2) over the descriptors that are not -1, ulogcat/libulogcat_core.c:284-301; the driver's
    part is ulogger_poll (kernel/ulogger-6.x.c:760-783). *)
Definition poll_one (euid : Z) (asked : bool) (n : node) : node * bool :=
  if asked then
    match step (fst n) (OpPoll (snd n) euid) with
    | Ok (d, OutPoll b) => ((d, snd n), b)
    | _ => (n, false)
    end
  else (n, false).
(** poll on all the descriptors, ulogcat/libulogcat_core.c:277-354; the driver: kernel/ulogger-6.x.c:760-784. *)
Fixpoint poll_all (euid : Z) (fds : list bool) (w : list node) : list node * list bool :=
  match fds, w with
  | a :: fds, n :: w =>
    let (n, b) := poll_one euid a n in
    let (w, r) := poll_all euid fds w in (n :: w, b :: r)
  | _, _ => (w, [])
  end.

(** The devices as the reader of Cat.v sees them.
    ulogcat/libulogcat_core.c:277-354 with ulogcat/libulogcat_ulog.c:29-98. *)
Definition live_env (csv : bool) (euid : Z) : env (list node) :=
  mkEnv (list node)
    (fun w fds => let (w, r) := poll_all euid fds w in (w, inr r))
    (fun w i => match nth_error w i with
                | None => (w, RxFail)
                | Some n => let (n, x) := live_recv csv euid n in (set_nth i n w, x)
                end).

(** ** From events to text *)

(** The fields of a parsed entry as the renderer uses them: its pointers followed in the frame's
    buffer. ulogcat/libulogcat_text.c:110-179. *)
Definition str_at (buf : list Z) (q : ptr) : list Z :=
  match q with InBuf off => cstr (zdrop off buf) | Const s => cstr s end.
(** The bytes of a message, ulogcat/libulogcat_text.c:55-108. *)
Definition mem_at (buf : list Z) (q : ptr) (n : Z) : list Z :=
  match q with InBuf off => ztake n (zdrop off buf) | Const s => ztake n s end.
(** libulog/include/ulogprint.h:31-44. *)
Definition resolve (buf : list Z) (e : pentry) : uentry :=
  mkU (pe_sec e) (pe_nsec e) (pe_prio e) (pe_pid e) (str_at buf (pe_pname e)) (pe_tid e)
      (str_at buf (pe_tname e)) (str_at buf (pe_tag e))
      (if pe_bin e then mem_at buf (pe_msg e) (pe_len e) else str_at buf (pe_msg e))
      (pe_bin e) (pe_color e).

(** Rendering and output of one event: flush_frame and flush_banner_frame,
    ulogcat/libulogcat_core.c:99-149. [paths]: the paths of the devices. *)
Definition flush_text (o : opts) (paths : list (list Z)) (x : ev) : M (list (option Z)) :=
  let* r := match x with
            | EvBanner d => render_banner (nth d paths [])
            | EvFrame f =>
              match fd_entry (f_data f) with
              | None => Ok None
              | Some e => text_render false o (resolve (fd_buf (f_data f)) e)
              end
            | EvNoFrame => Ok None
            end in
  Ok (match r with Some cells => cells | None => [] end).
(** The bytes given to output_rendered in order, ulogcat/libulogcat_core.c:22-45 and 99-149. *)
Fixpoint output (o : opts) (paths : list (list Z)) (l : list ev) : M (list (option Z)) :=
  match l with
  | [] => Ok []
  | x :: r => let* a := flush_text o paths x in let* b := output o paths r in Ok (a ++ b)
  end.
