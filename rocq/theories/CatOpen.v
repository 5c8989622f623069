(** Model of the opening, clearing and closing of a log reader context (ulogcat/libulogcat_core.c:391-591,
    libulogcat_ulog.c:106-203, libulogcat_klog.c:238-309), of the old interface (libulogcat_compat.c) and of
    the options of the tool (ulogcat/ulogcat.c). Reading, merging and printing: Cat.v, Klog.v, Render.v.

    The calls of the system are oracles that see what happened before; the calls that matter outside are
    recorded. C strings are given without their NUL. *)
From Coq Require Import ZArith String List Bool.
From Verif Require Import Bytes.
From Verif Require Ulogger.
Import ListNotations.
Open Scope Z_scope.

(** What is done: open for reading or writing, close, fclose, ioctl(ULOGGER_FLUSH_LOG),
    klogctl(SYSLOG_ACTION_CLEAR).
    Calls made at ulogcat/libulogcat_core.c:391-591, ulogcat/libulogcat_ulog.c:106-203 and ulogcat/libulogcat_klog.c:238-309. *)
Inductive ev := Open (path : list Z) (wr : bool) (ret : Z) | Close (fd : Z) | Fclose (fp : Z) | Flush (fd ret : Z) | Kclear (ret : Z).
(** The allocations: context, device, descriptors, rendering buffer, frames.
    At ulogcat/libulogcat_core.c:391-530. *)
Inductive alloc := ACtx | ADev | AFds | ARender | AFrames (n : Z).
(** Answers: open; ioctl(ULOGGER_GET_LOG_LEN); malloc and calloc; content of the file logs of the driver, if
    it can be opened; whether the read of /dev/kmsg gives data, EAGAIN or EPIPE; klogctl(10);
    ioctl(ULOGGER_FLUSH_LOG); klogctl(5).
    For the calls at ulogcat/libulogcat_core.c:391-591, ulogcat/libulogcat_ulog.c:106-203 and ulogcat/libulogcat_klog.c:238-309. *)
Record sys := mkSys { y_open : list ev -> list Z -> bool -> Z; y_len : list ev -> Z -> Z; y_alloc : list ev -> alloc -> bool;
  y_logs : option (list Z); y_kread : list ev -> bool; y_ksize : Z; y_flush : list ev -> Z -> Z; y_kclear : list ev -> Z }.

(** ulogcat/include/libulogcat.h:37-41. *)
Definition FLAG_DUMP : Z := 4.
(** ulogcat/include/libulogcat.h:37-41. *)
Definition FLAG_COLOR : Z := 8.
(** ulogcat/include/libulogcat.h:37-41. *)
Definition FLAG_LABEL : Z := 16.
(** ulogcat/include/libulogcat.h:37-41. *)
Definition FLAG_ULOG : Z := 32.
(** ulogcat/include/libulogcat.h:37-41. *)
Definition FLAG_KLOG : Z := 128.
(** Test of a flag, as at ulogcat/libulogcat_core.c:455-476. *)
Definition has (flags f : Z) : bool := negb (Z.land flags f =? 0).
(** KMSGD_ULOG_NAME, ulogcat/libulogcat_private.h:58. *)
Definition KMSGD : list Z := bytes_of_string "kmsgd".

(** The functions of a device: those of libulogcat_ulog.c, the same with ulog_parse_kmsgd_entry, those of
    libulogcat_klog.c. Set at ulogcat/libulogcat_ulog.c:141-151 and ulogcat/libulogcat_klog.c:284-289. *)
Inductive kind := KUlog | KKmsgd | KKlog.
(** struct log_device, ulogcat/libulogcat_private.h:100-115: path, fd, idx, functions, mark_readable. *)
Record dev := mkDev { d_path : list Z; d_fd : Z; d_idx : Z; d_kind : kind; d_mark : Z }.
(** struct ulogcat_opts_v3, ulogcat/include/libulogcat.h:43-49; a FILE is a number, stdout is 1. *)
Record opts := mkOpts { o_format : Z; o_flags : Z; o_tail : Z; o_fp : option Z; o_fd : Z }.
(** struct ulogcat3_context, ulogcat/libulogcat_private.h:117-139, the fields used here; [k_nfds], [k_frames]:
    sizes of the arrays fds and frame_pool. *)
Record ctx := mkCtx { k_format : Z; k_flags : Z; k_tail : Z; k_fp : option Z; k_fd : Z; k_count : Z; k_ulogs : Z; k_devs : list dev; k_nfds : Z; k_frames : Z }.
(** Change of ctx->log_devices and of its counters, ulogcat/libulogcat_private.h:117-139. *)
Definition set_devs (c : ctx) (count ulogs : Z) (l : list dev) : ctx :=
  mkCtx (k_format c) (k_flags c) (k_tail c) (k_fp c) (k_fd c) count ulogs l (k_nfds c) (k_frames c).

(** log_device_create, ulogcat/libulogcat_core.c:391-404: the cleared device is the last of the list. *)
Definition log_device_create (y : sys) (t : list ev) (c : ctx) : option ctx :=
  if y_alloc y t ADev then Some (set_devs c (k_count c + 1) (k_ulogs c) (k_devs c ++ [mkDev [] 0 (k_count c) KUlog 0])) else None.
(** log_device_destroy, ulogcat/libulogcat_core.c:406-421, of the device created last. *)
Definition log_device_destroy (t : list ev) (c : ctx) (fd : Z) : list ev * ctx :=
  (t ++ (if 0 <=? fd then [Close fd] else []), set_devs c (k_count c - 1) (k_ulogs c) (removelast (k_devs c))).
(** The fields of the device created last.
    ulogcat/libulogcat_private.h:100-115; set at ulogcat/libulogcat_ulog.c:127-170 and ulogcat/libulogcat_klog.c:249-309. *)
Definition set_last (c : ctx) (ulogs : Z) (path : list Z) (fd : Z) (k : kind) (mark : Z) : ctx :=
  set_devs c (k_count c) ulogs (removelast (k_devs c) ++ [mkDev path fd (k_count c - 1) k mark]).

(** add_ulog_device, ulogcat/libulogcat_ulog.c:127-170; path has 64 bytes. *)
Definition add_ulog_device (y : sys) (t : list ev) (c : ctx) (name : list Z) : list ev * ctx * Z :=
  match log_device_create y t c with
  | None => (t, c, -1)
  | Some c =>
    let path := ztake 63 (bytes_of_string "/dev/ulog_" ++ name) in
    let fd := y_open y t path false in
    let t := t ++ [Open path false fd] in
    if fd <? 0 then (log_device_destroy t c fd, -1)
    else
      let k := bytes_eqb name KMSGD in
      let c := set_last c (if k then k_ulogs c else k_ulogs c + 1) (if k then bytes_of_string "/proc/kmsg" else path) fd (if k then KKmsgd else KUlog) (y_len y t fd) in
      if y_len y t fd <? 0 then (log_device_destroy t c fd, -1) else (t, c, 0)
  end.

(** Successive calls of fgets on a buffer of [S n] bytes; [k]: bytes that still fit after the next one.
    C library; used at ulogcat/libulogcat_ulog.c:182-195. *)
Fixpoint fgets_all (n k : nat) (cur s : list Z) : list (list Z) :=
  match s with
  | [] => match cur with [] => [] | _ => [cur] end
  | c :: r => if (c =? 10) || Nat.eqb k 0 then (cur ++ [c]) :: fgets_all n (n - 1) [] r else fgets_all n (k - 1) (cur ++ [c]) r
  end.
(** strchr, the position. C library; used at ulogcat/libulogcat_ulog.c:183. *)
Fixpoint strchr (c : Z) (s : list Z) : option nat :=
  match s with [] => None | x :: r => if x =? c then Some O else match strchr c r with Some n => Some (S n) | None => None end end.
(** The name in a line of the file logs, ulogcat/libulogcat_ulog.c:183-188: the first space becomes a NUL and
    5 bytes are skipped. *)
Definition log_name (buf : list Z) : option (list Z) :=
  let s := cstr buf in
  match strchr 32 s with
  | Some p => if 5 <? zlen s then Some (cstr (zdrop 5 (firstn p s ++ 0 :: skipn (S p) s))) else None
  | None => None
  end.
(** The loop of add_all_ulog_devices, ulogcat/libulogcat_ulog.c:182-195. *)
Fixpoint add_listed (y : sys) (bufs : list (list Z)) (t : list ev) (c : ctx) (ret : Z) : list ev * ctx * Z :=
  match bufs with
  | [] => (t, c, ret)
  | b :: r =>
    match log_name b with
    | None => add_listed y r t c ret
    | Some n =>
      let '(t, c, ret) := if bytes_eqb n KMSGD then (t, c, ret) else add_ulog_device y t c n in
      if ret =? 0 then add_listed y r t c ret else (t, c, ret)
    end
  end.
(** add_all_ulog_devices, ulogcat/libulogcat_ulog.c:172-203; the buffer has 32 bytes. *)
Definition add_all_ulog_devices (y : sys) (t : list ev) (c : ctx) : list ev * ctx * Z :=
  match y_logs y with
  | Some text => add_listed y (fgets_all 31 30 [] text) t c 0
  | None => add_ulog_device y t c (bytes_of_string "main")
  end.

(** add_klog_device, ulogcat/libulogcat_klog.c:249-309. *)
Definition add_klog_device (y : sys) (t : list ev) (c : ctx) : list ev * ctx * Z :=
  match log_device_create y t c with
  | None => (t, c, -1)
  | Some c =>
    let path := bytes_of_string "/dev/kmsg" in
    let fd := y_open y t path false in
    let t := t ++ [Open path false fd] in
    if fd <? 0 then (log_device_destroy t c fd, -1)
    else if negb (y_kread y t) then (log_device_destroy t c fd, -1)
    else if 2 * y_ksize y <? 0 then (log_device_destroy t c fd, -1)
    else (t, set_last c (k_ulogs c) path fd KKlog (2 * y_ksize y), 0)
  end.

(** The loop on the names, ulogcat/libulogcat_core.c:459-466; [false]: goto fail. *)
Fixpoint add_names (y : sys) (names : list (list Z)) (t : list ev) (c : ctx) : list ev * ctx * bool :=
  match names with
  | [] => (t, c, true)
  | n :: r =>
    if bytes_eqb n KMSGD then add_names y r t c
    else let '(t, c, ret) := add_ulog_device y t c n in if ret =? 0 then add_names y r t c else (t, c, false)
  end.

(** ulogcat3_close, ulogcat/libulogcat_core.c:532-573: what is closed, in order; the memory is not modelled.
    log_device_destroy takes the device out of the list a second time, which changes nothing. *)
Definition close_dev (d : dev) : list ev := if 0 <=? d_fd d then [Close (d_fd d)] else [].
(** ulogcat/libulogcat_core.c:532-573. *)
Definition ulogcat3_close (c : ctx) : list ev :=
  flat_map close_dev (k_devs c) ++ (if 0 <=? k_fd c then [Close (k_fd c)] else []) ++ (match k_fp c with Some f => [Fclose f] | None => [] end).

(** ulogcat3_open, ulogcat/libulogcat_core.c:423-530, without the colours and the buffering of the output. The
    sum at line 514 is an int, taken modulo 2^32; calloc fails for a negative number of frames, which becomes
    more than half of the address space. *)
Definition ulogcat3_open (y : sys) (t : list ev) (o : opts) (names : list (list Z)) : list ev * option ctx :=
  if negb (y_alloc y t ACtx) then (t, None)
  else
    let fp := if (o_fd o <? 0) && (match o_fp o with None => true | Some _ => false end) then Some 1 else o_fp o in
    let c := mkCtx (o_format o) (o_flags o) (s32 (o_tail o)) fp (o_fd o) 0 0 [] 0 0 in
    let fail (t : list ev) (c : ctx) := (t ++ ulogcat3_close c, None) in
    let '(t, c, ok) := add_names y names t c in
    if negb ok then fail t c
    else
      let '(t, c, ret) := if (k_ulogs c =? 0) && has (k_flags c) FLAG_ULOG then add_all_ulog_devices y t c else (t, c, 0) in
      if negb (ret =? 0) then fail t c
      else
        let '(t, c, ret) :=
          if has (k_flags c) FLAG_KLOG then
            let '(t, c, ret) := add_klog_device y t c in if ret =? 0 then (t, c, 0) else add_ulog_device y t c KMSGD
          else (t, c, 0) in
        if negb (ret =? 0) then fail t c
        else if k_count c =? 0 then fail t c
        else if negb (y_alloc y t AFds) then fail t c
        else if negb (y_alloc y t ARender) then fail t c
        else
          let nframes := s32 (k_tail c + k_count c + 1) in
          if (nframes <? 0) || negb (y_alloc y t (AFrames nframes)) then fail t c
          else (t, Some (mkCtx (k_format c) (k_flags c) (k_tail c) (k_fp c) (k_fd c) (k_count c) (k_ulogs c) (k_devs c) (k_count c) nframes)).

(** ulog_clear_buffer, ulogcat/libulogcat_ulog.c:106-125, and klog_clear_buffer, libulogcat_klog.c:238-247. *)
Definition clear_buffer (y : sys) (t : list ev) (d : dev) : list ev * Z :=
  match d_kind d with
  | KKlog => let ret := y_kclear y t in (t ++ [Kclear ret], ret)
  | _ =>
    let fd := y_open y t (d_path d) true in
    let t := t ++ [Open (d_path d) true fd] in
    if fd <? 0 then (t, -1) else let ret := y_flush y t fd in (t ++ [Flush fd ret; Close fd], ret)
  end.
(** ulogcat3_clear, ulogcat/libulogcat_core.c:575-591. *)
Fixpoint clear_devs (y : sys) (t : list ev) (l : list dev) (ret : Z) : list ev * Z :=
  match l with
  | [] => (t, ret)
  | d :: l => let '(t, ret) := clear_buffer y t d in if ret <? 0 then (t, ret) else clear_devs y t l ret
  end.
(** ulogcat/libulogcat_core.c:575-591. *)
Definition ulogcat3_clear (y : sys) (t : list ev) (c : ctx) : list ev * Z := clear_devs y t (k_devs c) 0.

(** ** The old interface *)

(** struct ulogcat_opts, ulogcat/include/libulogcat.h:112-124, the fields used. *)
Record opts1 := mkOpts1 { p_format : Z; p_binary : bool; p_clear : bool; p_tail : Z; p_getsize : bool; p_rotate : bool; p_dump : bool; p_color : bool; p_fd : Z }.
(** struct ulogcat_context, ulogcat/libulogcat_compat.c:23-29. *)
Record v1 := mkV1 { v_ctx : option ctx; v_opts : opts; v_clear : bool; v_devices : list (list Z) }.
(** ulogcat_create, ulogcat/libulogcat_compat.c:33-62, with calloc succeeding. *)
Definition ulogcat_create (p : opts1) : option v1 :=
  if p_binary p || p_getsize p || p_rotate p then None
  else Some (mkV1 None (mkOpts (p_format p) (Z.lor FLAG_ULOG (Z.lor (if p_color p then FLAG_COLOR else 0) (if p_dump p then FLAG_DUMP else 0))) (u32 (p_tail p)) None (p_fd p)) (p_clear p) []).
(** ulogcat_add_device, ulogcat/libulogcat_compat.c:79-92, with realloc succeeding; the name is not copied:
    it has to stay as it is until the first ulogcat_process_logs. *)
Definition ulogcat_add_device (v : v1) (name : list Z) : v1 * Z := (mkV1 (v_ctx v) (v_opts v) (v_clear v) (v_devices v ++ [name]), 0).
(** ulogcat_process_logs, ulogcat/libulogcat_compat.c:111-126; [process]: what process_logs (lines 94-109)
    does with the context, see Cat.v. *)
Definition ulogcat_process_logs (y : sys) (process : ctx -> Z) (t : list ev) (v : v1) : list ev * v1 * Z :=
  let '(t, x) := match v_ctx v with Some c => (t, Some c) | None => ulogcat3_open y t (v_opts v) (v_devices v) end in
  let v := mkV1 x (v_opts v) (v_clear v) (v_devices v) in
  match x with
  | None => (t, v, -1)
  | Some c => if v_clear v then let '(t, ret) := ulogcat3_clear y t c in (t, v, ret) else (t, v, process c)
  end.
(** ulogcat_destroy, ulogcat/libulogcat_compat.c:64-71. *)
Definition ulogcat_destroy (v : v1) : list ev := match v_ctx v with Some c => ulogcat3_close c | None => [] end.

(** ** The tool *)

(** What getopt finds. At ulogcat/ulogcat.c:109-167. *)
Inductive opt := OClear | ODump | OColor | OKlog | OUlog | OLabel | OBuffer (a : list Z) | OTail (a : list Z) | OHelp | OFormat (a : list Z) | OBad.
(** struct options, ulogcat/ulogcat.c:35-40. *)
Record options := mkOptions { g_format : Z; g_flags : Z; g_tail : Z; g_clear : bool; g_devices : list (list Z) }.
(** parse_log_format, ulogcat/ulogcat.c:81-99; ulogcat/include/libulogcat.h:26-32. *)
Definition parse_log_format (s : list Z) : Z :=
  if bytes_eqb s (bytes_of_string "short") then 0 else if bytes_eqb s (bytes_of_string "aligned") then 1
  else if bytes_eqb s (bytes_of_string "process") then 2 else if bytes_eqb s (bytes_of_string "long") then 3
  else if bytes_eqb s (bytes_of_string "csv") then 4 else -1.
(** atoi: strtol converted to int; [W]: bits of a long. C library; used at ulogcat/ulogcat.c:140-142. *)
Definition atoi (W : Z) (s : list Z) : M Z := let* (v, _) := Ulogger.strtol_int W (s ++ [0]) in Ok v.
(** Setting a flag, as at ulogcat/ulogcat.c:114-131. *)
Definition flag (g : options) (f : Z) : options := mkOptions (g_format g) (Z.lor (g_flags g) f) (g_tail g) (g_clear g) (g_devices g).
(** The loop of get_options, ulogcat/ulogcat.c:108-162; [inl]: exit with this code. realloc succeeds. *)
Fixpoint get_options_from (W : Z) (g : options) (l : list opt) : M (Z + options) :=
  match l with
  | [] => Ok (inr g)
  | OClear :: l => get_options_from W (mkOptions (g_format g) (g_flags g) (g_tail g) true (g_devices g)) l
  | ODump :: l => get_options_from W (flag g FLAG_DUMP) l
  | OColor :: l => get_options_from W (flag g FLAG_COLOR) l
  | OKlog :: l => get_options_from W (flag g FLAG_KLOG) l
  | OUlog :: l => get_options_from W (flag g FLAG_ULOG) l
  | OLabel :: l => get_options_from W (flag g FLAG_LABEL) l
  | OBuffer a :: l => get_options_from W (flag (mkOptions (g_format g) (g_flags g) (g_tail g) (g_clear g) (g_devices g ++ [a])) FLAG_ULOG) l
  | OTail a :: l => let* n := atoi W a in get_options_from W (mkOptions (g_format g) (g_flags g) (u32 n) (g_clear g) (g_devices g)) l
  | OHelp :: _ => Ok (inl 0)
  | OFormat a :: l => if parse_log_format a <? 0 then Ok (inl 255) else get_options_from W (mkOptions (parse_log_format a) (g_flags g) (g_tail g) (g_clear g) (g_devices g)) l
  | OBad :: _ => Ok (inl 255)
  end.
(** get_options, ulogcat/ulogcat.c:101-167. *)
Definition get_options (W : Z) (l : list opt) : M (Z + options) :=
  let* r := get_options_from W (mkOptions 1 0 0 false []) l in
  Ok (match r with
      | inl e => inl e
      | inr g => inr (if has (g_flags g) (Z.lor FLAG_ULOG FLAG_KLOG) then g else flag g FLAG_ULOG)
      end).
(** main, ulogcat/ulogcat.c:189-221: what is done and the exit status; [process]: what process_logs (lines
    169-187) does with the context. The field opt_output_fd keeps the 0 of the memset at line 105. *)
Definition main (y : sys) (W : Z) (process : ctx -> Z) (l : list opt) : M (list ev * Z) :=
  let* r := get_options W l in
  Ok (match r with
      | inl e => ([], e)
      | inr g =>
        match ulogcat3_open y [] (mkOpts (g_format g) (g_flags g) (g_tail g) (Some 1) 0) (g_devices g) with
        | (t, None) => (t, u8 (-1))
        | (t, Some c) => let '(t, ret) := if g_clear g then ulogcat3_clear y t c else (t, process c) in (t ++ ulogcat3_close c, u8 ret)
        end
      end).
