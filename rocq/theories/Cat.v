(** Model of the log reader: ulogcat/libulogcat_core.c and the receive function of
    ulogcat/libulogcat_ulog.c.

    The environment (what poll and the receive functions of the devices answer) is a parameter: a
    state [W] with two functions. Queues are lists of frames in queue order (the pointer lists of
    libulogcat_list.h are modelled in DList.v); the counters kept beside them are separate
    numbers as in the code. Output is a list of events in order: a banner, an entry handed to the
    renderer (Render.v models the rendering), and a mark for the "out of frames" branch, which has
    no visible effect in the code. Simplified: the output device never fails (output_error stays
    0); timeouts are not modelled, poll answers whatever it answers. *)
From Coq Require Import ZArith String List Bool.
From Verif Require Import Bytes Parse.
Import ListNotations.
Open Scope Z_scope.

(** What a frame carries (ulogcat/libulogcat_private.h:84-92): frame->buf as the parser left it,
    and frame->entry when the receive function fills it (the klog one leaves it to parse_entry). *)
Record fdata := mkData { fd_buf : list Z; fd_entry : option pentry }.

(** What a receive function (dev->receive_entry) did: error (-1); nothing to show (0); one frame
    (1), with its stamp, its bytes and whether dev->parse_entry will accept it. [dec]: by how much
    mark_readable was decreased.
    The functions are those of ulogcat/libulogcat_ulog.c:29-92 and ulogcat/libulogcat_klog.c:138-174. *)
Inductive rx :=
  | RxFail
  | RxSkip (dec : Z)
  | RxFrame (stamp : Z) (data : fdata) (dec : Z) (ok : bool).

(** ** ulog_receive_entry, ulogcat/libulogcat_ulog.c:29-92 *)

(** Answer of read(2). At ulogcat/libulogcat_ulog.c:36 and 46. *)
Inductive rd := RdErr (e : Z) | RdBytes (bs : list Z).

(** [csv]: the output format is CSV. The frame buffer is the 200-byte one at the start
    (free_frame restores it). ulogcat/libulogcat_ulog.c:29-92. *)
Definition ulog_receive_entry (csv : bool) (rd1 : rd) (malloc_ok : bool) (rd2 : rd) : M rx :=
  let again := match rd1 with RdErr e => e =? EINVAL | RdBytes _ => false end in
  if again && negb malloc_ok then Ok RxFail else
  match (if again then rd2 else rd1) with
  | RdErr e => Ok (if (e =? EINTR) || (e =? EAGAIN) then RxSkip 0 else RxFail)
  | RdBytes bs =>
    if zlen bs =? 0 then Ok RxFail else
    if zlen bs <? 24 then Ok RxFail else
    if negb (hdr_len bs =? zlen bs - 24) then Ok RxFail else
    let* (bs', e) := ulog_parse_buf bs in
    (* ret = ulog_parse_buf(...): the result code 0 replaces the number of bytes read *)
    let ret := 0 in
    let stamp := ((hdr_sec bs * 1000000) mod 2 ^ 64 + (hdr_nsec bs mod 2 ^ 64) / 1000) mod 2 ^ 64 in
    let dec := if negb (hdr_pid bs =? -1) || negb (hdr_tid bs =? -1) then ret else 0 in
    Ok (if pe_bin e && negb csv then RxSkip dec else RxFrame stamp (mkData bs' (Some e)) dec true)
  end.

(** ** Context *)

(** struct frame (ulogcat/libulogcat_private.h:84-92): identity in the pool, device, stamp, data,
    and whether parse_entry accepts it. *)
Record frame := mkFrame { f_id : nat; f_dev : nat; f_stamp : Z; f_data : fdata; f_ok : bool }.
(** struct log_device (ulogcat/libulogcat_private.h:100-115). *)
Record dev := mkDev { d_mark : Z; d_pending : bool; d_printed : bool }.

(** What is output, in order: a banner or a frame given to output_rendered (ulogcat/libulogcat_core.c:22-45) by flush_banner_frame (99-128) and flush_frame (131-149); no frame left to allocate (47-60). *)
Inductive ev :=
  | EvBanner (d : nat)
  | EvFrame (f : frame)
  | EvNoFrame.

(** struct ulogcat3_context (ulogcat/libulogcat_private.h:117-139). *)
Record ctx := mkCtx {
  c_tail : Z; c_pending : Z; c_render : Z;
  c_free : list frame; c_pq : list frame; c_rq : list frame;
  c_devs : list dev; c_mark : bool; c_out : list ev }.

(** What the reader gets from outside: poll, receive functions and parse functions, called at ulogcat/libulogcat_core.c:277-354. *)
Record env (W : Type) := mkEnv {
  (** poll(2): the descriptors that are not -1; an error (with whether it is EINTR) or the
      descriptors with POLLIN *)
  e_poll : W -> list bool -> W * (bool + list bool);
  (** dev->receive_entry of device number i *)
  e_recv : W -> nat -> W * rx }.
Arguments e_poll {W}. Arguments e_recv {W}.

(** No code: value of [nth] outside of an array. *)
Definition dflt : dev := mkDev 0 false false.
(** Assignment to an element of ctx->log_devices, ulogcat/libulogcat_private.h:117-139. *)
Fixpoint set_nth {A} (n : nat) (x : A) (l : list A) : list A :=
  match l, n with
  | [], _ => []
  | _ :: r, O => x :: r
  | y :: r, S m => y :: set_nth m x r
  end.

(** Change of a device of ctx->log_devices, ulogcat/libulogcat_private.h:100-139. *)
Definition set_dev (c : ctx) (i : nat) (d : dev) : ctx :=
  mkCtx (c_tail c) (c_pending c) (c_render c) (c_free c) (c_pq c) (c_rq c)
        (set_nth i d (c_devs c)) (c_mark c) (c_out c).
(** A device of ctx->log_devices, ulogcat/libulogcat_private.h:100-139. *)
Definition get_dev (c : ctx) (i : nat) : dev := nth i (c_devs c) dflt.
(** Something is output, ulogcat/libulogcat_core.c:99-149. *)
Definition emit (c : ctx) (e : ev) : ctx :=
  mkCtx (c_tail c) (c_pending c) (c_render c) (c_free c) (c_pq c) (c_rq c) (c_devs c) (c_mark c)
        (c_out c ++ [e]).
(** Change of ctx->free_queue, ulogcat/libulogcat_private.h:117-139. *)
Definition set_free (c : ctx) (q : list frame) : ctx :=
  mkCtx (c_tail c) (c_pending c) (c_render c) q (c_pq c) (c_rq c) (c_devs c) (c_mark c) (c_out c).
(** Change of ctx->pending_queue and its counter, ulogcat/libulogcat_private.h:117-139. *)
Definition set_pq (c : ctx) (n : Z) (q : list frame) : ctx :=
  mkCtx (c_tail c) n (c_render c) (c_free c) q (c_rq c) (c_devs c) (c_mark c) (c_out c).
(** Change of ctx->render_queue and its counter, ulogcat/libulogcat_private.h:117-139. *)
Definition set_rq (c : ctx) (n : Z) (q : list frame) : ctx :=
  mkCtx (c_tail c) (c_pending c) n (c_free c) (c_pq c) q (c_devs c) (c_mark c) (c_out c).

(** list_remove of a frame from the queue it is in. ulogcat/libulogcat_list.h:58-62; the pointers: DList.v. *)
Fixpoint unlink (id : nat) (q : list frame) : list frame :=
  match q with
  | [] => []
  | f :: r => if Nat.eqb (f_id f) id then r else f :: unlink id r
  end.

(** alloc_frame, ulogcat/libulogcat_core.c:47-60. *)
Definition alloc_frame (c : ctx) : option (frame * ctx) :=
  match c_free c with
  | [] => None
  | f :: r => Some (f, set_free c r)
  end.

(** free_frame, ulogcat/libulogcat_core.c:62-73. *)
Definition free_frame (c : ctx) (f : frame) : ctx := set_free c (c_free c ++ [f]).

(** find_oldest_pending_frame, ulogcat/libulogcat_core.c:75-90: the first of the frames with the
    smallest stamp. *)
Fixpoint oldest_from (res : option frame) (q : list frame) : option frame :=
  match q with
  | [] => res
  | f :: r => oldest_from (match res with
                           | None => Some f
                           | Some g => if f_stamp f <? f_stamp g then Some f else Some g
                           end) r
  end.
(** find_oldest_pending_frame, ulogcat/libulogcat_core.c:75-90. *)
Definition find_oldest (c : ctx) : option frame := oldest_from None (c_pq c).

(** flush_frame, ulogcat/libulogcat_core.c:131-149, with flush_banner_frame (100-128). *)
Definition flush_frame (c : ctx) (f : frame) : ctx :=
  let d := get_dev c (f_dev f) in
  let c := if negb (d_printed d) && (1 <? zlen (c_devs c))
           then set_dev (emit c (EvBanner (f_dev f))) (f_dev f) (mkDev (d_mark d) (d_pending d) true)
           else c in
  if f_ok f then emit c (EvFrame f) else c.

(** enqueue_render, ulogcat/libulogcat_core.c:151-164. *)
Definition enqueue_render (c : ctx) (f : frame) : ctx :=
  let q := c_rq c ++ [f] in
  if c_render c <? c_tail c then set_rq c (c_render c + 1) q
  else match q with
       | [] => c
       | g :: r => free_frame (set_rq c (c_render c) r) g
       end.

(** flush_render_frame, ulogcat/libulogcat_core.c:166-179 (with [drop]: drop_render_frame, 187-190); an empty queue with a positive counter
    would be a wild pointer. *)
Definition flush_render_frame (c : ctx) (drop : bool) : M ctx :=
  if 0 <? c_render c then
    match c_rq c with
    | [] => Bug Oob
    | f :: _ =>
      let c := if drop then c else flush_frame c f in
      let c := set_rq c (c_render c) (unlink (f_id f) (c_rq c)) in
      let c := free_frame c f in
      Ok (set_rq c (c_render c - 1) (c_rq c))
    end
  else Ok c.

(** flush_render_queue, ulogcat/libulogcat_core.c:181-185. *)
Fixpoint flush_render_queue (fuel : nat) (c : ctx) : M ctx :=
  if 0 <? c_render c then
    match fuel with
    | O => Bug Hang
    | S n => let* c := flush_render_frame c false in flush_render_queue n c
    end
  else Ok c.

(** flush_pending_frame, ulogcat/libulogcat_core.c:192-205 (with [drop]: drop_pending_frame, 207-210). *)
Definition flush_pending_frame (c : ctx) (drop : bool) : M ctx :=
  if 0 <? c_pending c then
    match find_oldest c with
    | None => Bug Oob
    | Some f =>
      let c := if drop then c else flush_frame c f in
      let d := get_dev c (f_dev f) in
      let c := set_dev c (f_dev f) (mkDev (d_mark d) false (d_printed d)) in
      let c := set_pq c (c_pending c) (unlink (f_id f) (c_pq c)) in
      let c := free_frame c f in
      Ok (set_pq c (c_pending c - 1) (c_pq c))
    end
  else Ok c.

(** flush_pending_queue, ulogcat/libulogcat_core.c:212-216. *)
Fixpoint flush_pending_queue (fuel : nat) (c : ctx) : M ctx :=
  if 0 <? c_pending c then
    match fuel with
    | O => Bug Hang
    | S n => let* c := flush_pending_frame c false in flush_pending_queue n c
    end
  else Ok c.

(** update_mark_reached, ulogcat/libulogcat_core.c:222-238. *)
Definition update_mark_reached (c : ctx) : ctx :=
  if c_mark c || existsb (fun d => 0 <? d_mark d) (c_devs c) then c
  else mkCtx (c_tail c) (c_pending c) (c_render c) (c_free c) (c_pq c) (c_rq c) (c_devs c) true (c_out c).

(** process_tail_flush, ulogcat/libulogcat_core.c:247-271; first its loop. *)
Fixpoint tail_drop (fuel : nat) (c : ctx) : M ctx :=
  if c_tail c <? c_render c + c_pending c then
    match fuel with
    | O => Bug Hang
    | S n =>
      let* c := if 0 <? c_render c then flush_render_frame c true
                else if 0 <? c_pending c then flush_pending_frame c true
                else Ok c in
      tail_drop n c
    end
  else Ok c.
(** process_tail_flush, ulogcat/libulogcat_core.c:247-271. *)
Definition process_tail_flush (c : ctx) : M ctx :=
  if (c_tail c =? 0) || negb (c_mark c) then Ok c else
  let* c := tail_drop (Z.to_nat (c_render c + c_pending c)) c in
  let* c := flush_render_queue (Z.to_nat (c_render c)) c in
  Ok (mkCtx 0 (c_pending c) (c_render c) (c_free c) (c_pq c) (c_rq c) (c_devs c) (c_mark c) (c_out c)).

(** The reading loop of process_devices, ulogcat/libulogcat_core.c:302-331, for the devices
    numbered [i] and up; [fds]: descriptors that are not -1; [rev]: POLLIN. The result is the
    number of frames, or an early return. *)
Fixpoint read_devices {W} (en : env W) (n i : nat) (fds rev : list bool) (w : W) (c : ctx) (frames : Z)
  : W * ctx * (Z + Z) :=
  match n with
  | O => (w, c, inr frames)
  | S n' =>
    let d := get_dev c i in
    if negb (nth i rev false) then
      let c := if nth i fds false && (0 <? d_mark d)
               then set_dev c i (mkDev 0 (d_pending d) (d_printed d)) else c in
      read_devices en n' (S i) fds rev w c frames
    else
      match alloc_frame c with
      | None => read_devices en n' (S i) fds rev w (emit c EvNoFrame) frames
      | Some (f, c) =>
        let (w, x) := e_recv en w i in
        match x with
        | RxFail => (w, free_frame c f, inl (-1))
        | RxSkip dec =>
          (w, free_frame (set_dev c i (mkDev (d_mark d - dec) (d_pending d) (d_printed d))) f, inl 0)
        | RxFrame stamp data dec ok =>
          let c := set_dev c i (mkDev (d_mark d - dec) true (d_printed d)) in
          let c := set_pq c (c_pending c + 1) (c_pq c ++ [mkFrame (f_id f) i stamp data ok]) in
          read_devices en n' (S i) fds rev w c (frames + 1)
        end
      end
  end.

(** Pulling the oldest pending frame, ulogcat/libulogcat_core.c:333-348. *)
Definition pull_oldest (c : ctx) : ctx :=
  match find_oldest c with
  | None => c
  | Some f =>
    let c := set_pq c (c_pending c) (unlink (f_id f) (c_pq c)) in
    let d := get_dev c (f_dev f) in
    let c := set_dev c (f_dev f) (mkDev (d_mark d) false (d_printed d)) in
    let c := set_pq c (c_pending c - 1) (c_pq c) in
    if 0 <? c_tail c then enqueue_render c f
    else free_frame (flush_frame c f) f
  end.
(** The part of process_devices after the loop, ulogcat/libulogcat_core.c:333-351. *)
Definition pull (c : ctx) : M ctx := process_tail_flush (update_mark_reached (pull_oldest c)).

(** process_devices, ulogcat/libulogcat_core.c:277-354. *)
Definition process_devices {W} (en : env W) (w : W) (c : ctx) : M (W * ctx * Z) :=
  let fds := map (fun d => negb (d_pending d)) (c_devs c) in
  let (w, p) := e_poll en w fds in
  match p with
  | inl eintr => Ok (w, c, if eintr : bool then 0 else -1)
  | inr rev =>
    match read_devices en (length (c_devs c)) O fds rev w c 0 with
    | (w, c, inl ret) => Ok (w, c, ret)
    | (w, c, inr frames) => let* c := pull c in Ok (w, c, frames)
    end
  end.

(** ulogcat3_process_logs, ulogcat/libulogcat_core.c:363-388; [fuel] bounds the number of rounds,
    [None] when it is exhausted. *)
Fixpoint process_logs {W} (fuel : nat) (en : env W) (dump : bool) (max : Z) (w : W) (c : ctx) (frames : Z)
  : M (option (W * ctx * Z)) :=
  match fuel with
  | O => Ok None
  | S n =>
    let* (w, c, ret) := process_devices en w c in
    if ret <? 0 then Ok (Some (w, c, ret)) else
    let frames := frames + ret in
    if dump && c_mark c then
      let* c := flush_pending_queue (Z.to_nat (c_pending c)) c in
      Ok (Some (w, c, 0))
    else if (max =? 0) || (frames <? max) then process_logs n en dump max w c frames
    else Ok (Some (w, c, ret))
  end.

(** ulogcat3_open, ulogcat/libulogcat_core.c:423-530: a context for devices with the given
    mark_readable (ulogcat/libulogcat_ulog.c:155-160), and the frame pool (513-523). *)
Definition pool (n : nat) : list frame := map (fun i => mkFrame i O 0 (mkData [] None) false) (seq 0 n).
(** The context when ulogcat3_open returns, ulogcat/libulogcat_core.c:423-530: empty queues, devices with their marks. *)
Definition open_ctx (tail : Z) (marks : list Z) : ctx :=
  mkCtx tail 0 0 (pool (Z.to_nat (tail + zlen marks + 1))) [] []
        (map (fun m => mkDev m false false) marks) false [].
