(** Model of the output of the log reader when the output may fail: output_rendered
    (ulogcat/libulogcat_core.c:22-45) and the checks of output_error in ulogcat3_process_logs
    (363-388), on top of Cat.v, which leaves them out. *)
From Coq Require Import ZArith String List Bool.
From Verif Require Import Bytes Cat Render Live.
Import ListNotations.
Open Scope Z_scope.

(** An answer of the C library or of the system to a request to write: everything taken, only the first
    [n] bytes taken, or an error. At ulogcat/libulogcat_core.c:22-45. *)
Inductive wres := WAll | WPart (n : Z) | WErr (e : Z).
(** ctx->output_fp is set; else ctx->output_fd is not negative; else neither. ulogcat/libulogcat_core.c:22-45. *)
Inductive kind := ToFile | ToFd | Nowhere.
(** [k_ans]: the answers to come (after the last, everything is taken); [k_bytes]: what was taken;
    [k_err]: ctx->output_error. The fields are in ulogcat/libulogcat_private.h:117-139. *)
Record sink := mkSink { k_kind : kind; k_ans : list wres; k_bytes : list (option Z); k_err : bool }.

(** The loop of lines 37-43 with [l] to write: the answers left, the bytes taken, ret < 0. *)
Fixpoint write_loop (ans : list wres) (l : list (option Z)) : list wres * list (option Z) * bool :=
  match ans with
  | [] => ([], l, false)
  | WAll :: r => (r, l, false)
  | WPart n :: r => (r, ztake n l, false)
  | WErr e :: r => if e =? EINTR then write_loop r l else (r, [], true)
  end.
(** fwrite(buf, len, 1, fp), line 30: anything but everything gives a result other than 1. *)
Definition fwrite1 (ans : list wres) (l : list (option Z)) : list wres * list (option Z) * bool :=
  match ans with
  | [] => ([], l, false)
  | WAll :: r => (r, l, false)
  | WPart n :: r => (r, ztake n l, n <? zlen l)
  | WErr _ :: r => (r, [], true)
  end.

(** output_rendered, ulogcat/libulogcat_core.c:22-45. *)
Definition output_rendered (s : sink) (l : list (option Z)) : sink :=
  if k_err s then s else
  let take f := let '(ans, t, e) := f (k_ans s) l in mkSink (k_kind s) ans (k_bytes s ++ t) e in
  match k_kind s with
  | ToFile => take fwrite1
  | ToFd => take write_loop
  | Nowhere => s
  end.

(** The rendering of one event (as Live.flush_text), then its output unless rendering refused:
    ulogcat/libulogcat_core.c:125-127 and 146-148. *)
Definition chunk_of (o : opts) (paths : list (list Z)) (x : ev) : M (option (list (option Z))) :=
  match x with
  | EvBanner d => render_banner (nth d paths [])
  | EvFrame f => match fd_entry (f_data f) with None => Ok None | Some e => text_render false o (resolve (fd_buf (f_data f)) e) end
  | EvNoFrame => Ok None
  end.
(** The calls of output_rendered for successive frames and banners, ulogcat/libulogcat_core.c:22-45 and 99-149. *)
Fixpoint feed (o : opts) (paths : list (list Z)) (evs : list ev) (s : sink) : M sink :=
  match evs with
  | [] => Ok s
  | x :: r => let* l := chunk_of o paths x in
    feed o paths r (match l with Some l => output_rendered s l | None => s end)
  end.

(** ulogcat3_process_logs, ulogcat/libulogcat_core.c:363-388, with its output: the events of a round are
    output in order during it, which has no effect on the rest of the round. [None]: out of fuel. *)
Fixpoint process_out {W} (fuel : nat) (en : env W) (o : opts) (paths : list (list Z)) (dump : bool) (max : Z) (w : W) (c : ctx) (s : sink) (frames : Z)
  : M (option (W * ctx * sink * Z)) :=
  match fuel with
  | O => Ok None
  | S n =>
    let* (w, c1, ret) := process_devices en w c in
    let* s := feed o paths (skipn (length (c_out c)) (c_out c1)) s in
    if ret <? 0 then Ok (Some (w, c1, s, ret)) else
    let frames := frames + ret in
    if dump && c_mark c1 then
      let* c2 := flush_pending_queue (Z.to_nat (c_pending c1)) c1 in
      let* s := feed o paths (skipn (length (c_out c1)) (c_out c2)) s in
      Ok (Some (w, c2, s, 0))
    else if k_err s then Ok (Some (w, c1, s, -1))
    else if (max =? 0) || (frames <? max) then process_out n en o paths dump max w c1 s frames
    else Ok (Some (w, c1, s, ret))
  end.

(** process_logs of the tool, ulogcat/ulogcat.c:169-187, as main calls it (0, 0: 211), and of the old
    interface, ulogcat/libulogcat_compat.c:94-109: again while the result is positive. *)
Fixpoint tool_loop {W} (n : nat) (fuel : nat) (en : env W) (o : opts) (paths : list (list Z)) (dump : bool) (w : W) (c : ctx) (s : sink)
  : M (option (W * ctx * sink * Z)) :=
  match n with
  | O => Ok None
  | S n =>
    let* r := process_out fuel en o paths dump 0 w c s 0 in
    match r with
    | None => Ok None
    | Some (w, c, s, ret) => if ret <=? 0 then Ok (Some (w, c, s, ret)) else tool_loop n fuel en o paths dump w c s
    end
  end.
