(** A program that logs with a ULogDeviceHandler: the calls that its device gets. *)
From Coq Require Import ZArith String List Bool.
From Verif Require Import Bytes Ring Iov Py PyDev.
Import ListNotations.
Open Scope Z_scope.

(** What the program does: it sets an id or a name (ulogpy/ulog.py:187-245), or [w] logs a record
    (ulogpy/ulog.py:247-258); [ticks]: what the clock read for each line, m units of 2^-k s (line 263);
    [t], [sec] and [nsec]: the task and the time that the driver sees at the writes. *)
Inductive happening := Sets (o : hop) | Logs (w : who) (t : Ring.task) (sec nsec : Z) (ticks : list (Z * Z)) (r : Py.record).
(** write_raw_entry and write, ulogpy/ulog.py:276-282, on the file [fid]: what ulog_raw_log refuses is not reported. *)
Definition line_ops (fid : Z) (t : Ring.task) (sec nsec : Z) (p : prep) : list op :=
  match p with Writev v => [OpWrite fid t sec nsec (iovec v)] | Refuse _ => [] end.
(** The records and settings in order, ulogpy/ulog.py:187-274; an exception ends the program. *)
Fixpoint perform (sys186 : who -> Z) (fid : Z) (st : dh) (l : list happening) : exn + list op :=
  match l with
  | [] => inr []
  | Sets o :: l => perform sys186 fid (hset st o) l
  | Logs w t sec nsec ticks r :: l =>
    match device_emit (handler_for sys186 st w) (map (fun q => stamp (fst q) (snd q)) ticks) r with
    | inl e => inl e
    | inr ps =>
      match perform sys186 fid st l with
      | inl e => inl e
      | inr ops => inr (concat (map (line_ops fid t sec nsec) ps) ++ ops)
      end
    end
  end.
(** The whole: in raw mode ulog_raw_open (libulog/ulog_write_raw.c:36-78, from ulogpy/ulog.py:127-153),
    otherwise os.open (ulogpy/ulog.py:155-163), then the above. *)
Definition session (sys186 : who -> Z) (fid : Z) (strict capable : bool) (euid : Z) (st : dh) (l : list happening) : exn + list op :=
  match perform sys186 fid st l with
  | inl e => inl e
  | inr ops => inr (OpOpen fid false true false false :: (if x_raw st then [OpIoctl fid (SetRawMode (Some 1) strict capable) euid] else []) ++ ops)
  end.
