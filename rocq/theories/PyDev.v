(** Model of the life of a ULogDeviceHandler of the python binding: ulogpy/ulog.py:94-290. What it does with
    a record is in Py.v ([device_emit]).

    The module logging and the type checks of the setters are left out: values are of the right type. *)
From Coq Require Import ZArith String List Bool.
From Verif Require Import Bytes Parse Iov Py Devopen Registry.
Import ListNotations.
Open Scope Z_scope.

(** The fields of the handler; [None]: the value None. ulogpy/ulog.py:99-104. *)
Record dh := mkDh { x_raw : bool; x_pid : Z; x_pname : option (list Z); x_tname : option (list Z); x_tid : option Z; x_fd : Z }.
(** What the system answers: the calls of libulog and os.open; whether the attribute logs can be opened
    (ulogpy/ulog.py:129); the memory of the driver; the content of /proc/self/comm (ulogpy/ulog.py:143). *)
Record pysys := mkPs { p_sys : sys; p_attr : bool; p_mem : answer; p_comm : option (list Z) }.

(** bytes.startswith and the slice [10:], ulogpy/ulog.py:108-113: name and path of the device. *)
Definition resolve (name : list Z) : list Z * list Z :=
  if startswith (bytes_of_string "/dev/ulog_") name then (zdrop 10 name, name)
  else (name, bytes_of_string "/dev/ulog_" ++ name).
(** os.path.exists of the path of a device: there is a node for each device of the driver.
    ulogpy/ulog.py:128 and 132. *)
Definition exists_path (s : reg) (path : list Z) : bool :=
  existsb (fun o => match o with Some d => bytes_eqb path (bytes_of_string "/dev/" ++ d_name d) | None => false end) (r_logs s).
(** _ensure_ulog_device, ulogpy/ulog.py:127-138; [false]: an exception. The sysfs code of the kernel gives
    the driver the bytes written, with a NUL. *)
Definition ensure (p : pysys) (s : reg) (name path : list Z) : M (reg * bool) :=
  if exists_path s path then Ok (s, true)
  else if negb (p_attr p) then Ok (s, false)
  else
    let text := bytes_of_string "ulog_" ++ name ++ bytes_of_string " 17" in
    let* (s', ret) := ulogger_add_log s (text ++ [0]) (zlen text) (p_mem p) in
    Ok (s', negb (ret <? 0) && exists_path s' path).
(** bytes.strip, ulogpy/ulog.py:144. *)
Definition white (c : Z) : bool := (c =? 32) || ((9 <=? c) && (c <=? 13)).
Fixpoint lstrip_white (l : list Z) : list Z := match l with [] => [] | c :: r => if white c then lstrip_white r else l end. (* ulogpy/ulog.py:144 *)
Definition strip_white (l : list Z) : list Z := rev (lstrip_white (rev (lstrip_white l))). (* ulogpy/ulog.py:144 *)
(** _open_ulog_raw, ulogpy/ulog.py:140-153: the name of the process and the descriptor; an exception for the
    first leaves both, one for the second only that. *)
Definition open_raw (p : pysys) (path : list Z) : list ev * option (list Z) * option Z :=
  match p_comm p with
  | None => ([], None, None)
  | Some c =>
    let (t, fd) := ulog_raw_open (p_sys p) [] (Some path) in
    (t, Some (strip_white c), if fd <? 0 then None else Some fd)
  end.
(** _open_ulog, ulogpy/ulog.py:155-163; os.open raises when it fails. *)
Definition open_plain (p : pysys) (t : list ev) (path : list Z) : list ev * option Z :=
  let fd := y_open (p_sys p) t path in (t ++ [Open path fd], if fd <? 0 then None else Some fd).
(** __init__, ulogpy/ulog.py:96-125, in process [pid]; [None]: an exception. *)
Definition init (p : pysys) (name : list Z) (raw : bool) (pid : Z) (s : reg) : M (reg * list ev * option dh) :=
  let (short, path) := resolve name in
  let* (s, ok) := ensure p s short path in
  if negb ok then Ok (s, [], None) else
  let '(t, pname, fd) := if raw then open_raw p path else ([], None, None) in
  match fd with
  | Some fd => Ok (s, t, Some (mkDh true pid pname None None fd))
  | None =>
    let (t, fd) := open_plain p t path in
    Ok (s, t, match fd with Some fd => Some (mkDh false pid pname None None fd) | None => None end)
  end.
(** close, ulogpy/ulog.py:284-289. *)
Definition close (st : dh) (t : list ev) : list ev :=
  if x_raw st then ulog_raw_close t (x_fd st) else t ++ [Close (x_fd st)].

(** The setters, ulogpy/ulog.py:187-193, 205-215, 227-233 and 239-245. *)
Inductive hop := SetPid (v : Z) | SetTid (v : Z) | SetTname (b : list Z) | SetPname (b : list Z).
(** One of them, ulogpy/ulog.py:187-245. *)
Definition hset (st : dh) (o : hop) : dh :=
  match o with
  | SetPid v => mkDh (x_raw st) v (x_pname st) (x_tname st) (x_tid st) (x_fd st)
  | SetTid v => mkDh (x_raw st) (x_pid st) (x_pname st) (x_tname st) (Some v) (x_fd st)
  | SetTname b => mkDh (x_raw st) (x_pid st) (x_pname st) (Some b) (x_tid st) (x_fd st)
  | SetPname b => mkDh (x_raw st) (x_pid st) (Some b) (x_tname st) (x_tid st) (x_fd st)
  end.
(** Who logs: process, thread and the name that the threading module has for it. The object made at
    ulogpy/ulog.py:199 and 221 is a new one at each call, so nothing is remembered. *)
Record who := mkWho { i_pid : Z; i_tid : Z; i_name : list Z }.
(** thread_id, ulogpy/ulog.py:217-225; [sys186]: what system call 186 of the machine returns. *)
Definition thread_id (sys186 : who -> Z) (st : dh) (w : who) : Z :=
  match x_tid st with Some v => if v =? 0 then sys186 w else v | None => sys186 w end.
(** thread_name, ulogpy/ulog.py:195-203. *)
Definition thread_name (st : dh) (w : who) : tname :=
  match x_tname st with Some (c :: b) => Bytes_name (c :: b) | _ => Text_name (i_name w) end.
(** The handler as [format_raw_entry] sees it when [w] logs, ulogpy/ulog.py:260-274. In raw mode there is a
    name of the process. *)
Definition handler_for (sys186 : who -> Z) (st : dh) (w : who) : handler :=
  mkHandler (x_raw st) (x_pid st) (thread_id sys186 st w) (match x_pname st with Some b => b | None => [] end) (thread_name st w) (x_fd st).

(** Rounding of a number that is not negative to 53 bits, ties to even (IEEE 754, binary64), for the floating
    point operations at ulogpy/ulog.py:265. *)
Definition rnd (z : Z) : Z :=
  let e := Z.max 0 (Z.log2 z - 52) in
  let q := z / 2 ^ e in
  let r := z mod 2 ^ e in
  (if (2 * r <? 2 ^ e) || ((2 * r =? 2 ^ e) && Z.even q) then q else q + 1) * 2 ^ e.
(** The time of an entry, ulogpy/ulog.py:263-265, for a clock that returns the double m * 2^-k, not negative;
    products and differences are in the same unit. The fields of the entry are C ints; int() cuts towards
    zero. *)
Definition stamp (k m : Z) : Z * Z :=
  let sec := s32 (Z.quot m (2 ^ k)) in
  (sec, s32 (Z.quot (rnd (rnd (m - sec * 2 ^ k) * 1000000000)) (2 ^ k))).
