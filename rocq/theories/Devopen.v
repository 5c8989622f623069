(** Model of the interfaces for raw and binary logging of libulog: opening and closing of a device
    (libulog/ulog_write_raw.c:36-84, libulog/ulog_write_bin.c:45-96), writing (ulog_write_raw.c:86-174,
    ulog_write_bin.c:98-162) and the custom function for binary writes (274-285).

    The calls of the system are oracles that see what happened before. C strings are given without
    their NUL. *)
From Coq Require Import ZArith String List Bool.
From Verif Require Import Bytes Parse Iov.
Import ListNotations.
Open Scope Z_scope.

(** The system calls with their results (-errno on failure), and calls of the custom function.
    At libulog/ulog_write_bin.c:45-162 and libulog/ulog_write_raw.c:36-174. *)
Inductive ev :=
  | Open (path : list Z) (ret : Z)
  | Stat (fd : Z)
  | RawMode (fd mode ret : Z)
  | Close (fd : Z)
  | Wrote (fd : Z) (v : list (list Z)) (ret : Z)
  | Custom (func : Z) (tag : list Z) (iov : list (list Z)).

(** getenv; open(O_WRONLY|O_CLOEXEC); fstat: fails, or whether it is a character device;
    ioctl(ULOGGER_SET_RAW_MODE); writev; the value of errno when writev returned 0.
    At libulog/ulog_write_bin.c:45-162 and libulog/ulog_write_raw.c:36-174. *)
Record sys := mkSys {
  y_env : list Z -> option (list Z);
  y_open : list ev -> list Z -> Z;
  y_stat : list ev -> Z -> option bool;
  y_mode : list ev -> Z -> Z -> Z;
  y_writev : list ev -> Z -> list (list Z) -> Z;
  y_errno : list ev -> Z }.

(** Used at libulog/ulog_write_bin.c:45-162 and libulog/ulog_write_raw.c:36-174. *)
Definition ENOSYS : Z := 38.

(** The path of the device: libulog/ulog_write_raw.c:43-50, libulog/ulog_write_bin.c:53-60;
    snprintf into 32 bytes. *)
Definition device (y : sys) (dev : option (list Z)) (default var : list Z) : list Z :=
  match dev with
  | Some p => p
  | None =>
    match y_env y var with
    | Some n => ztake 31 (bytes_of_string "/dev/ulog_" ++ n)
    | None => bytes_of_string "/dev/" ++ default
    end
  end.
(** S_ISCHR of the result of fstat, libulog/ulog_write_raw.c:53-66. *)
Definition chr (s : option bool) : bool := match s with Some b => b | None => false end.

(** "fail:", libulog/ulog_write_raw.c:74-77 and libulog/ulog_write_bin.c:75-78. *)
Definition fail (t : list ev) (fd ret : Z) : list ev * Z := (if 0 <=? fd then t ++ [Close fd] else t, ret).

(** ulog_raw_open, libulog/ulog_write_raw.c:36-78. *)
Definition ulog_raw_open (y : sys) (t : list ev) (dev : option (list Z)) : list ev * Z :=
  let path := device y dev (bytes_of_string "ulog_main") (bytes_of_string "ULOG_DEVICE") in
  let fd := y_open y t path in
  let t := t ++ [Open path fd] in
  if fd <? 0 then fail t fd fd else
  let st := y_stat y t fd in
  let t := t ++ [Stat fd] in
  if negb (chr st) then fail t fd (- EINVAL) else
  let mode := 1 in
  let ret := y_mode y t fd mode in
  let t := t ++ [RawMode fd mode ret] in
  if ret <? 0 then fail t fd (- ENOSYS) else (t, fd).

(** ulog_raw_close, libulog/ulog_write_raw.c:80-84. *)
Definition ulog_raw_close (t : list ev) (fd : Z) : list ev := if 0 <=? fd then t ++ [Close fd] else t.

(** ulog_bin_open, libulog/ulog_write_bin.c:45-86. [ext]: FORCE_EXTERNAL_WRITE_FUNC (36-41), set
    when not on Linux. *)
Definition ulog_bin_open (ext : bool) (y : sys) (t : list ev) (dev : option (list Z)) : list ev * Z :=
  if ext then (t, match dev with Some _ => - EINVAL | None => 0 end) else
  let path := device y dev (bytes_of_string "ulog_mainbin") (bytes_of_string "ULOG_DEVICE_BIN") in
  let fd := y_open y t path in
  let t := t ++ [Open path fd] in
  if fd <? 0 then fail t fd fd else
  let st := y_stat y t fd in
  let t := t ++ [Stat fd] in
  if negb (chr st) then fail t fd (- EINVAL) else (t, fd).

(** ulog_bin_close, libulog/ulog_write_bin.c:88-96. *)
Definition ulog_bin_close (ext : bool) (t : list ev) (fd : Z) : list ev :=
  if ext then t else if 0 <=? fd then t ++ [Close fd] else t.

(** "do { ret = writev(..) } while (ret < 0 && errno == EINTR)", libulog/ulog_write_raw.c:169-171
    and libulog/ulog_write_bin.c:145-147; [None]: not left after [fuel] calls. *)
Fixpoint writev_loop (fuel : nat) (y : sys) (t : list ev) (fd : Z) (v : list (list Z)) : list ev * option Z :=
  match fuel with
  | O => (t, None)
  | S f =>
    let ret := y_writev y t fd v in
    let t := t ++ [Wrote fd v ret] in
    if ret =? - EINTR then writev_loop f y t fd v else (t, Some ret)
  end.

(** ulog_raw_log and ulog_raw_logv, libulog/ulog_write_raw.c:86-174: the vectors are Iov's. *)
Definition raw_send (fuel : nat) (y : sys) (t : list ev) (fd : Z) (p : prep) : list ev * option Z :=
  match p with
  | Refuse ret => (t, Some ret)
  | Writev v =>
    let (t, r) := writev_loop fuel y t fd v in
    (t, match r with Some ret => Some (raw_result ret) | None => None end)
  end.

(** ulog_bin_writev, libulog/ulog_write_bin.c:110-162; [func]: s_write_func, a number for each
    function. *)
Definition ulog_bin_writev (fuel : nat) (ext : bool) (y : sys) (func : option Z) (t : list ev) (fd : Z)
    (tag : list Z) (iov : list (list Z)) : list ev * option Z :=
  match func with
  | Some f => (t ++ [Custom f tag iov], Some 0)
  | None =>
    if ext then (t, Some (- ENOSYS)) else
    let (t, r) := writev_loop fuel y t fd (bin_iov tag iov) in
    (t, match r with
        | None => None
        | Some ret => Some (if 0 <? ret then 0 else if ret =? 0 then - y_errno y t else ret)
        end)
  end.
(** ulog_bin_write, libulog/ulog_write_bin.c:98-108. *)
Definition ulog_bin_write (fuel : nat) (ext : bool) (y : sys) (func : option Z) (t : list ev) (fd : Z) (tag buf : list Z) :=
  ulog_bin_writev fuel ext y func t fd tag [buf].

(** A program that uses these interfaces: its calls.
    Functions of libulog/ulog_write_bin.c:45-162 and libulog/ulog_write_raw.c:36-174. *)
Inductive call :=
  | RawOpen (dev : option (list Z))
  | RawClose (fd : Z)
  | RawLog (fd : Z) (raw : option raw_entry)
  | RawLogv (fd : Z) (raw : option raw_entry) (iov : list (list Z))
  | BinOpen (dev : option (list Z))
  | BinClose (fd : Z)
  | BinWrite (fd : Z) (tag buf : list Z)
  | BinWritev (fd : Z) (tag : list Z) (iov : list (list Z))
  | SetFunc (func : option Z).
(** State: the events so far and s_write_func (libulog/ulog_write_bin.c:43). *)
Record st := mkSt { s_tr : list ev; s_func : option Z }.
(** libulog/ulog_write_bin.c:45-162 and libulog/ulog_write_raw.c:36-174. *)
Definition step (fuel : nat) (ext : bool) (y : sys) (s : st) (c : call) : st * option Z :=
  let ret (p : list ev * option Z) := (mkSt (fst p) (s_func s), snd p) in
  match c with
  | RawOpen dev => ret (let (t, r) := ulog_raw_open y (s_tr s) dev in (t, Some r))
  | RawClose fd => ret (ulog_raw_close (s_tr s) fd, Some 0)
  | RawLog fd raw => ret (raw_send fuel y (s_tr s) fd (ulog_raw_log fd raw))
  | RawLogv fd raw iov => ret (raw_send fuel y (s_tr s) fd (ulog_raw_logv fd raw iov))
  | BinOpen dev => ret (let (t, r) := ulog_bin_open ext y (s_tr s) dev in (t, Some r))
  | BinClose fd => ret (ulog_bin_close ext (s_tr s) fd, Some 0)
  | BinWrite fd tag buf => ret (ulog_bin_write fuel ext y (s_func s) (s_tr s) fd tag buf)
  | BinWritev fd tag iov => ret (ulog_bin_writev fuel ext y (s_func s) (s_tr s) fd tag iov)
  | SetFunc f => (mkSt (s_tr s) f, Some 0)
  end.
(** No code: a sequence of calls of these functions, libulog/ulog_write_bin.c and ulog_write_raw.c. *)
Fixpoint run (fuel : nat) (ext : bool) (y : sys) (s : st) (l : list call) : st * list (option Z) :=
  match l with
  | [] => (s, [])
  | c :: l => let (s, r) := step fuel ext y s c in let (s, rs) := run fuel ext y s l in (s, r :: rs)
  end.
(** Before the first call: no event, no custom function, libulog/ulog_write_bin.c:43. *)
Definition init : st := mkSt [] None.
