(** Model of the program launcher ulogwrapper/ulogwrapper.c and of the Android output
    libulog/ulog_write_android.c. *)
From Coq Require Import ZArith String List Bool.
From Verif Require Import Bytes Kmsgd.
Import ListNotations.
Open Scope Z_scope.

(** ** ulogwrapper *)

(** The environment: names and values. getenv and setenv(name, value, 1) of the C library.
    Used at ulogwrapper/ulogwrapper.c:30-72. *)
Definition env := list (list Z * list Z).
(** Used at ulogwrapper/ulogwrapper.c:30-72. *)
Fixpoint getenv (e : env) (n : list Z) : option (list Z) :=
  match e with [] => None | (k, v) :: e => if bytes_eqb k n then Some v else getenv e n end.
(** Used at ulogwrapper/ulogwrapper.c:51-64. *)
Fixpoint setenv (e : env) (n v : list Z) : env :=
  match e with [] => [(n, v)] | (k, w) :: e => if bytes_eqb k n then (k, v) :: e else (k, w) :: setenv e n v end.
(** WRAPPER, ulogwrapper/ulogwrapper.c:28. *)
Definition WRAPPER : list Z := bytes_of_string "/usr/lib/libulog_syslogwrap.so".
(** What is done: the file opened for writing, and the program executed with its arguments and its
    environment, which ends the launcher; or the usage message. ulogwrapper/ulogwrapper.c:30-72. *)
Inductive run := Usage | Exec (dev : list Z) (file : list Z) (args : list (list Z)) (e : env).
(** The device, ulogwrapper/ulogwrapper.c:42-47; libulog/include/ulogger.h:57. *)
Definition device (e : env) : list Z :=
  match getenv e (bytes_of_string "ULOG_DEVICE") with
  | Some p => ztake 31 (bytes_of_string "/dev/ulog_" ++ p)
  | None => bytes_of_string "/dev/ulog_main"
  end.
(** ulogwrapper/ulogwrapper.c:51-64: the environment of the program when the device could be opened. *)
Definition wrap (e : env) : env :=
  let done value := setenv (setenv e (bytes_of_string "LD_PRELOAD") value) (bytes_of_string "ULOG_NOSYSLOG") (bytes_of_string "yes") in
  match getenv e (bytes_of_string "LD_PRELOAD") with
  | Some libs => match strstr libs WRAPPER with Some _ => e | None => done (ztake 4095 (WRAPPER ++ [32] ++ libs)) end
  | None => done WRAPPER
  end.
(** main, ulogwrapper/ulogwrapper.c:30-72, with setenv succeeding; [can_open]: whether the file can be opened
    for writing (line 49). *)
Definition main (can_open : list Z -> bool) (argv : list (list Z)) (e : env) : run :=
  match argv with
  | _ :: file :: args => Exec (device e) file (file :: args) (if can_open (device e) then wrap e else e)
  | _ => Usage
  end.

(** ** Android *)

(** ulog_writer_android, libulog/ulog_write_android.c:30-50, with ANDROID defined: the level and the text given
    to the log of Android, with its tag. Levels of libulog: libulog/include/ulog.h:160-165; ULOG_PRIO_BINARY_SHIFT
    7, ULOG_PRIO_LEVEL_MASK 7 (lines 418-419); levels of Android (android/log.h): debug 3, information 4, warning 5, error 6,
    fatal 7, unknown 0. The entries 0 and 1 of the array are not given, so they are 0. *)
Definition prio_map (level : Z) : Z := nth (Z.to_nat level) [0; 0; 7; 6; 5; 4; 4; 3] 0.
(** libulog/ulog_write_android.c:30-50. *)
Definition writer_android (prio : Z) (name buf : list Z) : option (Z * list Z * list Z) :=
  if Z.testbit prio 7 then None else Some (prio_map (Z.land prio 7), name, buf).
