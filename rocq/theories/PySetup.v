(** Model of setup_logging, ulogpy/ulog.py:333-385, and of what it makes of the records of the logging module
    and of uncaught exceptions.

    The loggers have no level of their own and propagate to the root logger, whose only handlers are those
    added here. The standard modules logging, sys and ctypes are modelled by their documented behaviour. *)
From Coq Require Import ZArith String List Bool.
From Verif Require Import Bytes Cookies Py.
Import ListNotations.
Open Scope Z_scope.

(** The number of handlers of the root logger, its level, whether the hooks are set, the name of the process.
    Changed at ulogpy/ulog.py:333-385. *)
Record pst := mkP { p_handlers : nat; p_level : Z; p_hook : bool; p_comm : list Z }.
(** A python program at its start. Before ulogpy/ulog.py:333-385. *)
Definition fresh : pst := mkP 0 WARNING false (bytes_of_string "python3").

(** The environment: [g_env]: getenv; [g_linux]: sys.platform == "linux"; [g_trunc]: the text of the warning,
    ulogpy/ulog.py:382-383 (it contains the repr of the names). *)
Record genv := mkG { g_env : list Z -> option (list Z); g_linux : bool; g_trunc : list Z -> list Z }.

(** The level of the cookie "ulog_py" of the handler, given to the temporary cookie of each message: ULogHandler.__init__ and
    emit, ulogpy/ulog.py:289-319, ulog_init_cookie, libulog/ulog_write.c:365-396, the default cookie being not registered and
    the environment not changed since the handler was made. *)
Definition master_level (g : genv) : Z :=
  let e := env_level (mkCfg (fun _ => bytes_of_string "ulog_py") (g_env g)) 0 in if e <? 0 then 6 else e.

(** The filter of ulog_log_str, libulog/ulog_write.c:453-454. *)
Definition passes (g : genv) (x : Z * list Z * list Z) : bool := Z.land (fst (fst x)) 7 <=? master_level g.

(** A record given to [n] handlers one after the other, ulogpy/ulog.py:307-330; an exception stops. *)
Fixpoint handle (g : genv) (n : nat) (r : record) : list (Z * list Z * list Z) * option exn :=
  match n with
  | O => ([], None)
  | S n => match emit r with
           | inl e => ([], Some e)
           | inr l => let '(o, e) := handle g n r in (filter (passes g) l ++ o, e)
           end
  end.
(** Logger.log: the level of the root logger is the effective level.
    Of the module logging; called at ulogpy/ulog.py:333-385. *)
Definition log (g : genv) (s : pst) (r : record) : list (Z * list Z * list Z) * option exn :=
  if r_level r <? p_level s then ([], None) else handle g (p_handlers s) r.

(** Name of the root logger, ulogpy/ulog.py:333-385. *)
Definition ROOT : list Z := bytes_of_string "root".

(** The argument process_name. ulogpy/ulog.py:333-385. *)
Inductive pname := NoName | Str (s : list Z) | ByteStr (b : list Z).
(** bool(process_name), ulogpy/ulog.py:372. *)
Definition truthy (n : pname) : bool := match n with NoName | Str [] | ByteStr [] => false | _ => true end.
(** prctl(PR_SET_NAME): the kernel keeps 15 bytes, up to a NUL. Used at ulogpy/ulog.py:371-385. *)
Definition set_name (b : list Z) : list Z := ztake 15 (cstr b).

(** setup_logging, ulogpy/ulog.py:333-385. The library libc.so.6 is found. *)
Definition setup (g : genv) (s : pst) (n : pname) : pst * list (Z * list Z * list Z) * option exn :=
  let level := match g_env g (bytes_of_string "ULOG_LEVEL") with
               | Some v => if bytes_eqb v (bytes_of_string "D") then DEBUG else INFO
               | None => INFO
               end in
  let s1 := mkP (S (p_handlers s)) level true (p_comm s) in
  if truthy n && g_linux g then
    match (match n with Str t => utf8 t | ByteStr b => Some b | NoName => None end) with
    | None => (s1, [], Some UnicodeEncodeError)
    | Some b =>
      let s2 := mkP (p_handlers s1) (p_level s1) (p_hook s1) (set_name b) in
      if zlen b >? 15 then let '(o, e) := log g s2 (mkRec WARNING ROOT (g_trunc g b)) in (s2, o, e)
      else (s2, [], None)
    end
  else (s1, [], None).

(** No code: several calls of setup_logging, ulogpy/ulog.py:333-385. *)
Fixpoint setups (g : genv) (s : pst) (l : list pname) : pst :=
  match l with [] => s | n :: l => setups g (fst (fst (setup g s n))) l end.

(** handle_exception and handle_unraisable, ulogpy/ulog.py:352-370: [kbd]: a KeyboardInterrupt; [text]: what the
    formatter makes of the message "Uncaught exception" and its traceback. *)
Inductive ending := Printed | Exits (o : list (Z * list Z * list Z)) (code : Z) | HookFails (e : exn).
(** handle_exception as sys.excepthook, ulogpy/ulog.py:353-360. *)
Definition uncaught (g : genv) (s : pst) (kbd : bool) (text : list Z) : ending :=
  if negb (p_hook s) then Printed
  else if kbd then Printed
  else match log g s (mkRec ERROR ROOT text) with
       | (o, None) => Exits o 1
       | (_, Some e) => HookFails e
       end.
