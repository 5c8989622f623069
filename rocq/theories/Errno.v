(** Model of the error and event macros of libulog/include/ulog.h:187-290 and 405-416.

    An expression of the program given to a macro is its name, the value it has and the errno it leaves,
    both as functions of the errno it finds: what matters of the program's state. *)
From Coq Require Import ZArith String List Bool.
From Verif Require Import Bytes Writer Macros.
Import ListNotations.
Open Scope Z_scope.

(** An argument of a macro of libulog/include/ulog.h:205-246: its name, its value and what it does to errno. *)
Record expr := mkE { x_name : nat; x_val : Z -> Z; x_errno : Z -> Z }.

(** What happens: an expression is evaluated; bytes are given to the output function with a priority.
    At libulog/include/ulog.h:205-246 and 500-508. *)
Inductive event := Eval (name : nat) | Out (prio : Z) (bytes : list Z).

(** errno and the level of the tag (negative: not registered yet).
    For libulog/include/ulog.h:205-246 and libulog/ulog_write.c:365-420. *)
Record st := mkSt { e_errno : Z; e_level : Z }.

(** The rest of the world:
    - [w_level]: the level computed at registration, see Registry.v; [w_init]: the errno left by the calls
      inside ulog_init_cookie and by the registration hook;
    - [w_write]: the errno left by the output function;
    - [w_strerror]: strerror, libulog/include/ulog.h:410 (it does not change errno here);
    - [w_stack]: the content of buf in ulog_vlog_write. *)
Record env := mkEnv { w_level : Z; w_init : Z -> Z; w_write : list Z -> Z -> Z; w_strerror : Z -> list Z; w_stack : list Z }.

(** Evaluation of an argument, libulog/include/ulog.h:205-246. *)
Definition eval (x : expr) (s : st) : Z * st := (x_val x (e_errno s), mkSt (x_errno x (e_errno s)) (e_level s)).
(** Evaluation of several arguments, libulog/include/ulog.h:205-246, from left to right. *)
Fixpoint eval_all (l : list expr) (s : st) : list Z * st :=
  match l with [] => ([], s) | x :: l => let '(v, s1) := eval x s in let '(vs, s2) := eval_all l s1 in (v :: vs, s2) end.

(** ulog_init_cookie, libulog/ulog_write.c:365-420: what it does to errno and to the level. *)
Definition init_cookie (w : env) (s : st) : st :=
  let old := e_errno s in
  let s1 := mkSt (w_init w (e_errno s)) (if e_level s <? 0 then w_level w else e_level s) in
  mkSt old (e_level s1).

(** ulog_log, libulog/include/ulog.h:500-508; [body]: the text of the format with the values of the arguments
    and errno (for %m). The arguments are evaluated only in the call of ulog_log_write. *)
Definition log (w : env) (s : st) (prio : Z) (args : list expr) (body : list Z -> Z -> list Z) : M (st * list event) :=
  let s1 := if e_level s <? 0 then init_cookie w s else s in
  if enabled prio (e_level s1) then
    let '(vs, s2) := eval_all args s1 in
    let evs := map (fun x => Eval (x_name x)) args in
    let* out := ulog_vlog_write (w_stack w) (Some (body vs (e_errno s2))) in
    match out with
    | Some b => Ok (mkSt (w_write w b (e_errno s2)) (e_level s2), evs ++ [Out prio b])
    | None => Ok (s2, evs)
    end
  else Ok (s1, []).

(** The place of a macro: __func__ and __LINE__. libulog/include/ulog.h:405-411. *)
Record site := mkSite { p_func : list Z; p_line : Z }.
(** The text of ULOG_PRI_ERRNO, libulog/include/ulog.h:405-411. *)
Definition errno_text (w : env) (p : site) (body : list Z) (err : Z) : list Z :=
  p_func p ++ bytes_of_string ":" ++ dec_d (p_line p) ++ bytes_of_string ": " ++ body ++ bytes_of_string " err=" ++ dec_d err ++
  bytes_of_string "(" ++ w_strerror w err ++ bytes_of_string ")".

(** ULOG_PRI_ERRNO, libulog/include/ulog.h:407-413, and the macros ULOGC_ERRNO to ULOGD_ERRNO, 187-198. *)
Definition pri_errno (w : env) (p : site) (s : st) (err : expr) (prio : Z) (args : list expr) (body : list Z -> Z -> list Z) : M (st * list event) :=
  let '(e, s1) := eval err s in
  let* r := log w s1 prio args (fun vs no => errno_text w p (body vs no) e) in
  Ok (fst r, Eval (x_name err) :: snd r).

(** What a statement does to its function. libulog/include/ulog.h:212-246. *)
Inductive exit := Falls | Returns | ReturnsVal (v : Z).

(** The local variable of ULOG_ERRNO_RETURN_ERR_IF as an expression: not one of the program's.
    libulog/include/ulog.h:225-232. *)
Definition pri_errno_local (w : env) (p : site) (s : st) (e prio : Z) : M (st * list event) :=
  log w s prio [] (fun _ _ => errno_text w p [] e).

(** ULOG_ERRNO_RETURN_IF, libulog/include/ulog.h:212-218. *)
Definition return_if (w : env) (p : site) (s : st) (cond err : expr) : M (st * list event * exit) :=
  let '(c, s1) := eval cond s in
  if negb (c =? 0) then
    let* r := pri_errno w p s1 err 3 [] (fun _ _ => []) in
    Ok (fst r, Eval (x_name cond) :: snd r, Returns)
  else Ok (s1, [Eval (x_name cond)], Falls).

(** ULOG_ERRNO_RETURN_ERR_IF, libulog/include/ulog.h:225-232; the negation of the least int overflows. *)
Definition return_err_if (w : env) (p : site) (s : st) (cond err : expr) : M (st * list event * exit) :=
  let '(c, s1) := eval cond s in
  if negb (c =? 0) then
    let '(e, s2) := eval err s1 in
    let* r := pri_errno_local w p s2 e 3 in
    if e =? - 2 ^ 31 then Bug Oob
    else Ok (fst r, Eval (x_name cond) :: Eval (x_name err) :: snd r, ReturnsVal (- e))
  else Ok (s1, [Eval (x_name cond)], Falls).

(** ULOG_ERRNO_RETURN_VAL_IF, libulog/include/ulog.h:239-246. *)
Definition return_val_if (w : env) (p : site) (s : st) (cond err val : expr) : M (st * list event * exit) :=
  let '(c, s1) := eval cond s in
  if negb (c =? 0) then
    let* r := pri_errno w p s1 err 3 [] (fun _ _ => []) in
    let '(v, s2) := eval val (fst r) in
    Ok (s2, Eval (x_name cond) :: snd r ++ [Eval (x_name val)], ReturnsVal v)
  else Ok (s1, [Eval (x_name cond)], Falls).

(** ULOG_EVT and ULOG_EVTS, libulog/include/ulog.h:262-263 and 284-285. *)
Definition evt (w : env) (s : st) (secret : bool) (type : list Z) (args : list expr) (body : list Z -> Z -> list Z) : M (st * list event) :=
  log w s 5 args (fun vs no => bytes_of_string (if secret then "EVTS:" else "EVT:") ++ type ++ bytes_of_string ";" ++ body vs no).
