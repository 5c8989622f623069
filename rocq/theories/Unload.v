(** The list of tags in a program that opens and closes shared libraries (dlopen, dlclose): the cookies are
    in the memory of the library that declares them (libulog/include/ulog.h:427-428), and the list of
    libulog/ulog_write.c has no way to remove one. A single thread; the level that the environment gives is
    an oracle (Cookies.v has its computation, and the threads). *)
From Coq Require Import ZArith String List Bool Arith.
From Verif Require Import Bytes.
Import ListNotations.
Open Scope Z_scope.

(** struct ulog_cookie: name, level and next; libulog/include/ulog.h:451-457 and 427-428. *)
Record cell := mkCell { e_name : list Z; e_level : Z; e_next : option nat }.
(** The mapped cookies by address, and ctrl.cookie_list, libulog/ulog_write.c:50-71. *)
Record state := mkSt { s_mem : nat -> option cell; s_head : option nat }.
(** At the start: __ulog_default_cookie, here at address 0; libulog/ulog_write.c:38-44. *)
Definition start : state := mkSt (fun c => match c with O => Some (mkCell [] (-1) None) | _ => None end) None.
(** No code: an access to a cookie, a fault if its library was unmapped (libulog/ulog_write.c:283-307). *)
Definition get (s : state) (c : nat) : M cell := match s_mem s c with Some e => Ok e | None => Bug Oob end.
(** No code: memory with one cookie changed (libulog/ulog_write.c:401-406 and 485). *)
Definition put (s : state) (c : nat) (e : option cell) : nat -> option cell := fun x => if Nat.eqb x c then e else s_mem s x.

(** ulog_init_cookie, libulog/ulog_write.c:365-420, without hook; [env name]: the level of lines 375-390, negative if
    there is none. *)
Definition init_cookie (env : list Z -> Z) (s : state) (c : nat) : M state :=
  let* e := get s c in
  let level := env (e_name e) in
  let* d := get s 0%nat in
  let level := if (level <? 0) && (0 <=? e_level d) then e_level d else level in
  let level := if level <? 0 then 6 else level in
  if e_level e <? 0 then Ok (mkSt (put s c (Some (mkCell (e_name e) level (s_head s)))) (Some c)) else Ok s.
(** ulog_init, libulog/ulog_write.c:467-472. *)
Definition ulog_init (env : list Z -> Z) (s : state) (c : nat) : M state :=
  let* e := get s c in if e_level e <? 0 then init_cookie env s c else Ok s.
(** ulog_set_level, libulog/ulog_write.c:474-486. *)
Definition set_level (env : list Z -> Z) (s : state) (c : nat) (level : Z) : M state :=
  let level := if level <? 0 then 0 else level in
  let level := if level >? 7 then 7 else level in
  let* s := ulog_init env s c in
  let* e := get s c in
  Ok (mkSt (put s c (Some (mkCell (e_name e) level (e_next e)))) (s_head s)).
(** ulog_get_level, libulog/ulog_write.c:488-492. *)
Definition get_level (env : list Z -> Z) (s : state) (c : nat) : M (state * Z) :=
  let* s := ulog_init env s c in let* e := get s c in Ok (s, e_level e).
(** ulog_foreach, libulog/ulog_write.c:283-307: the cookies given to the callback. *)
Fixpoint foreach (fuel : nat) (s : state) (p : option nat) : M (list nat) :=
  match p with
  | None => Ok []
  | Some c =>
    match fuel with
    | O => Bug Hang
    | S n => let* e := get s c in let* l := foreach n s (e_next e) in Ok (if Nat.eqb c 0 then l else c :: l)
    end
  end.
(** The search of ulog_set_tag_level, libulog/ulog_write.c:500-506. *)
Fixpoint search (fuel : nat) (s : state) (name : list Z) (p : option nat) : M (option nat) :=
  match p with
  | None => Ok None
  | Some c =>
    match fuel with
    | O => Bug Hang
    | S n => let* e := get s c in if bytes_eqb (e_name e) name then Ok (Some c) else search n s name (e_next e)
    end
  end.
(** ulog_set_tag_level, libulog/ulog_write.c:494-515. *)
Definition set_tag_level (fuel : nat) (env : list Z -> Z) (s : state) (name : list Z) (level : Z) : M (state * Z) :=
  let* r := search fuel s name (s_head s) in
  match r with
  | Some c => let* s := set_level env s c level in Ok (s, 0)
  | None => Ok (s, -1)
  end.
(** ulog_get_tag_names, libulog/ulog_write.c:517-530; the names are read at once. *)
Fixpoint tag_names (s : state) (maxlen : nat) (p : option nat) : M (list (list Z)) :=
  match maxlen, p with
  | S n, Some c => let* e := get s c in let* l := tag_names s n (e_next e) in Ok (e_name e :: l)
  | _, _ => Ok []
  end.

(** What the program does: it opens a library with these cookies, closes one, or calls a function
    (libulog/ulog_write.c:283-307, 467-530). *)
Inductive op := Dlopen (l : list (nat * list Z)) | Dlclose (l : list nat) | Init (c : nat) | SetLevel (c : nat) (v : Z) | GetLevel (c : nat)
  | SetTag (name : list Z) (v : Z) | Names (maxlen : nat) | Each.
(** Results, libulog/ulog_write.c:283-307, 467-530. *)
Inductive out := Done | Value (v : Z) | Tags (l : list (list Z)) | Cookies (l : list nat).
(** One of them; a library comes with its cookies as declared (libulog/include/ulog.h:427-428). *)
Definition step (fuel : nat) (env : list Z -> Z) (s : state) (o : op) : M (state * out) :=
  match o with
  | Dlopen l => Ok (mkSt (fold_left (fun m x => fun c => if Nat.eqb c (fst x) then Some (mkCell (snd x) (-1) None) else m c) l (s_mem s)) (s_head s), Done)
  | Dlclose l => Ok (mkSt (fold_left (fun m x => fun c => if Nat.eqb c x then None else m c) l (s_mem s)) (s_head s), Done)
  | Init c => let* s := ulog_init env s c in Ok (s, Done)
  | SetLevel c v => let* s := set_level env s c v in Ok (s, Done)
  | GetLevel c => let* (s, v) := get_level env s c in Ok (s, Value v)
  | SetTag name v => let* (s, r) := set_tag_level fuel env s name v in Ok (s, Value r)
  | Names maxlen => let* l := tag_names s maxlen (s_head s) in Ok (s, Tags l)
  | Each => let* l := foreach fuel s (s_head s) in Ok (s, Cookies l)
  end.
(** Several, libulog/ulog_write.c:283-307, 467-530. *)
Fixpoint run (fuel : nat) (env : list Z -> Z) (s : state) (l : list op) : M (state * list out) :=
  match l with
  | [] => Ok (s, [])
  | o :: l => let* (s, x) := step fuel env s o in let* (s, r) := run fuel env s l in Ok (s, x :: r)
  end.
