(** Model of the table of log devices of the driver, kernel/ulogger-6.x.c:942-1155: adding
    devices through sysfs, listing them, unloading.

    Each sysfs access is one step: the table is only touched under logs_mutex. *)
From Coq Require Import ZArith String List Bool.
From Verif Require Import Bytes.
Import ListNotations.
Open Scope Z_scope.

(** Character classes of the kernel (lib/ctype.c, the Latin-1 table). *)
Definition isspace (c : Z) : bool := (9 <=? c) && (c <=? 13) || (c =? 32) || (c =? 160).
(** Of the kernel; used at kernel/ulogger-6.x.c:1008-1091. *)
Definition isdigit (c : Z) : bool := (48 <=? c) && (c <=? 57).
(** Of the kernel (Latin-1 table); used at kernel/ulogger-6.x.c:1008-1091. *)
Definition islower (c : Z) : bool := (97 <=? c) && (c <=? 122) || (223 <=? c) && (c <=? 255) && negb (c =? 247).

(** The conversions of the kernel sscanf used here (lib/vsprintf.c, vsscanf): skip_spaces, %15s
    and %u; a string is given without its NUL. *)
Fixpoint skip_spaces (s : list Z) : list Z :=
  match s with
  | c :: r => if isspace c then skip_spaces r else s
  | [] => []
  end.
(** %Ns of sscanf of the kernel, kernel/ulogger-6.x.c:1020. *)
Fixpoint scan_word (width : nat) (s : list Z) : list Z * list Z :=
  match width, s with
  | S w, c :: r => if isspace c then ([], s) else let '(x, y) := scan_word w r in (c :: x, y)
  | _, _ => ([], s)
  end.
(** simple_strntoull in base 10, arithmetic modulo 2^64. %d of sscanf of the kernel, kernel/ulogger-6.x.c:1020. *)
Fixpoint scan_digits (v : Z) (s : list Z) : Z :=
  match s with
  | c :: r => if isdigit c then scan_digits ((v * 10 + (c - 48)) mod 2 ^ 64) r else v
  | [] => v
  end.
(** sscanf(buf, "%15s %u", namebuf, &size) != 2, kernel/ulogger-6.x.c:1020; [None]: less than 2
    conversions. *)
Definition sscanf_spec (buf : list Z) : option (list Z * Z) :=
  match cstr buf with
  | [] => None
  | s => let '(name, r) := scan_word 15 (skip_spaces s) in
         match skip_spaces r with
         | c :: _ => if isdigit c then Some (name, u32 (scan_digits 0 (skip_spaces r))) else None
         | [] => None
         end
  end.

(** A device; [d_blocks]: the memory it owns (name, structure, buffer); log_main owns only its
    buffer. kernel/ulogger-6.x.c:48-58 and 918-972. *)
Record dev := mkDev { d_name : list Z; d_size : Z; d_main : bool; d_blocks : list Z }.
(** [r_logs]: ulogger_logs, kernel/ulogger-6.x.c:949; [r_live]: blocks allocated and not freed. *)
Record reg := mkReg { r_logs : list (option dev); r_live : list Z; r_next : Z }.

(** kernel/ulogger-6.x.c:949. *)
Definition MAX_LOGS : nat := 16.
(** Of the kernel; used at kernel/ulogger-6.x.c:977-997. *)
Definition PAGE_SIZE : Z := 4096.

(** Allocation answers: kstrdup, kzalloc, vmalloc, misc_register (in init_log).
    At kernel/ulogger-6.x.c:1008-1091. *)
Record answer := mkA { a_name : bool; a_log : bool; a_buf : bool; a_reg : bool }.

(** check_buf_size, kernel/ulogger-6.x.c:999-1003; the argument is converted to int. *)
Definition check_buf_size (pow2 : Z) : bool := (14 <=? pow2) && (pow2 <=? 24).

(** ffs(x) - 1 for a power of two. Used at kernel/ulogger-6.x.c:999-1003 and 1008-1091. *)
Definition ffs1 (x : Z) : Z := Z.log2 (Z.land x (- x)).

(** kernel/ulogger-6.x.c:1008-1091, the test of the characters. *)
Definition name_ok (n : list Z) : bool :=
  bytes_eqb (ztake 5 n) (bytes_of_string "ulog_") && forallb islower (zdrop 5 n).

(** The loop over the slots, kernel/ulogger-6.x.c:1064-1075: the new table if the device was
    stored. *)
Fixpoint find_slot (logs : list (option dev)) (d : dev) (reg_ok : bool) : option (list (option dev)) :=
  match logs with
  | [] => None
  | None :: r => if reg_ok then Some (Some d :: r) else None
  | Some d' :: r => if bytes_eqb (d_name d') (d_name d) then None
                    else match find_slot r d reg_ok with Some r' => Some (Some d' :: r') | None => None end
  end.

(** kfree and vfree of blocks, kernel/ulogger-6.x.c:1064-1091 and 1125-1153. *)
Definition live_minus (live : list Z) (b : list Z) : list Z := filter (fun x => negb (existsb (Z.eqb x) b)) live.

(** ulogger_add_log, kernel/ulogger-6.x.c:1008-1091.  A NULL name is dereferenced by strcmp. *)
Definition ulogger_add_log (s : reg) (buf : list Z) (count : Z) (a : answer) : M (reg * Z) :=
  match sscanf_spec buf with
  | None => Ok (s, - EINVAL)
  | Some (namebuf, size) =>
    if negb (name_ok namebuf) then Ok (s, - EINVAL)
    else if negb (check_buf_size (s32 size)) then Ok (s, - EINVAL)
    else
      let size := u32 (2 ^ size) in
      let bn := if a_name a then [r_next s] else [] in
      let bl := if a_log a then [r_next s + 1] else [] in
      let bb := if a_buf a then [r_next s + 2] else [] in
      let live := r_live s ++ bn ++ bl ++ bb in
      let freed := live_minus live (bn ++ bl ++ bb) in                    (* kfree, kfree, vfree *)
      if negb (a_log a) || negb (a_buf a) then Ok (mkReg (r_logs s) freed (r_next s + 3), - ENOMEM)
      else if negb (a_name a) then Bug Oob
      else
        match find_slot (r_logs s) (mkDev namebuf size false (bn ++ bl ++ bb)) (a_reg a) with
        | Some logs => Ok (mkReg logs live (r_next s + 3), count)
        | None => Ok (mkReg (r_logs s) freed (r_next s + 3), - EINVAL)
        end
  end.

(** One line of the list, written by scnprintf into at most [length] bytes, NUL included.
    kernel/ulogger-6.x.c:977-997. *)
Definition show_line (length : Z) (d : dev) : list Z :=
  ztake (length - 1) (d_name d ++ [32] ++ dec_u (ffs1 (d_size d)) ++ [10]).
(** ulogger_show_logs, kernel/ulogger-6.x.c:977-997: the bytes put in the page. *)
Fixpoint show_from (logs : list (option dev)) : list Z :=
  match logs with
  | Some d :: r => show_line (PAGE_SIZE / Z.of_nat MAX_LOGS) d ++ show_from r
  | _ => []
  end.
(** kernel/ulogger-6.x.c:977-997. *)
Definition ulogger_show_logs (s : reg) : list Z := show_from (r_logs s).

(** ulogger_init, kernel/ulogger-6.x.c:1097-1123, when it succeeds; main_buffer_size = [pow2]. *)
Definition ulogger_init (pow2 : Z) : option reg :=
  if check_buf_size pow2
  then Some (mkReg (Some (mkDev (bytes_of_string "ulog_main") (2 ^ pow2) true [0]) :: repeat None 15) [0] 1)
  else None.

(** ulogger_exit and delete_log, kernel/ulogger-6.x.c:1125-1153: the blocks freed, in order. *)
Fixpoint exit_from (logs : list (option dev)) : list Z :=
  match logs with
  | Some d :: r => (if d_main d then [] else d_blocks d) ++ exit_from r
  | _ => []
  end.
(** kernel/ulogger-6.x.c:1125-1153: the blocks still allocated afterwards. *)
Definition ulogger_exit (s : reg) : list Z :=
  match r_logs s with
  | Some d :: _ => d_blocks d ++ exit_from (r_logs s)
  | _ => []
  end.

(** A sequence of writes to the attribute. No code: calls of ulogger_add_log, kernel/ulogger-6.x.c:1008-1091. *)
Fixpoint run (s : reg) (l : list (list Z * Z * answer)) : M (reg * list Z) :=
  match l with
  | [] => Ok (s, [])
  | (buf, count, a) :: l => let* r := ulogger_add_log s buf count a in
                            let* r2 := run (fst r) l in Ok (fst r2, snd r :: snd r2)
  end.
