(** Model of the addresses of libulogctl (libulogctl/src/ulogctl_srv.c and ulogctl_cli.c) and of the
    tool ulogctl (libulogctl/tool/ulogctl.c). libpomp is an oracle. *)
From Coq Require Import ZArith String List Bool.
From Verif Require Import Bytes Ctl.
Import ListNotations.
Open Scope Z_scope.

(** ** Addresses *)

(** struct sockaddr_un of Linux: 2 bytes of family, 108 of path; struct sockaddr_storage: 128 bytes.
    Used at libulogctl/src/ulogctl_srv.c:319-338 and libulogctl/src/ulogctl_cli.c:246-268. *)
Definition SUN_PATH : Z := 108.
(** sizeof(struct sockaddr_un), as above; libulogctl/src/ulogctl_srv.c:322. *)
Definition UN_SIZE : Z := 110.
(** sizeof(struct sockaddr_storage), as above; libulogctl/src/ulogctl_srv.c:45. *)
Definition STORAGE : Z := 128.
(** The family, libulogctl/src/ulogctl_srv.c:329. *)
Definition AF_UNIX : list Z := [1; 0].
(** A path in a structure cleared before: strncpy or snprintf of at most 107 bytes, then a NUL.
    libulogctl/src/ulogctl_srv.c:328-331, libulogctl/src/ulogctl_cli.c:255-262. *)
Definition sun_path (s : list Z) : list Z := ztake (SUN_PATH - 1) s ++ zrepeat 0 (SUN_PATH - zlen (ztake (SUN_PATH - 1) s)).
(** PROCESS_SOCK_PREFIX and PROCESS_SOCK_MAX_LEN, libulogctl/src/ulogctl_priv.h:120-121. *)
Definition PREFIX : list Z := bytes_of_string "@ulogctl_".
(** PROCESS_SOCK_MAX_LEN, libulogctl/src/ulogctl_priv.h:121. *)
Definition SOCK_MAX : Z := 50.

(** ulogctl_srv_new, libulogctl/src/ulogctl_srv.c:268-302: [addr] are the bytes of the caller's structure,
    [pomp] tells whether the pomp context is created. The result is what is returned and the address of
    the new object, if any: the first addrlen bytes that memcpy copied. *)
Definition srv_new (addr : list Z) (addrlen : Z) (pomp : bool) : M (Z * option (list Z)) :=
  if negb pomp then Ok (0, None)
  else if (zlen addr <? addrlen) || (STORAGE <? addrlen) then Bug Oob
  else Ok (0, Some (ztake addrlen addr)).
(** ulogctl_cli_new, libulogctl/src/ulogctl_cli.c:270-319, with valid callbacks and pomp_ctx_set_send_cb
    succeeding. *)
Definition cli_new_addr (addr : list Z) (addrlen : Z) (pomp : bool) : M (Z * option (list Z)) :=
  if negb pomp then Ok (- ENOMEM, None)
  else if (zlen addr <? addrlen) || (STORAGE <? addrlen) then Bug Oob
  else Ok (0, Some (ztake addrlen addr)).

(** The first byte of an abstract name is NUL. libulogctl/src/ulogctl_srv.c:333-334. *)
Definition abstract (p : list Z) : list Z := match p with c :: r => 0 :: r | [] => [] end.
(** The test of libulogctl/src/ulogctl_srv.c:333. *)
Definition is_at (p : list Z) : bool := match p with c :: _ => c =? 64 | [] => false end.
(** ulogctl_srv_new_unix, libulogctl/src/ulogctl_srv.c:319-338; [sock] without its NUL. *)
Definition srv_new_unix (sock : list Z) (pomp : bool) : M (Z * option (list Z)) :=
  let path := sun_path sock in
  let path := if is_at path then abstract path else path in
  srv_new (AF_UNIX ++ path) (2 + zlen sock) pomp.
(** ulogctl_srv_new_unix_proc, libulogctl/src/ulogctl_srv.c:340-364; [comm]: the name that prctl gives,
    the one of the calling thread. *)
Definition srv_new_unix_proc (comm : list Z) (pomp : bool) : M (Z * option (list Z)) :=
  srv_new_unix (ztake (SOCK_MAX - 1) (PREFIX ++ comm)) pomp.
(** ulogctl_cli_new_proc, libulogctl/src/ulogctl_cli.c:246-268. *)
Definition cli_new_proc (proc : list Z) (pomp : bool) : M (Z * option (list Z)) :=
  let text := PREFIX ++ proc in
  cli_new_addr (AF_UNIX ++ abstract (sun_path text)) (2 + zlen text) pomp.

(** parse_addr, libulogctl/tool/ulogctl.c:239-266, for what follows "unix:"; the other addresses are left
    to libpomp. The structure is a sockaddr_storage. *)
Definition parse_unix (s : list Z) : list Z * Z :=
  let path := sun_path s in
  (AF_UNIX ++ (if is_at s then abstract path else path) ++ zrepeat 0 (STORAGE - UN_SIZE), 2 + zlen s).
(** A client with this address, libulogctl/tool/ulogctl.c:239-266 and 396-407. *)
Definition tool_unix (s : list Z) (pomp : bool) : M (Z * option (list Z)) :=
  let (a, l) := parse_unix s in cli_new_addr a l pomp.

(** ** The tool *)

(** char2level and level2char, libulogctl/tool/ulogctl.c:139-186. *)
Definition char2level (c : Z) : Z :=
  if (c =? 99) || (c =? 67) then 2 else if (c =? 101) || (c =? 69) then 3
  else if (c =? 119) || (c =? 87) then 4 else if (c =? 110) || (c =? 78) then 5
  else if (c =? 105) || (c =? 73) then 6 else if (c =? 100) || (c =? 68) then 7 else -1.
(** level2char, libulogctl/tool/ulogctl.c:159-186. *)
Definition level2char (l : Z) : Z :=
  match l with 2 => 67 | 3 => 69 | 4 => 87 | 5 => 78 | 6 => 73 | 7 => 68 | _ => 63 end.

(** What getopt_long finds: -t comes with the next word of the command line, if any.
    libulogctl/tool/ulogctl.c:302-366. *)
Inductive opt := OHelp | OList | OColor | OTag (tag : list Z) (next : option (list Z)) | OAll (arg : list Z) | OProc (arg : list Z) | OBad.
(** The variables of main, libulogctl/tool/ulogctl.c:272-281. *)
Record vars := mkVars { v_set_tag : bool; v_set_all : bool; v_list : bool; v_tag : list Z; v_level : Z; v_proc : option (list Z) }.
(** Initial values, libulogctl/tool/ulogctl.c:272-281. *)
Definition vars0 : vars := mkVars false false false [] (-1) None.
(** First byte of a C string. As at libulogctl/tool/ulogctl.c:302-366. *)
Definition first (s : list Z) : Z := hd 0 (s ++ [0]).
(** The loop over the options, libulogctl/tool/ulogctl.c:302-366; [inl]: exit with this code. *)
Fixpoint options (v : vars) (l : list opt) : Z + vars :=
  match l with
  | [] => inr v
  | OHelp :: _ => inl 0
  | OList :: l => options (mkVars (v_set_tag v) (v_set_all v) true (v_tag v) (v_level v) (v_proc v)) l
  | OColor :: l => options v l
  | OTag tag next :: l =>
    match next with
    | None => inl (-1)
    | Some w =>
      if first w =? 45 then inl (-1)
      else if char2level (first w) <? 0 then inl (-1)
      else options (mkVars true (v_set_all v) (v_list v) tag (char2level (first w)) (v_proc v)) l
    end
  | OAll arg :: l =>
    if char2level (first arg) <? 0 then inl (-1)
    else options (mkVars (v_set_tag v) true (v_list v) (v_tag v) (char2level (first arg)) (v_proc v)) l
  | OProc arg :: l => options (mkVars (v_set_tag v) (v_set_all v) (v_list v) (v_tag v) (v_level v) (Some arg)) l
  | OBad :: _ => inl (-1)
  end.
(** The request of main, libulogctl/tool/ulogctl.c:416-429, when the address or process name is accepted
    and the client starts; [None]: no request, and the loop of lines 432-433 waits for ever. *)
Definition request (v : vars) : option req :=
  if v_set_tag v then Some (RSetTag (v_tag v) (v_level v))
  else if v_set_all v then Some (RSetAll (v_level v))
  else if v_list v then Some RList else None.
(** How the run of the tool ends: main, libulogctl/tool/ulogctl.c:368-452. *)
Inductive result := Exit (code : Z) | Waits | Asks (r : req).
(** [addr]: whether there is an address on the command line and whether it is accepted; [started]: whether
    the client is created and started; [accepted]: what the request function returns.
    main after its options, libulogctl/tool/ulogctl.c:368-453. *)
Definition main (l : list opt) (addr : option bool) (started : bool) (accepted : Z) : result :=
  match options vars0 l with
  | inl c => Exit c
  | inr v =>
    match addr, v_proc v with
    | Some false, _ => Exit 0
    | None, None => Exit (-1)
    | _, _ =>
      if negb started then Exit 0
      else match request v with
           | None => Waits
           | Some r => if accepted <? 0 then Waits else Asks r
           end
    end
  end.
