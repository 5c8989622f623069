(** The table of log devices and the devices of the misc driver of Linux, used by calls that run at
    the same time: adding a device, opening a device, reading the list of devices.
    kernel/ulogger-3.x.c:670-714 and 936-1101, compiled for Linux before 2.6.35 ([old]: misc_open
    does not say which device is opened, kernel/ulogger-3.x.h:84-92) or later; the other drivers
    (kernel/ulogger-4.x.c, kernel/ulogger-6.x.c) are as 3.x with [old] false.

    Of Linux (drivers/char/misc.c), trusted: misc_open and misc_register run with misc_mtx held;
    misc_open calls the open function of the driver while it holds it; misc_register gives a
    device a minor number that no other device has, or fails. *)
From Coq Require Import ZArith String List Bool.
From Verif Require Import Bytes.
Import ListNotations.
Open Scope Z_scope.

(** A log device: name and minor number; kernel/ulogger-3.x.c:910-926. *)
Definition device : Type := list Z * Z.
(** A call: a write of a specification with this name to the attribute (ulogger_add_log,
    kernel/ulogger-3.x.c:1021-1101, after the specification was found good and memory allocated,
    which is in Registry.v), open of the node with this minor number (kernel/ulogger-3.x.c:670-714),
    a read of the attribute (kernel/ulogger-3.x.c:989-1007). *)
Inductive job := Add (name : list Z) | Open (minor : Z) | Show.
(** What a call returns: whether a device was added; the device opened, or ENODEV; the list. For
    kernel/ulogger-3.x.c:670-714 and 989-1101. *)
Inductive answer := Added (ok : bool) | Opened (dev : option (list Z)) | Shown (l : list device).
(** Where a call is: at its start; with its first mutex; with its second; with the minor number
    given by misc_register; finished. For kernel/ulogger-3.x.c:670-714 and 944-1101. *)
Inductive pc := P0 | P1 | P2 | P3 (minor : Z) | Fin (a : answer).
(** [s_table]: the entries of ulogger_logs that are not NULL (they come first, C17),
    kernel/ulogger-3.x.c:936; [s_misc]: those of these devices the misc driver knows; [s_logs], [s_mtx]: the
    owners of logs_mutex (kernel/ulogger-3.x.c:939) and misc_mtx; [s_calls]: the calls. *)
Record st := mkSt { s_table : list device; s_misc : list device; s_logs : option nat; s_mtx : option nat; s_calls : list (job * pc) }.

(** No code: position [t] of a list. For the calls of kernel/ulogger-3.x.c:670-1101. *)
Fixpoint put {A} (t : nat) (x : A) (l : list A) : list A :=
  match t, l with
  | O, _ :: l => x :: l
  | S t, y :: l => y :: put t x l
  | _, [] => []
  end.
(** The device with this minor number, kernel/ulogger-3.x.c:954-961 and misc_open of Linux. *)
Definition with_minor (m : Z) (l : list device) : option (list Z) := option_map fst (find (fun d => snd d =? m) l).

(** Call [t] runs until it has taken its next mutex or has finished; nothing happens if the mutex
    is taken. [free]: the minor number misc_register would give, if any.
    ulogger_add_log, kernel/ulogger-3.x.c:1064-1086; misc_open and ulogger_open with
    get_log_from_minor, kernel/ulogger-3.x.c:670-688 and 944-965; ulogger_show_logs,
    kernel/ulogger-3.x.c:989-1007. *)
Definition step (old : bool) (s : st) (t : nat) (free : option Z) : st :=
  let '(mkSt table misc logs mtx calls) := s in
  match nth_error calls t with
  | None => s
  | Some (j, p) =>
    let at_ p := put t (j, p) calls in
    match j, p, logs, mtx with
    | Add n, P0, None, _ => mkSt table misc (Some t) mtx (at_ P1)
    | Add n, P1, _, _ =>
      if existsb (fun d => bytes_eqb (fst d) n) table || (16 <=? length table)%nat
      then mkSt table misc None mtx (at_ (Fin (Added false)))
      else match mtx with
           | None => mkSt table misc logs (Some t) (at_ P2)
           | Some _ => s
           end
    | Add n, P2, _, _ =>
      match free with
      | Some m => if existsb (fun d => snd d =? m) misc then mkSt table misc None None (at_ (Fin (Added false)))
                  else mkSt table (misc ++ [(n, m)]) logs None (at_ (P3 m))
      | None => mkSt table misc None None (at_ (Fin (Added false)))
      end
    | Add n, P3 m, _, _ => mkSt (table ++ [(n, m)]) misc None mtx (at_ (Fin (Added true)))
    | Open m, P0, _, None => mkSt table misc logs (Some t) (at_ P1)
    | Open m, P1, _, _ =>
      match with_minor m misc with
      | None => mkSt table misc logs None (at_ (Fin (Opened None)))
      | Some n =>
        if negb old then mkSt table misc logs None (at_ (Fin (Opened (Some n))))
        else match table with
             | main :: _ =>
               if snd main =? m then mkSt table misc logs None (at_ (Fin (Opened (Some (fst main)))))
               else match logs with
                    | None => mkSt table misc (Some t) mtx (at_ P2)
                    | Some _ => s
                    end
             | [] => s
             end
      end
    | Open m, P2, _, _ => mkSt table misc None None (at_ (Fin (Opened (with_minor m table))))
    | Show, P0, None, _ => mkSt table misc (Some t) mtx (at_ P1)
    | Show, P1, _, _ => mkSt table misc None mtx (at_ (Fin (Shown table)))
    | _, _, _, _ => s
    end
  end.

(** Calls scheduled in any order. No code: executions of kernel/ulogger-3.x.c:670-1101. *)
Fixpoint run (old : bool) (s : st) (l : list (nat * option Z)) : st :=
  match l with
  | [] => s
  | (t, free) :: l => run old (step old s t free) l
  end.
(** After ulogger_init, kernel/ulogger-3.x.c:1108-1133: log_main with minor number [m0]. *)
Definition init (m0 : Z) (jobs : list job) : st :=
  let main := (bytes_of_string "ulog_main", m0) in mkSt [main] [main] None None (map (fun j => (j, P0)) jobs).
