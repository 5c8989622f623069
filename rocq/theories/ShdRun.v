(** From the logging calls of the tasks of a real-time system, through the section of shared memory
    (Shd.v) and the relay shdlogd (Relay.v), to the log device (Ring.v).

    Left out: the choice and opening of the devices (Devopen.v), the options (Shdlogd.v), polls that fail,
    the end of the relay. *)
From Coq Require Import ZArith String List Bool.
From Verif Require Import Bytes Ring Parse Iov Shd Relay Program.
From Verif Require Macros.
Import ListNotations.
Open Scope Z_scope.

(** A logging call of a task: the priority word, the level of its tag, what pthread_self gives, the name
    of the thread with what follows its NUL in the 16 bytes of thread_name, the tag, the formatted text,
    the time of time_get_monotonic in nanoseconds, the initial content of buf in ulog_vlog_write
    (libulog/ulog_write.c:426) and of blob.buf. ulog_shd/src/ulog.c:43-113. *)
Record message := mkMsg {
  m_prio : Z; m_level : Z; m_tid : Z; m_thread : list Z; m_pad : list Z; m_tag : list Z; m_text : list Z; m_time : Z;
  m_stack : list Z; m_blob : list Z }.
(** What happens: a call, or a poll of the relay with the results of shd_read_quantity and shd_end_read.
    shdlogd/src/shdlogd.c:138-204. *)
Inductive happening := Says (m : message) | Polls (rd en : Z).

(** The samples of the calls: ulog_log, libulog/include/ulog.h:500-508; ulog_vlog_write,
    libulog/ulog_write.c:422-436; ulog_shd_write, ulog_shd/src/ulog.c:43-113. [index]: ctrl.index, 1 at the
    start (line 37); it is kept on 16 bits there, here where it is stored. The mutex of ulog_shd_write
    puts the samples in an order. *)
Fixpoint samples (index : Z) (l : list happening) : M (list ev) :=
  match l with
  | [] => Ok []
  | Polls rd en :: l => let* r := samples index l in Ok (Poll rd en :: r)
  | Says m :: l =>
    let* b := Macros.ulog_log (m_stack m) (m_prio m) (m_level m) (m_text m) in
    match b with
    | None => samples index l
    | Some buf =>
      let* s := ulog_shd_write (m_blob m) index (m_prio m) (m_tid m) (Some (m_thread m ++ 0 :: m_pad m)) (m_tag m) buf in
      let* r := samples (index + 1) l in Ok (Put s (m_time m) :: r)
    end
  end.

(** The relay: the descriptor of the device in raw mode and, if it is the same device, the one of the
    library; the process; the level of its tag; whether raw mode must be allowed and is; the name given
    with -n; the period; the contents of buf in ulog_vlog_write and the times at its messages.
    shdlogd/src/shdlogd.c:37-93. *)
Record relay := mkRelay {
  g_raw : Z; g_own : option Z; g_task : task; g_level : Z; g_strict : bool; g_capable : bool;
  g_pname : list Z; g_period : Z; g_stack : nat -> list Z; g_clock : nat -> Z * Z }.

(** A message of the relay itself, the [i]-th thing it does. shdlogd/src/shdlogd.c:187, 189 and 276. *)
Definition own_message (g : relay) (i : nat) (prio : Z) (text : list Z) : M (list op) :=
  match g_own g with
  | None => Ok []
  | Some fid =>
    let* r := log_call (mkCall fid (g_task g) (fst (g_clock g i)) (snd (g_clock g i)) (g_stack g i)
                          (bytes_of_string "shdlogd") (g_level g) prio text) in
    Ok match r with Some o => [o] | None => [] end
  end.
(** The calls on the device for what read_samples does, shdlogd/src/shdlogd.c:178-192: ulog_raw_log,
    libulog/ulog_write_raw.c:86-174, or a message. *)
Definition act_ops (g : relay) (i : nat) (a : act) : M (list op) :=
  match a with
  | Relay r => Ok match ulog_raw_log (g_raw g) (Some r) with
                  | Writev v => [OpWrite (g_raw g) (g_task g) (fst (g_clock g i)) (snd (g_clock g i)) (iovec v)]
                  | Refuse _ => []
                  end
  | Lost d => own_message g i 3 (dec_d d ++ bytes_of_string " shared memory log messages lost")
  | Many => own_message g i 3 (bytes_of_string "many shared memory log messages lost")
  end.
(** The loop of shdlogd/src/shdlogd.c:178-192, over all the polls. *)
Fixpoint perform (g : relay) (i : nat) (l : list act) : M (list op) :=
  match l with
  | [] => Ok []
  | a :: l => let* o := act_ops g i a in let* r := perform g (S i) l in Ok (o ++ r)
  end.
(** All the calls on the device: the library opens its device at the start of the process
    (libulog/ulog_write.c:187), the first message (shdlogd/src/shdlogd.c:276), ulog_raw_open
    (libulog/ulog_write_raw.c:52-70, called at line 300), the polls. [cap]: the number of samples of the
    section; [blobs]: what malloc gives at line 315. *)
Definition session (cap : nat) (blobs : list blob) (g : relay) (l : list happening) : M (list op) :=
  let* rl := samples 1 l in
  let* (_, acts) := Relay.run cap (g_pname g ++ [0]) (init blobs) rl in
  let* start := own_message g 0 5 (bytes_of_string "shdlogd starting, polling every " ++ dec_u (g_period g) ++ bytes_of_string " ms") in
  let* body := perform g 1 acts in
  Ok (match g_own g with Some fid => [OpOpen fid false true false false] | None => [] end ++ start ++
      [OpOpen (g_raw g) false true false false; OpIoctl (g_raw g) (SetRawMode (Some 1) (g_strict g) (g_capable g)) (t_euid (g_task g))] ++
      body).
