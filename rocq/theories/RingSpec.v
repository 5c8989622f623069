(** Specification of the log device seen by its users: no ring, no offsets, no bytes wrapping.

    A device is a bounded history of entries.  Every reader owns a queue of entries still to be
    delivered and a count of entries it has lost and not been told about yet. *)
From Coq Require Import ZArith String List Bool.
From Verif Require Import Bytes Ring.
Import ListNotations.
Open Scope Z_scope.

(** An entry: 20 bytes of metadata (pid, tid, sec, nsec, euid; 4 little-endian bytes each) and a
    payload. *)
Record entry := mkEntry { e_meta : list Z; e_payload : list Z }.

Definition e_euid (e : entry) : Z := of_le (zsub 16 4 (e_meta e)).
Definition e_pid (e : entry) : Z := s32 (of_le (zsub 0 4 (e_meta e))).
Definition e_tid (e : entry) : Z := s32 (of_le (zsub 4 4 (e_meta e))).

(** Bytes an entry takes in the log: 24 bytes of header and the payload. *)
Definition esize (e : entry) : Z := 24 + zlen (e_payload e).
Definition total (q : list entry) : Z := fold_right (fun e a => esize e + a) 0 q.

(** What read(2) returns for an entry, for the two versions of the header. *)
Definition enc (ver : Z) (e : entry) : list Z :=
  if ver <? 2
  then le 2 (zlen (e_payload e)) ++ [0; 0] ++ ztake 16 (e_meta e) ++ e_payload e
  else le 2 (zlen (e_payload e)) ++ le 2 24 ++ e_meta e ++ e_payload e.
Definition enc_len (ver : Z) (e : entry) : Z := (if ver <? 2 then 20 else 24) + zlen (e_payload e).

(** The report of [n] dropped entries, delivered before entry [next]: pid = tid = -1, time and
    euid of [next], empty process name, warning level, device name as tag. *)
Definition report (nm : list Z) (n : Z) (next : entry) : entry :=
  mkEntry (le 4 (-1) ++ le 4 (-1) ++ zdrop 8 (e_meta next))
          ([0] ++ [4; 0; 0; 0] ++ nm ++ [0] ++ dec_d (s32 n)
           ++ bytes_of_string " log entries dropped" ++ [10; 0]).

(** ** Writing *)

Definition iter_bytes (it : iter) : list Z :=
  match it with
  | IterIovec segs => concat (map s_data segs)
  | IterUbuf s => s_data s
  | IterOther _ => []
  end.

(** Names put by the driver in front of the user payload. *)
Definition names (t : task) : list Z :=
  comm_str (t_pcomm t) ++ [0] ++
  (if t_tgid t =? t_pid t then [] else comm_str (t_tcomm t) ++ [0]).

Definition meta_of (t : task) (sec nsec : Z) : list Z :=
  le 4 (t_tgid t) ++ le 4 (t_pid t) ++ le 4 sec ++ le 4 nsec ++ le 4 (t_euid t).

(** The entry a write asks for. In raw mode the first 20 bytes are the metadata. *)
Definition requested (raw : bool) (t : task) (sec nsec : Z) (it : iter) : entry :=
  if raw then mkEntry (ztake 20 (iter_bytes it)) (ztake 4076 (zdrop 20 (iter_bytes it)))
  else mkEntry (meta_of t sec nsec) (ztake 4076 (names t ++ iter_bytes it)).

(** Number of user bytes a write can take. *)
Definition room (raw : bool) (t : task) : Z := if raw then 20 + 4076 else 4076 - zlen (names t).
Definition accepted (raw : bool) (t : task) (it : iter) : Z :=
  Z.min (room raw t) (zlen (iter_bytes it)).

(** Does copying the first [n] bytes of the segments hit an inaccessible byte? *)
Fixpoint segs_fault (segs : list seg) (n : Z) : bool :=
  match segs with
  | [] => false
  | s :: r => let k := Z.min (zlen (s_data s)) n in
              ((0 <? k) && (s_valid s <? k)) || segs_fault r (n - k)
  end.
Definition iter_fault (it : iter) (n : Z) : bool :=
  match it with
  | IterIovec segs => segs_fault segs n
  | IterUbuf s => segs_fault [s] n
  | IterOther _ => false
  end.

(** Capacity rule: an entry of [need] bytes is added to a backlog [q] as it is when backlog and
    entry together are smaller than the buffer; otherwise the smallest number of oldest entries
    whose bytes reach [need] is dropped first. *)
Fixpoint drop_oldest (need : Z) (q : list entry) : list entry * Z :=
  match q with
  | [] => ([], 0)
  | e :: r => if esize e <? need
              then let (q', n) := drop_oldest (need - esize e) r in (q', n + 1)
              else (r, 1)
  end.
Definition make_room (cap need : Z) (q : list entry) : list entry * Z :=
  if total q + need <? cap then (q, 0) else drop_oldest need q.

(** ** The abstract device *)

Record areader := mkAReader { a_q : list entry; a_lost : Z; a_all : bool; a_ver : Z }.
Record afile := mkAFile { a_wr : bool; a_raw : bool; a_rd : option areader }.
Record adev := mkADev {
  a_cap : Z;                 (** buffer size *)
  a_name : list Z;           (** device name *)
  a_keep : list entry;       (** what a new reader gets *)
  a_gone : Z;                (** entries dropped since the last flush *)
  a_files : list (Z * afile)
}.

Inductive aout :=
  | ANoFile | AErr (e : Z) | AVal (v : Z)
  | AEntry (ver : Z) (e : entry)             (** an entry is delivered *)
  | AReport (ver : Z) (nm : list Z) (n : Z) (next : entry) (** a drop report is delivered *)
  | ACont | ASleep | ARetry | APoll (b : bool).

(** What the caller observes. *)
Definition render (x : aout) : out :=
  match x with
  | ANoFile => OutNoFile
  | AErr e => OutErr e
  | AVal v => OutVal v
  | AEntry ver e => OutData (enc ver e)
  | AReport ver nm n next => OutData (enc ver (report nm n next))
  | ACont => OutCont
  | ASleep => OutSleep
  | ARetry => OutRetry
  | APoll b => OutPoll b
  end.

Fixpoint alookup (fid : Z) (fs : list (Z * afile)) : option afile :=
  match fs with
  | [] => None
  | (id, f) :: rest => if id =? fid then Some f else alookup fid rest
  end.
Fixpoint aupdate (fid : Z) (f : afile) (fs : list (Z * afile)) : list (Z * afile) :=
  match fs with
  | [] => []
  | (id, g) :: rest => if id =? fid then (id, f) :: rest else (id, g) :: aupdate fid f rest
  end.
Fixpoint aremove (fid : Z) (fs : list (Z * afile)) : list (Z * afile) :=
  match fs with
  | [] => []
  | (id, g) :: rest => if id =? fid then rest else (id, g) :: aremove fid rest
  end.

(** Entries of other users at the front of the queue are skipped. *)
Fixpoint skip_others (euid : Z) (q : list entry) : list entry :=
  match q with
  | [] => []
  | e :: r => if e_euid e =? u32 euid then q else skip_others euid r
  end.
Definition visible (r : areader) (euid : Z) : areader :=
  if a_all r then r else mkAReader (skip_others euid (a_q r)) (a_lost r) (a_all r) (a_ver r).

Definition aread (nm : list Z) (r : areader) (euid count valid : Z) : areader * aout :=
  let r := visible r euid in
  match a_q r with
  | [] => (r, ARetry)
  | e :: rest =>
    if a_lost r >? 0 then
      let n := enc_len (a_ver r) (report nm (a_lost r) e) in
      if count <? n then (r, AErr EINVAL) else
      if valid <? n then (r, AErr EFAULT) else
      (mkAReader (a_q r) 0 (a_all r) (a_ver r), AReport (a_ver r) nm (a_lost r) e)
    else
      let n := enc_len (a_ver r) e in
      if count <? n then (r, AErr EINVAL) else
      if valid <? n then (r, AErr EFAULT) else
      (mkAReader rest (a_lost r) (a_all r) (a_ver r), AEntry (a_ver r) e)
  end.

Definition amake_room (cap need : Z) (f : afile) : afile :=
  match a_rd f with
  | None => f
  | Some r => let (q, n) := make_room cap need (a_q r) in
              mkAFile (a_wr f) (a_raw f) (Some (mkAReader q (a_lost r + n) (a_all r) (a_ver r)))
  end.
Definition aappend (e : entry) (f : afile) : afile :=
  match a_rd f with
  | None => f
  | Some r => mkAFile (a_wr f) (a_raw f)
                (Some (mkAReader (a_q r ++ [e]) (a_lost r) (a_all r) (a_ver r)))
  end.
Definition aflush (f : afile) : afile :=
  match a_rd f with
  | None => f
  | Some r => mkAFile (a_wr f) (a_raw f) (Some (mkAReader [] 0 (a_all r) (a_ver r)))
  end.
Definition on_files (g : afile -> afile) (fs : list (Z * afile)) : list (Z * afile) :=
  map (fun p => (fst p, g (snd p))) fs.

Definition awrite (a : adev) (raw : bool) (t : task) (sec nsec : Z) (it : iter) : adev * aout :=
  if raw && (zlen (iter_bytes it) <? 20) then (a, AErr EINVAL) else
  let e := requested raw t sec nsec it in
  if zlen (e_payload e) =? 0 then (a, AVal 0) else
  let (keep, n) := make_room (a_cap a) (esize e) (a_keep a) in
  let fs := on_files (amake_room (a_cap a) (esize e)) (a_files a) in
  if iter_fault it (accepted raw t it)
  then (mkADev (a_cap a) (a_name a) keep (a_gone a + n) fs, AErr EFAULT)
  else (mkADev (a_cap a) (a_name a) (keep ++ [e]) (a_gone a + n) (on_files (aappend e) fs),
        AVal (accepted raw t it)).

Definition aioctl (a : adev) (fid : Z) (f : afile) (c : cmd) (euid : Z) : adev * aout :=
  let put f' := mkADev (a_cap a) (a_name a) (a_keep a) (a_gone a) (aupdate fid f' (a_files a)) in
  match c, a_rd f with
  | GetLogBufSize, _ => (a, AVal (a_cap a))
  | GetLogLen, Some r => (a, AVal (total (a_q r)))
  | GetNextEntryLen, Some r =>
    let r := visible r euid in
    (put (mkAFile (a_wr f) (a_raw f) (Some r)),
     AVal (match a_q r with [] => 0 | e :: _ => enc_len (a_ver r) e end))
  | GetVersion, Some r => (a, AVal (a_ver r))
  | SetVersion (Some v), Some r =>
    if (v =? 1) || (v =? 2)
    then (put (mkAFile (a_wr f) (a_raw f) (Some (mkAReader (a_q r) (a_lost r) (a_all r) v))), AVal 0)
    else (a, AErr EINVAL)
  | SetVersion None, Some r => (a, AErr EFAULT)
  | FlushLog, _ =>
    if a_wr f then (mkADev (a_cap a) (a_name a) [] 0 (on_files aflush (a_files a)), AVal 0)
    else (a, AErr EBADF)
  | SetRawMode arg strict capable, _ =>
    if negb (a_wr f) then (a, AErr EBADF) else
    if strict && negb capable then (a, AErr EPERM) else
    match arg with
    | None => (a, AErr EFAULT)
    | Some m => if (m =? 0) || (m =? 1) then (put (mkAFile (a_wr f) (m =? 1) (a_rd f)), AVal 0)
                else (a, AErr EINVAL)
    end
  | OtherCmd, _ => (a, AErr EINVAL)
  | _, None => (a, AErr EBADF)
  end.

Definition astep (a : adev) (o : op) : adev * aout :=
  match o with
  | OpOpen fid rd wr all nomem =>
    match alookup fid (a_files a) with
    | Some _ => (a, ANoFile)
    | None =>
      if rd && nomem then (a, AErr ENOMEM) else
      let r := if rd then Some (mkAReader (a_keep a) (a_gone a) all 2) else None in
      (mkADev (a_cap a) (a_name a) (a_keep a) (a_gone a)
              (a_files a ++ [(fid, mkAFile wr false r)]), AVal 0)
    end
  | OpClose fid =>
    match alookup fid (a_files a) with
    | None => (a, ANoFile)
    | Some _ => (mkADev (a_cap a) (a_name a) (a_keep a) (a_gone a) (aremove fid (a_files a)), AVal 0)
    end
  | OpReadCheck fid nonblock signal =>
    match alookup fid (a_files a) with
    | Some (mkAFile _ _ (Some r)) =>
      (a, match a_q r with
          | _ :: _ => ACont
          | [] => if nonblock then AErr EAGAIN else if signal then AErr EINTR else ASleep
          end)
    | _ => (a, ANoFile)
    end
  | OpReadBody fid euid count valid =>
    match alookup fid (a_files a) with
    | Some (mkAFile w m (Some r)) =>
      let (r', x) := aread (a_name a) r euid count valid in
      (mkADev (a_cap a) (a_name a) (a_keep a) (a_gone a)
              (aupdate fid (mkAFile w m (Some r')) (a_files a)), x)
    | _ => (a, ANoFile)
    end
  | OpWrite fid t sec nsec it =>
    match alookup fid (a_files a) with
    | Some f => if a_wr f then awrite a (a_raw f) t sec nsec it else (a, ANoFile)
    | None => (a, ANoFile)
    end
  | OpPoll fid euid =>
    match alookup fid (a_files a) with
    | Some (mkAFile w m (Some r)) =>
      let r := visible r euid in
      (mkADev (a_cap a) (a_name a) (a_keep a) (a_gone a)
              (aupdate fid (mkAFile w m (Some r)) (a_files a)),
       APoll (match a_q r with [] => false | _ => true end))
    | Some (mkAFile _ _ None) => (a, APoll false)
    | None => (a, ANoFile)
    end
  | OpIoctl fid c euid =>
    match alookup fid (a_files a) with
    | Some f => aioctl a fid f c euid
    | None => (a, ANoFile)
    end
  end.

Fixpoint arun (a : adev) (ops : list op) : adev * list aout :=
  match ops with
  | [] => (a, [])
  | o :: rest => let (a1, x) := astep a o in
                 let (a2, xs) := arun a1 rest in (a2, x :: xs)
  end.

Definition init_adev (nm : list Z) (pow2 : Z) : adev := mkADev (2 ^ pow2) nm [] 0 [].
