(** Model of the polling loop of shdlogd: shdlogd/src/shdlogd.c, read_samples and main.

    The shared memory library (libshdata, not in the repository) is an oracle: a section keeps the last
    [cap] samples written with their time stamps (in nanoseconds), oldest first. *)
From Coq Require Import ZArith String List Bool.
From Verif Require Import Bytes Parse Iov Shd.
Import ListNotations.
Open Scope Z_scope.

(** ULOG_SHD_NB_SAMPLES, ulog_shd/include/ulog_shd.h:28. *)
Definition NB_SAMPLES : nat := 2048.
(** Answers of libshdata, shdlogd/src/shdlogd.c:138-199. *)
Definition ENOENT := 2. Definition ENODEV := 19.

(** The method and the date of ctx.shd.search, shdlogd/src/shdlogd.c:83-87, 195 and 339. *)
Inductive method := Oldest | First_after (date : Z).
(** shd_select_samples, by its documentation: nb_values_after_date is NB_SAMPLES - 1; no sample is an
    error (-ENOENT). Called at shdlogd/src/shdlogd.c:138-199. *)
Fixpoint after (date : Z) (l : list (blob * Z)) : list (blob * Z) :=
  match l with [] => [] | (b, t) :: r => if t <? date then after date r else l end.
(** shd_select_samples of libshdata by method, shdlogd/src/shdlogd.c:138-199. *)
Definition select (m : method) (ring : list (blob * Z)) : option (list (blob * Z)) :=
  match firstn NB_SAMPLES (match m with Oldest => ring | First_after d => after d ring end) with
  | [] => None
  | l => Some l
  end.

(** ctx, shdlogd/src/shdlogd.c:45-63: index, search, the blobs left by the reads before. *)
Record ctx := mkCtx { x_index : Z; x_search : method; x_blobs : list blob; x_stop : bool }.

(** Seconds and nanoseconds of a time stamp. shdlogd/src/shdlogd.c:106-136. *)
Definition stamped (s : blob * Z) : blob * Z * Z := (fst s, snd s / 1000000000, snd s mod 1000000000).

(** read_samples, shdlogd/src/shdlogd.c:138-199, with the results of the library: [sel], of
    shd_select_samples, an error or the matching samples; [rd], of shd_read_quantity; [en], of
    shd_end_read. The result is what the function returns and what is done. Left out: closing and opening
    the section again after -ENODEV (lines 148-152) and the messages of the relay on errors. *)
Definition read_samples (pname : list Z) (c : ctx) (sel : Z + list (blob * Z)) (rd en : Z) : M (ctx * Z * list act) :=
  match sel with
  | inl e => Ok (c, e, [])
  | inr l =>
    if (NB_SAMPLES <? length l)%nat then Bug Oob else
    let blobs := if rd <? 0 then x_blobs c else map fst l ++ skipn (length l) (x_blobs c) in
    if en <? 0 then Ok (mkCtx (x_index c) (x_search c) blobs (x_stop c || (en =? - ENODEV)), en, [])
    else
      let* (acts, index) := send_samples pname (x_index c) (map stamped (combine (firstn (length l) blobs) (map snd l))) in
      match l with
      | [] => Bug Oob
      | _ => Ok (mkCtx index (match x_search c with Oldest => Oldest | First_after _ => First_after (last (map snd l) 0 + 1) end)
                   blobs (x_stop c), 0, acts)
      end
  end.
(** The date is stored even while the method is still SHD_OLDEST, which does not use it: main,
    shdlogd/src/shdlogd.c:330-339, changes the method after the first success. *)
Definition poll (pname : list Z) (c : ctx) (sel : Z + list (blob * Z)) (rd en : Z) : M (ctx * list act) :=
  let* (c', ret, acts) := read_samples pname c sel rd en in
  Ok (match x_search c', sel with
      | Oldest, inr l => if ret =? 0 then mkCtx (x_index c') (First_after (last (map snd l) 0 + 1)) (x_blobs c') (x_stop c') else c'
      | _, _ => c'
      end, acts).

(** The section with the relay: samples are written, the relay polls.
    shdlogd/src/shdlogd.c:138-199 and ulog_shd/src/ulog.c:43-116. *)
Inductive ev := Put (b : blob) (t : Z) | Poll (rd en : Z).
(** The last samples that the section keeps, ulog_shd/include/ulog_shd.h:28. *)
Definition ring (cap : nat) (hist : list (blob * Z)) : list (blob * Z) := skipn (length hist - cap) hist.
(** shdlogd/src/shdlogd.c:138-199 at a poll; a write of ulog_shd/src/ulog.c:43-116. *)
Definition step (cap : nat) (pname : list Z) (s : list (blob * Z) * ctx) (e : ev) : M (list (blob * Z) * ctx * list act) :=
  let (hist, c) := s in
  match e with
  | Put b t => Ok (hist ++ [(b, t)], c, [])
  | Poll rd en =>
    let sel := match select (x_search c) (ring cap hist) with None => inl (- ENOENT) | Some l => inr l end in
    let* (c, acts) := poll pname c sel rd en in Ok (hist, c, acts)
  end.
(** No code: a sequence of writes and polls, shdlogd/src/shdlogd.c:138-199. *)
Fixpoint run (cap : nat) (pname : list Z) (s : list (blob * Z) * ctx) (l : list ev) : M (list (blob * Z) * ctx * list act) :=
  match l with
  | [] => Ok (s, [])
  | e :: l => let* (s, a) := step cap pname s e in let* (s, r) := run cap pname s l in Ok (s, a ++ r)
  end.
(** The state at the start, shdlogd/src/shdlogd.c:63-93; [blobs]: what malloc gives (line 315). *)
Definition init (blobs : list blob) : list (blob * Z) * ctx := ([], mkCtx 0 Oldest blobs false).
