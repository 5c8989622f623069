(** What C129 says about the records of a connected client and server. *)
From Coq Require Import ZArith String List Bool Permutation Sorted.
From Verif Require Import Bytes Ctl CtlSys PropsCtl.
Import ListNotations.
Open Scope Z_scope.

Definition accepted (tr : list seen) : list req := flat_map (fun x => match x with Asked r true => [r] | _ => [] end) tr.
Definition handled (tr : list seen) : list req := flat_map (fun x => match x with Handled r => [r] | _ => [] end) tr.

(** What a request does to the cookies of the server: levels are limited to 0..7; of several cookies with
    the same name the first is changed; requests for all tags leave the default cookie. *)
Inductive effect : req -> list cookie -> list cookie -> Prop :=
  | ef_set tag level a c b : Forall (fun x => c_name x <> tag) a -> c_name c = tag ->
      effect (RSetTag tag level) (a ++ c :: b) (a ++ mkCookie (c_default c) tag (Z.max 0 (Z.min 7 level)) :: b)
  | ef_none tag level reg : Forall (fun x => c_name x <> tag) reg -> effect (RSetTag tag level) reg reg
  | ef_all level reg : effect (RSetAll level) reg
      (map (fun c => if c_default c then c else mkCookie false (c_name c) (Z.max 0 (Z.min 7 level))) reg)
  | ef_list reg : effect RList reg reg.

(** The cookies after what was recorded. *)
Inductive leads (reg0 : list cookie) : list seen -> list cookie -> Prop :=
  | ld_nil : leads reg0 [] reg0
  | ld_handled tr r reg reg' : leads reg0 tr reg -> effect r reg reg' -> leads reg0 (tr ++ [Handled r]) reg'
  | ld_own tr reg reg' : leads reg0 tr reg -> leads reg0 (tr ++ [Own reg']) reg'
  | ld_asked tr r b reg : leads reg0 tr reg -> leads reg0 (tr ++ [Asked r b]) reg
  | ld_told tr l reg : leads reg0 tr reg -> leads reg0 (tr ++ [Told l]) reg.

(** Results of calls left out. *)
Definition news (l : list out) : list out := filter (fun o => match o with Ret _ => false | _ => true end) l.
(** A report of the tags [reg] had: done, then each tag with its level, by increasing name. *)
Definition report (reg : list cookie) (l : list out) : Prop :=
  exists tags, news l = Status true :: map (fun t => TagInfo (Some (fst t)) (snd t)) tags /\
    Permutation tags (tags_of reg) /\ Sorted (fun a b => name_le (fst a) (fst b)) tags.

(** Numbers of the interface are 32-bit, levels of cookies are levels, names are C strings. *)
Definition sound_req (r : req) : Prop :=
  match r with RSetTag _ l | RSetAll l => -2147483648 <= l <= 2147483647 | RList => True end.
Definition sound_reg (reg : list cookie) : Prop := Forall (fun c => name (c_name c) /\ 0 <= c_level c <= 7) reg.
Definition sound (m : move) : Prop := match m with MAsk r => sound_req r | MOwn reg => sound_reg reg | _ => True end.

(** How many answers the application got. *)
Definition has_news (x : seen) : bool := match x with Told l => negb (Nat.eqb (length (news l)) 0) | _ => false end.
Definition answers (tr : list seen) : nat := length (filter has_news tr).

(** The report [l] comes at the end of [a] and is about the last request, a list: it shows the cookies at a time
    after that request, when all the requests before it had been handled. *)
Definition listed (reg0 : list cookie) (a : list seen) (l : list out) : Prop :=
  exists a0 a0' a2 reg, a = a0 ++ Asked RList true :: a0' ++ Handled RList :: a2 /\ accepted a0' = [] /\ accepted a2 = [] /\
    (let before := a0 ++ Asked RList true :: a0' in
     leads reg0 before reg /\ accepted before = handled before ++ [RList]) /\ report reg l.
(** What is told at the end of [a] is about the last accepted request. *)
Definition told_right (reg0 : list cookie) (a : list seen) (l : list out) : Prop :=
  news l <> [] ->
  (exists r x, accepted a = x ++ [r] /\ r <> RList /\ news l = [Status true]) \/
  (exists x, accepted a = x ++ [RList] /\ listed reg0 a l).
