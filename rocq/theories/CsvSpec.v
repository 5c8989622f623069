(** What C142 says: a program that reads the CSV output of ulogcat by the announced lengths, and what it gets. *)
From Coq Require Import ZArith String List Bool.
From Verif Require Import Bytes Ring RingSpec ParseSpec Render RenderSpec LiveSpec SaidSpec.
Import ListNotations.
Open Scope Z_scope.

(** The bytes before the first [c], and those after it. *)
Fixpoint until (c : Z) (l : list Z) : option (list Z * list Z) :=
  match l with
  | [] => None
  | x :: r => if x =? c then Some ([], r) else match until c r with Some (a, b) => Some (x :: a, b) | None => None end
  end.
(** [n] fields, each ended by a comma. *)
Fixpoint fields (n : nat) (l : list Z) : option (list (list Z) * list Z) :=
  match n with
  | O => Some ([], l)
  | S n => match until 44 l with
           | Some (f, r) => match fields n r with Some (fs, r) => Some (f :: fs, r) | None => None end
           | None => None
           end
  end.
Definition signed (v : Z) : Z := if v <? 2 ^ 31 then v else v - 2 ^ 32.
(** One record: eleven fields, as many bytes as the last one says, a line feed. *)
Definition record (l : list Z) : option (uentry * list Z) :=
  match fields 11 l with
  | Some ([sec; nsec; prio; color; bin; tag; pname; pid; tname; tid; len], r) =>
    let pay := firstn (Z.to_nat (dec_value len)) r in
    match skipn (Z.to_nat (dec_value len)) r, hex_value sec, hex_value nsec, hex_value color with
    | 10 :: rest, Some s, Some ns, Some c =>
      let b := dec_value bin =? 1 in
      Some (mkU (signed s) (signed ns) (dec_value prio) (dec_value pid) pname (dec_value tid) tname tag
                (if b then unhex pay else pay) b c, rest)
    | _, _, _, _ => None
    end
  | _ => None
  end.
(** Records, and banners, which start with a dash and end with the line. *)
Fixpoint reads (fuel : nat) (l : list Z) : option (list uentry) :=
  match l, fuel with
  | [], _ => Some []
  | 45 :: _, S f => match until 10 l with Some (_, r) => reads f r | None => None end
  | _ :: _, S f => match record l with
                   | Some (u, r) => match reads f r with Some us => Some (u :: us) | None => None end
                   | None => None
                   end
  | _, O => None
  end.
Definition read_csv (text : list Z) : option (list uentry) := reads (length text) text.

(** The entries got are those given, but for binary ones of more than 1000 bytes. *)
Inductive thinned : list uentry -> list uentry -> Prop :=
  | th_nil : thinned [] []
  | th_keep : forall u a b, thinned a b -> thinned (u :: a) (u :: b)
  | th_drop : forall u a b, u_bin u = true -> 1000 < zlen (u_msg u) -> thinned a b -> thinned (u :: a) b.

(** The names hold no comma, and the data are bytes. *)
Definition plain (m : said) : Prop :=
  ~ In 44 (s_tag m) /\ ~ In 44 (comm_str (t_pcomm (s_task m))) /\ ~ In 44 (comm_str (t_tcomm (s_task m))) /\
  Forall (fun b => 0 <= b < 256) (s_msg m).
