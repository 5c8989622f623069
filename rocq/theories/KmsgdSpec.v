(** Statements about the kernel message relay (properties C52 and C99), independent of its buffer. *)
From Coq Require Import ZArith String List.
From Verif Require Import Bytes Kmsgd.
Import ListNotations.
Open Scope Z_scope.

(** The text messages of an output (kmsgd/kmsgd.c:62), events left out. *)
Definition lines_out (o : list out) : list (list Z) :=
  concat (map (fun x => match x with Line l => [l] | Evt _ => [] end) o).

(** A stream made of the lines [ls], each ended by a line feed (kmsgd/kmsgd.c:59). *)
Definition with_lf (ls : list (list Z)) : list Z := concat (map (fun l => l ++ [10]) ls).

(** No line of the stream, line feed included, is longer than [n] (kmsgd/kmsgd.c:73). *)
Definition lines_below (n : Z) (stream : list Z) : Prop :=
  forall a l b, stream = a ++ l ++ b -> ~ In 10 l -> zlen l < n.

(** The anomalies that a line reports (kmsgd/kmsgd_evt.c:37-41): the word after the first end-of-trace mark of
    the line, when a space ends it. *)
Definition mark : list Z := bytes_of_string "---[ end trace ".
Definition anomaly (l id : list Z) : Prop :=
  exists a b, l = a ++ mark ++ id ++ 32 :: b /\ ~ In 32 id /\ forall a' b', l = a' ++ mark ++ b' -> zlen a <= zlen a'.
Definition anomalies (l : list Z) (ids : list (list Z)) : Prop :=
  match ids with
  | [] => forall id, ~ anomaly l id
  | [id] => anomaly l id
  | _ => False
  end.
(** The output for some lines: each line, then its anomalies. *)
Inductive relayed : list (list Z) -> list out -> Prop :=
| relayed_nil : relayed [] []
| relayed_cons l ids ls o : anomalies l ids -> relayed ls o -> relayed (l :: ls) (Line l :: map Evt ids ++ o).
