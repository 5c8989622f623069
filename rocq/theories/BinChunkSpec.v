(** Specification vocabulary for chunked binary writes (C26-C28). *)
From Coq Require Import ZArith List.
From Verif Require Import Bytes.
Import ListNotations.
Open Scope Z_scope.

(** The byte strings a chunked write of the pieces [ps] must produce: each piece preceded by the
    header and a one byte number counting from [k] modulo 256. *)
Fixpoint numbered (hdr : list Z) (k : nat) (ps : list (list Z)) : list (list Z) :=
  match ps with
  | [] => []
  | p :: ps => (hdr ++ [Z.of_nat k mod 256] ++ p) :: numbered hdr (S k) ps
  end.
