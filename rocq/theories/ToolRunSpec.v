(** What C132 says about a run of the tool ulogctl. *)
From Coq Require Import ZArith String List Bool Permutation Sorted.
From Verif Require Import Bytes Ctl CtlSys PropsCtl CtlSysSpec.
Import ListNotations.
Open Scope Z_scope.

(** What happens outside of the tool: connection, messages, changes by the process of the server. *)
Definition outside (m : move) : Prop := match m with MStart | MAsk _ => False | MOwn reg => sound_reg reg | _ => True end.
(** A line of the list: "[D] net", in colour between two escape sequences. *)
Definition letter (l : Z) : Z := nth (Z.to_nat l) (bytes_of_string "??CEWNID") 63.
Definition paint (l : Z) : list Z :=
  27 :: bytes_of_string (nth (Z.to_nat l) ["[0m"; "[0m"; "[00;91m"; "[00;91m"; "[00;93m"; "[00;92m"; "[00;94m"; "[00;95m"]%string "[0m"%string).
Definition line (color : bool) (t : list Z * Z) : list Z :=
  let plain := [91; letter (snd t); 93; 32] ++ fst t in
  (if color then paint (snd t) ++ plain ++ 27 :: bytes_of_string "[0m" else plain) ++ [10].
(** The tags of [reg] with their levels, by increasing name. *)
Definition table (reg : list cookie) (tags : list (list Z * Z)) : Prop :=
  Permutation tags (tags_of reg) /\ Sorted (fun a b => name_le (fst a) (fst b)) tags.
(** Nothing is under way and the tool is connected. *)
Definition rest (y : sys) : Prop := k_state (y_cli y) = Connected /\ y_up y = [] /\ y_down y = [] /\ y_sends y = 0%nat.
