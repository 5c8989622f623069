(** What C106 says: a record of what the devices delivered, beside what is shown. *)
From Coq Require Import ZArith String List Bool.
From Verif Require Import Bytes Cat CatSpec.
Import ListNotations.
Open Scope Z_scope.

(** An entry as delivered: device, time, data, and whether parse_entry accepts it. *)
Definition got := (nat * Z * fdata * bool)%type.
(** The environment [en], which also keeps what the receive functions delivered. *)
Definition tap {W} (en : env W) : env (W * list got) :=
  mkEnv _ (fun w fds => let (w', r) := e_poll en (fst w) fds in (w', snd w, r))
          (fun w i => let (w', x) := e_recv en (fst w) i in
             (w', snd w ++ match x with RxFrame st da _ ok => [(i, st, da, ok)] | _ => [] end, x)).

(** The acceptable entries of device [d], in the order in which it delivered them. *)
Definition delivered (d : nat) (l : list got) : list (nat * Z * fdata) :=
  map fst (filter (fun g => snd g && Nat.eqb (fst (fst (fst g))) d) l).
(** Those of device [d] that are shown, in the order in which they are. *)
Definition shown_from (d : nat) (evs : list ev) : list (nat * Z * fdata) :=
  filter (fun p => Nat.eqb (fst (fst p)) d) (printed evs).
