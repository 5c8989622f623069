(** What C145 asks of the calls of a program: objects are created once, used and destroyed while they are held, the
    loop after the others; a wakeup needs the loop. *)
From Coq Require Import ZArith List Bool.
From Verif Require Import CtlLife.
Import ListNotations.

Definition same (a b : obj) : bool := match a, b with OLoop, OLoop | OTimer, OTimer | OCtl, OCtl => true | _, _ => false end.
Definition has (o : obj) (held : list obj) : bool := existsb (same o) held.
Definition sound_call (held : list obj) (e : ev) : option (list obj) :=
  match e with
  | Get o => if has o held then None else Some (o :: held)
  | Free OLoop => match held with [OLoop] => Some [] | _ => None end
  | Free o => if has o held then Some (filter (fun x => negb (same o x)) held) else None
  | Use o => if has o held then Some held else None
  | Wait | Wake => if has OLoop held then Some held else None
  | Handler | Error => Some held
  end.
Fixpoint sound (held : list obj) (t : list ev) : option (list obj) :=
  match t with [] => Some held | e :: t => match sound_call held e with Some h => sound h t | None => None end end.

(** No signal arrives any more when the loop is destroyed. *)
Definition quiet (w : world) : Prop := forall t, In (Free OLoop) t -> w_signal w t = false.
Definition is_wait (e : ev) : bool := match e with Wait => true | _ => false end.
(** After a run of the handler there is at most one more wait. *)
Definition prompt (t : list ev) : Prop := forall a b, t = a ++ Handler :: b -> (length (filter is_wait b) <= 1)%nat.
