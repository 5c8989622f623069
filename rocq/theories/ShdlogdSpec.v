(** What the life of shdlogd must look like, from the calls alone. *)
From Coq Require Import ZArith String List Bool.
From Verif Require Import Bytes Shdlogd.
Import ListNotations.
Open Scope Z_scope.

Definition same (a b : res) : bool :=
  match a, b with
  | RLoop, RLoop | RTimer, RTimer | RBlobs, RBlobs | RTs, RTs => true
  | RFd x, RFd y | RShd x, RShd y => x =? y
  | _, _ => false
  end.
Definition holds (r : res) (l : list res) : bool := existsb (same r) l.
Fixpoint drop (r : res) (l : list res) : list res :=
  match l with [] => [] | x :: l => if same r x then l else x :: drop r l end.

(** One call, given what is held: nothing is released that is not held; the loop is destroyed after its
    timer; a section is read, a timer is set and a loop is run only while they are held; samples are
    stored only while both blocks of memory are. [null]: NULL is also accepted for a section. *)
Definition call (null : bool) (l : list res) (e : ev) : option (list res) :=
  let section h := holds (RShd h) l || (null && (h =? 0)) in
  let ok (b : bool) := if b then Some l else None in
  match e with
  | Get r => if holds r l then None else Some (r :: l)
  | Free (RShd h) => if section h then Some (drop (RShd h) l) else None
  | Free RLoop => if holds RLoop l && negb (holds RTimer l) then Some (drop RLoop l) else None
  | Free r => if holds r l then Some (drop r l) else None
  | Period _ _ => ok (holds RTimer l)
  | Wait _ => ok (holds RLoop l)
  | Select h _ | EndRead h _ => ok (section h)
  | Read h _ => ok (section h && holds RBlobs l && holds RTs l)
  | OpenRaw _ | OpenShd _ | Fail | Relay _ | Usage => Some l
  end.
Fixpoint calls (null : bool) (l : list res) (t : list ev) : option (list res) :=
  match t with
  | [] => Some l
  | e :: t => match call null l e with Some l => calls null l t | None => None end
  end.

(** The last value an option was given. *)
Fixpoint last_of {A} (f : opt -> option A) (d : A) (l : list opt) : A :=
  match l with [] => d | o :: l => last_of f (match f o with Some a => a | None => d end) l end.
Definition the_section := last_of (fun o => match o with OSection s => Some s | _ => None end) (bytes_of_string "ulog").
Definition the_device := last_of (fun o => match o with ODevice s => Some (Some s) | _ => None end) None.
Definition the_pname := last_of (fun o => match o with OPname s => Some s | _ => None end) (bytes_of_string "rtos").
Definition the_period := last_of (fun o => match o with OPeriod n => Some (n mod 2 ^ 32) | _ => None end) 50.

(** The result of the last turn of the loop. *)
Fixpoint last_wait (d : Z) (t : list ev) : Z :=
  match t with [] => d | Wait r :: t => last_wait r t | _ :: t => last_wait d t end.
Definition relayed (t : list ev) : bool := existsb (fun e => match e with Relay _ => true | _ => false end) t.
