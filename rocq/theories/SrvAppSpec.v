(** What C133 says about the example server. *)
From Coq Require Import ZArith String List Bool.
From Verif Require Import Bytes KlogSpec ParseSpec Ctl SrvApp.
Import ListNotations.
Open Scope Z_scope.

(** A number in decimal without needless zeros. *)
Definition numeral (n : Z) (t : list Z) : Prop :=
  Forall (fun c => 48 <= c <= 57) t /\ fold_left (fun a c => 10 * a + (c - 48)) t 0 = n /\ (forall r, t = 48 :: r -> r = []).

(** The level of the application's tag after an event: unknown until its first use; then it is that of the
    environment, and later what the requests say, limited to 0..7. *)
Definition next_level (env : Z) (e : sev) (l : option Z) : option Z :=
  match e with
  | VTick | VSignal _ _ => Some (match l with Some l => l | None => env end)
  | VMsg (RSetTag tag v) => if bytes_eqb tag (bytes_of_string "ulogctl_srv_app") then option_map (fun _ => Z.max 0 (Z.min 7 v)) l else l
  | VMsg (RSetAll v) => option_map (fun _ => Z.max 0 (Z.min 7 v)) l
  | _ => l
  end.
Definition levels (env : Z) (l : list sev) : option Z := fold_left (fun v e => next_level env e v) l None.
Definition is_tick (e : sev) : bool := match e with VTick => true | _ => false end.
(** The lines of the [k]th tick, least grave first. *)
Definition tick (num : list Z) : list (Z * list Z) :=
  map (fun '(p, w) => (p, bytes_of_string ("log " ++ w ++ " ") ++ num))
    [(7, "debug"); (6, "info"); (5, "normal"); (4, "warning"); (3, "error"); (2, "critical")]%string.
(** What goes to the log device. *)
Definition logged (xs : list exec) : list (Z * list Z) := map (fun x => (x_prio x, x_text x)) (filter (fun x => x_prio x <=? x_level x) xs).
(** The application's tag is not used yet. *)
Definition fresh (reg : list cookie) : Prop := ~ In (bytes_of_string "ulogctl_srv_app") (map c_name reg).

(** Sound options: names that fit the structure, ports of 16 bits in decimal. *)
Definition right_opt (o : sopt) : Prop :=
  match o with PInet a => digits a /\ dec_val a < 65536 | PUnix s => c_string s /\ zlen s <= 107 | PProcess => True | PHelp | PBad => False end.
(** The last name and the last port. *)
Fixpoint last_of {A : Type} (f : sopt -> option A) (l : list sopt) : option A :=
  match l with [] => None | o :: l => match last_of f l with Some x => Some x | None => f o end end.
Definition unix_of (o : sopt) : option (list Z) := match o with PUnix s => Some s | _ => None end.
Definition port_of (o : sopt) : option Z := match o with PInet a => Some (dec_val a) | _ => None end.
Definition process_of (o : sopt) : option unit := match o with PProcess => Some tt | _ => None end.
(** A struct sockaddr_in: family, port with the high byte first, any address. *)
Definition inet (p : Z) : list Z := [2; 0; p / 256; p mod 256; 0; 0; 0; 0; 0; 0; 0; 0; 0; 0; 0; 0].
