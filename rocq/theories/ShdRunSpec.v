(** What C136 says: what the tasks of a real-time system say, and what is on the screen. *)
From Coq Require Import ZArith String List Bool.
From Verif Require Import Bytes Ring RingSpec RingHistory ProgramSpec ShdRun.
Import ListNotations.
Open Scope Z_scope.

(** A call is recorded if its level (0 is the gravest) is at most the level of its tag. *)
Definition recorded (m : message) : bool := m_prio m mod 8 <=? m_level m.

(** The story that must reach the device: at a poll, the messages not yet seen, in order; of more than
    [cap] of them, the last [cap], and after the first of these the number of those lost. *)
Inductive item := Starts | Shown (m : message) | Told (n : Z).
Definition batch (cap : nat) (unseen : list message) : list item :=
  match skipn (length unseen - cap) unseen with
  | [] => []
  | m :: r => Shown m :: (if (length unseen <=? cap)%nat then [] else [Told (Z.of_nat (length unseen - cap))]) ++ map Shown r
  end.
Fixpoint story (cap : nat) (unseen : list message) (l : list happening) : list item :=
  match l with
  | [] => []
  | Says m :: l => story cap (if recorded m then unseen ++ [m] else unseen) l
  | Polls _ _ :: l => batch cap unseen ++ story cap [] l
  end.
(** Fewer than 32768 are lost at a time. *)
Fixpoint counted (cap unseen : nat) (l : list happening) : Prop :=
  match l with
  | [] => True
  | Says m :: l => counted cap (if recorded m then S unseen else unseen) l
  | Polls _ _ :: l => Z.of_nat unseen < 32768 + Z.of_nat cap /\ counted cap 0 l
  end.
(** The messages of the relay are on the device if it is the one of its library, at its level. *)
Definition on_device (g : relay) (it : item) : bool :=
  match it, g_own g with
  | Shown _, _ => true
  | Starts, Some _ => 5 <=? g_level g
  | Told _, Some _ => 3 <=? g_level g
  | _, None => false
  end.

(** The text of a message: as much as fits in a sample; a colour at its start, ESC [ 0 ; 3 # m, is not
    text. *)
Definition text_of (m : message) : list Z :=
  let t := firstn (Z.to_nat (253 - zlen (m_thread m) - zlen (m_tag m))) (m_text m) in
  if hd 0 t =? 27 then skipn 7 t else t.
Definition number (n : Z) (digits : list Z) : Prop :=
  Forall (fun c => 48 <= c <= 57) digits /\ fold_left (fun a c => 10 * a + (c - 48)) digits 0 = n /\ digits <> [] /\
  (forall r, digits = 48 :: r -> r = []).
(** A line of the log: an item with its text. *)
Definition line : Type := item * list Z.
Definition says (g : relay) (x : line) : Prop :=
  let '(it, text) := x in
  match it with
  | Starts => exists d, number (g_period g) d /\ text = bytes_of_string "shdlogd starting, polling every " ++ d ++ bytes_of_string " ms"
  | Shown m => text = text_of m
  | Told n => exists d, number n d /\ text = d ++ bytes_of_string " shared memory log messages lost"
  end.
Definition screen_of (x : line) : list Z :=
  let '(it, text) := x in
  match it with
  | Starts => block 5 (bytes_of_string "shdlogd") text
  | Shown m => block (m_prio m) (m_tag m) text
  | Told _ => block 3 (bytes_of_string "shdlogd") text
  end.
(** The bytes that it takes in the buffer of the device, and the user who owns it. *)
Definition cost_of (g : relay) (x : line) : Z :=
  let '(it, text) := x in
  24 + match it with
       | Shown m => (zlen (g_pname g) + 1) + (zlen (m_thread m) + 1) + 4 + (zlen (m_tag m) + 1)
       | _ => zlen (names (g_task g)) + 4 + 8
       end + (zlen text + 1).
Definition costs_of (g : relay) (l : list line) : Z := fold_right (fun x a => cost_of g x + a) 0 l.
Definition user_of (g : relay) (x : line) : Z := match fst x with Shown _ => 0 | _ => t_euid (g_task g) mod 2 ^ 32 end.

(** The numbers fit their types, the strings are C strings, the names leave room for a text in the
    sample, an escape sequence at the start is a colour, the text is short enough for the buffers of the
    viewer. *)
Record proper (m : message) : Prop := {
  pm_stack : length (m_stack m) = 256%nat /\ length (m_blob m) = 256%nat;
  pm_tid : m_tid m mod 2 ^ 32 <> 0;
  pm_thread : ~ In 0 (m_thread m) /\ zlen (m_thread m) <= 15;
  pm_tag : ~ In 0 (m_tag m) /\ zlen (m_thread m) + zlen (m_tag m) <= 246;
  pm_text : ~ In 0 (m_text m) /\ zlen (m_text m) < 2 ^ 31;
  pm_colour : hd 0 (m_text m) = 27 -> exists c r, 48 <= c <= 55 /\ m_text m = [27; 91; 48; 59; 51; c; 109] ++ r;
  pm_time : 0 <= m_time m < 2 ^ 31 * 1000000000;
  pm_room : zlen (screen_of (Shown m, text_of m)) < 5248 }.
Definition fine (x : happening) : Prop := match x with Says m => recorded m = true -> proper m | Polls rd en => 0 <= rd /\ 0 <= en end.
(** The samples have increasing times. *)
Definition times (l : list happening) : list Z := flat_map (fun x => match x with Says m => if recorded m then [m_time m] else [] | _ => [] end) l.
Record sound (g : relay) : Prop := {
  sd_fid : 0 <= g_raw g /\ g_own g <> Some (g_raw g);
  sd_raw : g_strict g = true -> g_capable g = true;
  sd_ids : int32 (t_tgid (g_task g)) /\ int32 (t_pid (g_task g));
  sd_name : ~ In 0 (g_pname g) /\ zlen (g_pname g) <= 3700;
  sd_period : 0 <= g_period g < 2 ^ 32;
  sd_stack : forall i, length (g_stack g i) = 256%nat;
  sd_clock : forall i, 0 <= fst (g_clock g i) < 2 ^ 31 /\ 0 <= snd (g_clock g i) < 2 ^ 31 }.
