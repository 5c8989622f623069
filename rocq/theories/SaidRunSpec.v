(** What C137 and later ones say: messages given to the library by some interface, and what ulogcat prints of
    them at the end. *)
From Coq Require Import ZArith String List Bool.
From Verif Require Import Bytes Ring RingSpec Parse ParseSpec Iov Cat CatSpec Render Live LiveSpec SaidSpec Program ProgramSpec.
Import ListNotations.
Open Scope Z_scope.

(** A message with the open file of its process; what it takes on the screen. *)
Definition text_line (x : Z * said) : list Z := block (s_prio (snd x)) (s_tag (snd x)) (fitting (snd x)).
(** It fits the buffers of the viewer. *)
Definition roomy (x : Z * said) : Prop := zlen (text_line x) < 5248.

(** The device is made, the calls [ops] are made on it without an error, then it is dumped by ulogcat
    (through the file [rfid], by the user [uid], who may read [all] or only their own messages): the
    messages [l] are on the screen, in order; if the buffer was too small, the oldest are missing and
    a line says how many. *)
Definition dumped (nm mem : list Z) (pow2 : Z) (ops : list op) (l : list (Z * said)) (rfid : Z) (all : bool) (uid : Z) (paths : list (list Z)) : Prop :=
  exists d outs node mark, run (init_dev nm mem pow2) ops = Ok (d, outs) /\
    add_ulog_device d rfid all uid = Ok (Some (node, mark)) /\
  exists lost kept, l = lost ++ kept /\ (lost = [] \/ 2 ^ pow2 - 12300 < weights (map snd kept)) /\
    let mine := if all then kept else filter (fun x => t_euid (s_task (snd x)) mod 2 ^ 32 =? uid mod 2 ^ 32) kept in
  exists note, ((lost = [] \/ mine = []) /\ note = [] \/ lost <> [] /\ mine <> [] /\ notice nm (zlen lost) note) /\
    forall fuel, (2 * (length mine + 1) < fuel)%nat ->
      exists ns' c', process_logs fuel (live_env false uid) true 0 [node] (open_ctx 0 [mark]) 0 = Ok (Some (ns', c', 0)) /\
        output (mkO FShort false [] false []) paths (c_out c') = Ok (map Some (note ++ concat (map text_line mine))).
