(** C133: the example control server. *)
From Coq Require Import ZArith String List Bool Lia ZifyBool ZifyNat Arith.
From Verif Require Import Bytes BytesProofs ParseSpec KlogSpec KlogProofs Ctl CtlSysSpec CtlTool SrvApp SrvAppSpec.
From Verif Require PropsCtlSys PropsParse PropsMacros PropsCatOpen PropsCtlTool CatOpen.
Import ListNotations.
Open Scope Z_scope.

(** ** The loop *)
Fixpoint find (reg : list cookie) (tag : list Z) : option (bool * Z) :=
  match reg with [] => None | c :: reg => if bytes_eqb (c_name c) tag then Some (c_default c, c_level c) else find reg tag end.
Lemma known_find reg tag : known reg tag = match find reg tag with Some _ => true | None => false end.
Proof. induction reg as [|c reg IH]; [reflexivity|]. unfold known in *. cbn [existsb find]. destruct (bytes_eqb (c_name c) tag); [reflexivity|exact IH]. Qed.
Lemma level_find reg tag : level_of reg tag = match find reg tag with Some (_, l) => l | None => -1 end.
Proof. induction reg as [|c reg IH]; [reflexivity|]. cbn [level_of find]. destruct (bytes_eqb (c_name c) tag); [reflexivity|exact IH]. Qed.
Lemma find_use env reg tag t : find (use env reg tag) t =
  match find reg t with Some x => Some x | None => if bytes_eqb tag t then Some (false, env tag) else None end.
Proof.
  unfold use. change (existsb (fun c => bytes_eqb (c_name c) tag) reg) with (known reg tag). rewrite known_find.
  destruct (find reg tag) as [x|] eqn:E.
  - destruct (bytes_eqb tag t) eqn:B; [apply bytes_eqb_eq in B as ->; rewrite E; reflexivity|destruct (find reg t); reflexivity].
  - cbn [find c_name]. destruct (bytes_eqb tag t) eqn:B; [apply bytes_eqb_eq in B as ->; rewrite E; reflexivity|destruct (find reg t); reflexivity].
Qed.
Lemma clamp_eq l : (if l <? 0 then 0 else if l >? 7 then 7 else l) = Z.max 0 (Z.min 7 l).
Proof. destruct (Z.ltb_spec l 0); [lia|]. destruct (Z.gtb_spec l 7); lia. Qed.
Lemma find_set reg tag l t : find (set_tag_level reg tag l) t =
  match find reg t with Some (d, v) => Some (d, if bytes_eqb tag t then Z.max 0 (Z.min 7 l) else v) | None => None end.
Proof.
  induction reg as [|c reg IH]; [reflexivity|]. cbn [set_tag_level find].
  destruct (bytes_eqb (c_name c) tag) eqn:B; cbn [find]; unfold set_level; cbn [c_name c_default c_level].
  - apply bytes_eqb_eq in B. rewrite B. destruct (bytes_eqb tag t) eqn:C; [f_equal; f_equal; apply clamp_eq|]. destruct (find reg t) as [[d v]|]; reflexivity.
  - destruct (bytes_eqb (c_name c) t) eqn:C; [|exact IH]. destruct (bytes_eqb tag t) eqn:D; [|reflexivity].
    apply bytes_eqb_eq in C, D. subst t. rewrite C, bytes_eqb_refl in B. discriminate.
Qed.
Lemma find_all reg l t : find (map (fun c => if c_default c then c else set_level c l) reg) t =
  match find reg t with Some (d, v) => Some (d, if d then v else Z.max 0 (Z.min 7 l)) | None => None end.
Proof.
  induction reg as [|c reg IH]; [reflexivity|]. cbn [map find]. destruct (c_default c) eqn:D.
  - destruct (bytes_eqb (c_name c) t); [rewrite D; reflexivity|exact IH].
  - unfold set_level at 1. cbn [c_name]. destruct (bytes_eqb (c_name c) t); [|exact IH]. unfold set_level. cbn [c_default c_level]. rewrite D. f_equal. f_equal. apply clamp_eq.
Qed.

(** What several macros of a tag do. *)
Lemma use_use env reg tag : use env (use env reg tag) tag = use env reg tag.
Proof.
  unfold use at 1. change (existsb (fun c => bytes_eqb (c_name c) tag) (use env reg tag)) with (known (use env reg tag) tag).
  rewrite known_find, find_use, bytes_eqb_refl. destruct (find reg tag); reflexivity.
Qed.
Lemma says_used env tag l : forall reg, use env reg tag = reg ->
  says env reg tag l = (reg, map (fun q => mkExec tag (level_of reg tag) (fst q) (snd q)) l).
Proof. induction l as [|[p t] l IH]; intros reg U; [reflexivity|]. cbn [says map fst snd]. unfold say. rewrite U, (IH _ U). reflexivity. Qed.
Lemma says_eq env reg tag q l : says env reg tag (q :: l) =
  (use env reg tag, map (fun q => mkExec tag (level_of (use env reg tag) tag) (fst q) (snd q)) (q :: l)).
Proof. destruct q as [p t]. cbn [says]. unfold say. rewrite says_used by apply use_use. reflexivity. Qed.

(** The level of the application's tag. *)
Definition keeps (reg : list cookie) (l : option Z) : Prop := find reg APP = option_map (fun v => (false, v)) l.
Lemma keeps_app env reg l : keeps reg l -> keeps (use env reg APP) (Some (match l with Some v => v | None => env APP end)).
Proof. unfold keeps. intros H. rewrite find_use, H, bytes_eqb_refl. destruct l; reflexivity. Qed.
Lemma keeps_lib env reg l : keeps reg l -> keeps (use env reg LIB) l.
Proof. unfold keeps. intros H. rewrite find_use, H. destruct l; reflexivity. Qed.

Definition int_msg (e : sev) : Prop := match e with VMsg r => sound_req r | _ => True end.
Lemma one env a e l : keeps (a_reg a) l -> int_msg e -> (is_tick e = true -> a_id a + 1 < 2 ^ 31) ->
  exists reg xs, sevent env a e = Ok (mkApp reg (a_id a + (if is_tick e then 1 else 0)), xs) /\ keeps reg (next_level (env APP) e l) /\
    (e = VTick -> xs = map (fun q => mkExec APP (match l with Some v => v | None => env APP end) (fst q) (snd q)) (tick_lines (a_id a))) /\
    (forall v, e = VMsg (RSetTag APP v) -> l = None -> exists lv t, xs = [mkExec LIB lv 3 t]).
Proof.
  intros K IM T. destruct e as [|n nm| | |r|id]; unfold sevent; cbn [is_tick next_level].
  - specialize (T eq_refl). unfold tick_lines. cbn zeta. rewrite says_eq. destruct (Z.geb_spec (a_id a + 1) (2 ^ 31)); [lia|].
    do 2 eexists. split; [reflexivity|]. pose proof (keeps_app env _ _ K) as K'. split; [exact K'|]. split; [|discriminate].
    intros _. rewrite level_find. unfold keeps in K'. rewrite K'. reflexivity.
  - rewrite says_eq, Z.add_0_r. do 2 eexists. split; [reflexivity|]. split; [apply keeps_app; exact K|]. split; discriminate.
  - rewrite says_eq, Z.add_0_r. do 2 eexists. split; [reflexivity|]. split; [apply keeps_lib; exact K|]. split; discriminate.
  - rewrite says_eq, Z.add_0_r. do 2 eexists. split; [reflexivity|]. split; [apply keeps_lib; exact K|]. split; discriminate.
  - rewrite Z.add_0_r. destruct r as [tag v|v|]; cbn [int_msg sound_req] in IM.
    + rewrite known_find. destruct (find (a_reg a) tag) as [[d w]|] eqn:E.
      * do 2 eexists. split; [reflexivity|]. cbn [srv_msg fst]. rewrite PropsCtlSys.s32_id by exact IM. split.
        -- unfold keeps in *. rewrite find_set, K. change (bytes_of_string "ulogctl_srv_app") with APP. destruct l as [y|]; [|destruct (bytes_eqb tag APP); reflexivity].
           cbn [option_map]. destruct (bytes_eqb tag APP); reflexivity.
        -- split; [discriminate|]. intros v' X L. injection X as -> ->. unfold keeps in K. rewrite L in K. rewrite K in E. discriminate.
      * rewrite says_eq. do 2 eexists. split; [reflexivity|]. split.
        -- change (bytes_of_string "ulogctl_srv_app") with APP. destruct (bytes_eqb tag APP) eqn:B; [|apply keeps_lib; exact K].
           apply bytes_eqb_eq in B as ->. unfold keeps in K. rewrite E in K. destruct l; [discriminate|]. apply keeps_lib. exact E.
        -- split; [discriminate|]. intros v' X L. cbn [map]. do 2 eexists. reflexivity.
    + do 2 eexists. split; [reflexivity|]. cbn [srv_msg fst]. rewrite PropsCtlSys.s32_id by exact IM. split; [|split; discriminate].
      unfold keeps in *. rewrite find_all, K. destruct l; reflexivity.
    + do 2 eexists. split; [reflexivity|]. split; [exact K|]. split; discriminate.
  - rewrite says_eq, Z.add_0_r. do 2 eexists. split; [reflexivity|]. split; [apply keeps_lib; exact K|]. split; discriminate.
Qed.

Lemma numeral_dec n : 0 <= n <= 2 ^ 31 -> numeral n (dec_d n).
Proof.
  intros H. unfold dec_d. destruct (Z.ltb_spec n 0); [lia|]. unfold numeral, dec_u. split; [apply PropsMacros.dec_digits_range; lia|]. split.
  - change (fold_left (fun a c => 10 * a + (c - 48)) (dec_digits 20 n) 0) with (digits_value (dec_digits 20 n)).
    apply dec_digits_value. change (10 ^ Z.of_nat 20) with 100000000000000000000. lia.
  - intros r E. destruct (Z.eq_dec n 0) as [->|N]; [injection E as <-; reflexivity|].
    destruct (PropsParse.dec_digits_lead 20 n) as (c & x & E' & C); [change (10 ^ Z.of_nat 20) with 100000000000000000000; lia|].
    rewrite E' in E. injection E as -> _. congruence.
Qed.
Lemma logged_tick l n : logged (map (fun q => mkExec APP l (fst q) (snd q)) (tick_lines n)) = filter (fun q => fst q <=? l) (tick (dec_d n)).
Proof.
  change (tick (dec_d n)) with (tick_lines n). unfold logged. induction (tick_lines n) as [|[p t] r IH]; [reflexivity|].
  cbn [map filter fst snd x_prio x_level]. destruct (p <=? l); cbn [map x_prio x_text]; rewrite IH; reflexivity.
Qed.

Definition count (l : list sev) : Z := zlen (filter is_tick l).
Lemma count_cons e l : count (e :: l) = (if is_tick e then 1 else 0) + count l.
Proof. unfold count. cbn [filter]. destruct (is_tick e); [rewrite zlen_cons; lia|lia]. Qed.
Lemma count_nonneg l : 0 <= count l. Proof. apply zlen_nonneg. Qed.

Lemma loop_run env evs : forall a l, keeps (a_reg a) l -> Forall int_msg evs -> 0 <= a_id a -> a_id a + count evs < 2 ^ 31 ->
  exists a' tr, sloop env a evs = Ok (a', tr) /\ map fst tr = evs /\
    (forall pre xs post, tr = pre ++ (VTick, xs) :: post ->
      exists v, fold_left (fun v e => next_level (env APP) e v) (map fst pre ++ [VTick]) l = Some v /\
        xs = map (fun q => mkExec APP v (fst q) (snd q)) (tick_lines (a_id a + count (map fst pre)))) /\
    (forall pre v xs post, tr = pre ++ (VMsg (RSetTag APP v), xs) :: post -> fold_left (fun v e => next_level (env APP) e v) (map fst pre) l = None ->
      exists lv t, xs = [mkExec LIB lv 3 t]).
Proof.
  induction evs as [|e evs IH]; intros a l K F H0 H.
  - exists a, []. split; [reflexivity|]. split; [reflexivity|]. split; intros [|? ?]; discriminate.
  - rewrite count_cons in H. pose proof (count_nonneg evs) as CN. inversion F as [|? ? F1 F2]; subst.
    destruct (one env a e l K F1) as (reg & xs & E & K' & X1 & X2); [intros T; rewrite T in H; lia|].
    destruct (IH (mkApp reg (a_id a + (if is_tick e then 1 else 0))) _ K' F2) as (a' & tr & E' & M & Y1 & Y2); [cbn [a_id]; destruct (is_tick e); lia|cbn [a_id]; lia|].
    exists a', ((e, xs) :: tr). cbn [sloop]. rewrite E. cbn [bind]. rewrite E'. cbn [bind]. split; [reflexivity|]. split; [cbn [map fst]; rewrite M; reflexivity|].
    split.
    + intros [|[e0 xs0] pre] xs' post EQ; cbn [app] in EQ.
      * injection EQ as -> -> ->. cbn [map app fold_left]. cbn [next_level]. eexists. split; [reflexivity|]. rewrite (X1 eq_refl). change (count []) with 0. rewrite Z.add_0_r. reflexivity.
      * injection EQ as <- <- ->. destruct (Y1 pre xs' post eq_refl) as (v & V & ->). exists v. cbn [map fst app fold_left]. split; [exact V|]. rewrite count_cons. cbn [a_id]. do 2 f_equal. lia.
    + intros [|[e0 xs0] pre] v xs' post EQ L; cbn [app] in EQ.
      * injection EQ as -> -> ->. cbn [map fold_left] in L. exact (X2 v eq_refl L).
      * injection EQ as <- <- ->. cbn [map fst fold_left] in L. exact (Y2 pre v xs' post eq_refl L).
Qed.
Lemma fresh_keeps reg : fresh reg -> keeps reg None.
Proof.
  unfold fresh, keeps. change (bytes_of_string "ulogctl_srv_app") with APP. induction reg as [|c reg IH]; intros H; [reflexivity|]. cbn [find].
  destruct (bytes_eqb (c_name c) APP) eqn:B; [apply bytes_eqb_eq in B; destruct H; left; exact B|]. apply IH. intros X. apply H. right. exact X.
Qed.

(** At each tick the server logs the lines that the level of its tag lets through, numbered from 0; the
    level is the one of the environment until a request after the first use of the tag changes it. A request
    for the tag before that is refused with an error of the library's tag. *)
Theorem C133_ticks : forall env reg evs, fresh reg -> Forall int_msg evs -> zlen (filter is_tick evs) < 2 ^ 31 ->
  exists a tr, sloop env (mkApp reg 0) evs = Ok (a, tr) /\ map fst tr = evs /\
    (forall pre xs post, tr = pre ++ (VTick, xs) :: post ->
      exists num level, numeral (zlen (filter is_tick (map fst pre))) num /\
        levels (env (bytes_of_string "ulogctl_srv_app")) (map fst pre ++ [VTick]) = Some level /\
        Forall (fun x => x_tag x = bytes_of_string "ulogctl_srv_app") xs /\ logged xs = filter (fun q => fst q <=? level) (tick num)) /\
    (forall pre v xs post, tr = pre ++ (VMsg (RSetTag (bytes_of_string "ulogctl_srv_app") v), xs) :: post ->
      levels (env (bytes_of_string "ulogctl_srv_app")) (map fst pre) = None ->
      exists lv t, xs = [mkExec (bytes_of_string "ulogctl") lv 3 t]).
Proof.
  intros env reg evs FR FI CT. change (bytes_of_string "ulogctl_srv_app") with APP.
  destruct (loop_run env evs (mkApp reg 0) None (fresh_keeps _ FR) FI) as (a & tr & E & M & A & B); [cbn [a_id]; lia|cbn [a_id]; unfold count; lia|].
  exists a, tr. split; [exact E|]. split; [exact M|]. split; [|exact B].
  intros pre xs post EQ. destruct (A pre xs post EQ) as (v & V & ->). cbn [a_id]. rewrite Z.add_0_l.
  exists (dec_d (count (map fst pre))), v. split; [|split; [exact V|]].
  - apply numeral_dec. pose proof (count_nonneg (map fst pre)). split; [assumption|].
    assert (C : count evs = count (map fst pre) + count (VTick :: map fst post)).
    { rewrite <- M, EQ, map_app. cbn [map fst]. unfold count. rewrite filter_app, zlen_app. reflexivity. }
    rewrite count_cons in C. cbn [is_tick] in C. pose proof (count_nonneg (map fst post)). unfold count in C at 1. fold count in *. lia.
  - split; [|apply logged_tick]. apply Forall_forall. intros x X. apply in_map_iff in X as (q & <- & _). reflexivity.
Qed.
Definition ex_env : list Z -> Z := fun _ => 6.
Definition ex_evs : list sev := [VConnected; VMsg (RSetTag APP 3); VTick; VMsg (RSetTag APP 4); VTick; VMsg (RSetAll 9); VTick].
Example C133_ticks_ex : fresh [mkCookie true [] 6] /\ Forall int_msg ex_evs /\ zlen (filter is_tick ex_evs) = 3 /\
  exists a tr, sloop ex_env (mkApp [mkCookie true [] 6] 0) ex_evs = Ok (a, tr) /\
    map (fun x => map fst (logged (snd x))) tr = [[]; [3]; [6; 5; 4; 3; 2]; []; [4; 3; 2]; []; [7; 6; 5; 4; 3; 2]] /\
    In (4, bytes_of_string "log warning 1") (concat (map (fun x => logged (snd x)) tr)).
Proof.
  split; [vm_compute; intuition discriminate|]. split; [repeat constructor; cbn; lia|]. split; [reflexivity|].
  do 2 eexists. split; [vm_compute; reflexivity|]. split; [vm_compute; reflexivity|]. vm_compute. tauto.
Qed.
Print Assumptions C133_ticks.

(** ** The command line *)
Lemma soptions_right W l : 32 <= W -> Forall right_opt l -> forall v, exists v', soptions W v l = Ok (inr v') /\
  s_port v' = match last_of port_of l with Some p => p | None => s_port v end /\
  s_sock v' = match last_of unix_of l with Some p => Some p | None => s_sock v end /\
  s_process v' = match last_of process_of l with Some _ => true | None => s_process v end.
Proof.
  intros HW. induction 1 as [|o l R F IH]; intros v; [exists v; auto|]. destruct o as [|a|s| |]; cbn [right_opt] in R; try destruct R as [R1 R2]; try contradiction; cbn [soptions].
  - rewrite PropsCatOpen.atoi_digits by (assumption || lia). cbn [bind]. destruct (IH (mkSvars (dec_val a) (s_sock v) (s_process v))) as (v' & E & A & B & C).
    exists v'. split; [exact E|]. cbn [last_of port_of unix_of process_of s_port s_sock s_process] in *. rewrite A, B, C.
    destruct (last_of port_of l), (last_of unix_of l), (last_of process_of l); auto.
  - destruct (IH (mkSvars (s_port v) (Some s) (s_process v))) as (v' & E & A & B & C).
    exists v'. split; [exact E|]. cbn [last_of port_of unix_of process_of s_port s_sock s_process] in *. rewrite A, B, C.
    destruct (last_of port_of l), (last_of unix_of l), (last_of process_of l); auto.
  - destruct (IH (mkSvars (s_port v) (s_sock v) true)) as (v' & E & A & B & C).
    exists v'. split; [exact E|]. cbn [last_of port_of unix_of process_of s_port s_sock s_process] in *. rewrite A, B, C.
    destruct (last_of port_of l), (last_of unix_of l), (last_of process_of l); auto.
Qed.
Lemma last_right {A} (f : sopt -> option A) (P : A -> Prop) l : (forall o x, right_opt o -> f o = Some x -> P x) -> Forall right_opt l ->
  forall x, last_of f l = Some x -> P x.
Proof.
  intros H. induction 1 as [|o l R F IH]; intros x E; [discriminate|]. cbn [last_of] in E.
  destruct (last_of f l) as [y|]; [injection E as <-; apply IH; reflexivity|exact (H o x R E)].
Qed.

(** A server with sound options listens at the address of the last name given, else at the last port, else at the
    address of its process. *)
Theorem C133_address_partial : forall W l comm, 32 <= W -> Forall right_opt l -> c_string comm -> zlen comm <= 15 ->
  smain W l comm true 0 =
  Ok (match last_of unix_of l, last_of port_of l, last_of process_of l with
      | Some s, _, _ => Serves (PropsCtlTool.address s)
      | _, Some p, _ => Serves (inet p)
      | _, _, Some _ => Serves (PropsCtlTool.address (bytes_of_string "@ulogctl_" ++ comm))
      | _, _, _ => Ends 0
      end).
Proof.
  intros W l comm HW F CS CL. unfold smain. destruct (soptions_right W l HW F (mkSvars (-1) None false)) as (v & -> & A & B & C).
  cbn [bind s_port s_sock s_process] in *. rewrite A, B, C. destruct (last_of unix_of l) as [s|] eqn:EU.
  - assert (P : c_string s /\ zlen s <= 107).
    { apply (last_right unix_of (fun s => c_string s /\ zlen s <= 107) l) with (x := s); auto. intros o x R E. destruct o; try discriminate. injection E as <-. exact R. }
    destruct (PropsCtlTool.C92_unix_partial s (proj1 P) (proj2 P)) as (-> & _). reflexivity.
  - destruct (last_of port_of l) as [p|] eqn:EP.
    + assert (P : 0 <= p < 65536).
      { apply (last_right port_of (fun p => 0 <= p < 65536) l) with (x := p); auto. intros o x R E. destruct o; try discriminate. injection E as <-. cbn [right_opt] in R.
        pose proof (dec_val_nonneg a (proj2 (proj1 R))). lia. }
      destruct (Z.eqb_spec p (-1)); [lia|]. cbn [negb]. unfold srv_new_inet, srv_new. cbn [negb].
      rewrite Z.mod_small by lia. reflexivity.
    + change (negb (-1 =? -1)) with false. cbv iota. destruct (last_of process_of l); [|reflexivity].
      destruct (PropsCtlTool.C92_process comm CS CL) as (-> & _). reflexivity.
Qed.
Example C133_address_ex : let l := [PInet (bytes_of_string "80"); PProcess; PInet (bytes_of_string "8080")] in
  Forall right_opt l /\ last_of port_of l = Some 8080 /\ smain 64 l (bytes_of_string "drone") true 0 = Ok (Serves (inet 8080)).
Proof. split; [repeat constructor; (discriminate || lia)|]. split; reflexivity. Qed.

(** Other ports are not refused: a port of more than 16 bits is another port, a word is port 0, and -1 is no
    port. When the address is in use, or when no address is given, the exit status is that of a success. *)
Theorem C133_port_refuted :
  smain 64 [PInet (bytes_of_string "65616")] [] true 0 = Ok (Serves (inet 80)) /\
  smain 64 [PInet (bytes_of_string "http")] [] true 0 = Ok (Serves (inet 0)) /\
  smain 64 [PInet (bytes_of_string "-1"); PProcess] (bytes_of_string "x") true 0 = Ok (Serves (PropsCtlTool.address (bytes_of_string "@ulogctl_x"))) /\
  smain 64 [PProcess] (bytes_of_string "x") true (-98) = Ok (Ends 0) /\ smain 64 [] (bytes_of_string "x") true 0 = Ok (Ends 0).
Proof. repeat split; reflexivity. Qed.
Print Assumptions C133_address_partial.
Print Assumptions C133_port_refuted.

(** What the library says about a request for a tag that is not known, or a message that is not a request. *)
Definition signed (n : Z) (t : list Z) : Prop := if n <? 0 then exists d, t = 45 :: d /\ numeral (- n) d else numeral n t.
Lemma signed_dec n : - 2 ^ 31 <= n < 2 ^ 31 -> signed n (dec_d n).
Proof.
  intros H. unfold signed. destruct (Z.ltb_spec n 0) as [N|N]; [|apply numeral_dec; lia].
  exists (dec_d (- n)). split; [|apply numeral_dec; lia]. unfold dec_d. destruct (Z.ltb_spec n 0); [|lia]. destruct (Z.ltb_spec (- n) 0); [lia|]. reflexivity.
Qed.
Theorem C133_refused : forall env a tag v, - 2 ^ 31 <= v < 2 ^ 31 -> (forall c, In c (a_reg a) -> c_name c <> tag) ->
  exists a' level num, signed v num /\
    sevent env a (VMsg (RSetTag tag v)) = Ok (a', [mkExec (bytes_of_string "ulogctl") level 3
      (bytes_of_string "Failed to set the tag """ ++ tag ++ bytes_of_string """ to the level (" ++ num ++ bytes_of_string ") err=1(Operation not permitted)")]) /\
    a_id a' = a_id a /\ forall c, In c (a_reg a) -> In c (a_reg a').
Proof.
  intros env a tag v V N. assert (F : known (a_reg a) tag = false).
  { unfold known. destruct (existsb (fun c => bytes_eqb (c_name c) tag) (a_reg a)) eqn:E; [|reflexivity]. apply existsb_exists in E. destruct E as (c & I & E). apply bytes_eqb_eq in E. destruct (N c I E). }
  unfold sevent. rewrite F. rewrite says_eq, PropsCtlSys.s32_id by lia. cbn [map fst snd].
  eexists _, _, (dec_d v). split; [now apply signed_dec|]. split; [reflexivity|]. split; [reflexivity|]. cbn [a_reg]. intros c I. unfold use.
  destruct (existsb (fun c0 => bytes_eqb (c_name c0) LIB) (a_reg a)); [exact I|now right].
Qed.
Example C133_refused_ex : (forall c, In c (a_reg (mkApp [mkCookie false [97] 3] 5)) -> c_name c <> [98]) /\
  sevent (fun _ => 6) (mkApp [mkCookie false [97] 3] 5) (VMsg (RSetTag [98] (-4))) =
  Ok (mkApp [mkCookie false LIB 6; mkCookie false [97] 3] 5,
      [mkExec (bytes_of_string "ulogctl") 6 3 (bytes_of_string "Failed to set the tag ""b"" to the level (-4) err=1(Operation not permitted)")]).
Proof. split; [|reflexivity]. intros c [<-|[]]. discriminate. Qed.
Print Assumptions C133_refused.
