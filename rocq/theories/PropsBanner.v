(** The banner ulogcat prints before the first line of a device when it reads several (C104). *)
From Coq Require Import ZArith String List Bool Lia ZifyBool.
From Verif Require Import Bytes BytesProofs Ring Render RenderProofs.
Import ListNotations.
Open Scope Z_scope.

(** 52 dashes, and the device. *)
Definition banner_line (path : list Z) : list Z := repeat 45 52 ++ bytes_of_string " beginning of " ++ path ++ [10].

(** For device paths that fit in the structure that holds them (at most 63 bytes). *)
Theorem C104_banner_text : forall path, zlen path <= 63 -> render_banner path = Ok (Some (map Some (banner_line path))).
Proof.
  intros path L. unfold render_banner.
  assert (E : banner_text path = banner_line path).
  { unfold banner_text, local_str. rewrite ztake_all; [reflexivity|]. rewrite zlen_app.
    change (zlen (bytes_of_string "------------- beginning of ")) with 27. lia. }
  rewrite E. assert (HB : zlen (banner_line path) <= 130).
  { rewrite <- E. unfold banner_text, local_str. rewrite !zlen_app, zlen_ztake, zlen_app, zlen_cons. change (zlen (@nil Z)) with 0.
    change (zlen (bytes_of_string "---------------------------------------")) with 39.
    change (zlen (bytes_of_string "------------- beginning of ")) with 27. lia. }
  clear E. revert HB. generalize (banner_line path). intros b HB.
  destruct (snprintf_after [] fresh b (zlen_nonneg _)) as (r & R & Hr).
  cbn [map app] in R. change (zlen (@nil Z)) with 0 in R. rewrite zlen_fresh in R, Hr. rewrite R. cbn [bind].
  unfold cut in *. unfold text_render_size in *.
  destruct (Z.leb_spec (5 * 1024 + 128) 0); [lia|]. destruct (Z.ltb_spec (zlen b) (5 * 1024 + 128)); [|lia].
  pose proof (zlen_nonneg b). pose proof (zlen_nonneg r).
  unfold handed. destruct (Z.ltb_spec (zlen b) 0); [lia|].
  destruct (Z.ltb_spec (zlen (map Some b ++ r)) (zlen b)) as [X|X]; [rewrite zlen_app, zlen_map in X; lia|].
  cbn [orb]. rewrite ztake_app_exact by (now rewrite zlen_map). reflexivity.
Qed.
Example C104_banner_ex : zlen (bytes_of_string "/dev/ulog_main") <= 63 /\
  banner_line (bytes_of_string "/dev/ulog_main") =
  bytes_of_string "---------------------------------------------------- beginning of /dev/ulog_main" ++ [10].
Proof. split; [vm_compute; discriminate|reflexivity]. Qed.
Print Assumptions C104_banner_text.
