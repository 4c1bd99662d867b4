(** * Properties C85, C86: image pyramids and rotation. *)
From Coq Require Import String.
From Verif Require Import Base ModelFloat ModelDouble ModelCore ModelGeom SpecBase SpecNum SpecMatrix SpecPixel SpecImage2 SpecFilter SpecCxx SpecGeom
  Fixtures Fixtures2 ProofEx ProofEx6 ProofGeom2 ProofGeom3 ProofRot ProofEx19.
From Coq Require Import List Lia Floats.SpecFloat.
Import ListNotations.
Open Scope Z_scope.

(** C85.  Missing: temporaries are not released (refuted by the last conclusion). *)
Theorem C85_down_partial : forall exp_ e s src dst ms md P,   env_ok e -> heap_ok s -> image s src ms 1 -> image s dst md 1 ->
  sm_rows md = (sm_rows ms + 1) / 2 -> sm_cols md = (sm_cols ms + 1) / 2 -> sm_chan md = sm_chan ms ->
  sm_chan ms = 1 \/ sm_chan ms = 3 -> 2 <= sm_rows ms -> 2 <= sm_cols ms ->
  colours s ms P -> sm_rows ms * sm_cols ms * 4 * sm_chan ms + 96 <= 2147483647 ->
  exists s', hypercv_pyramid_down exp_ src dst e s = Ret tt s' /\ reduced s ms md P s' /\ only_pixels s md s' /\ ~ no_leak s s'.
Proof. exact down_run. Qed.
Print Assumptions C85_down_partial.
(** Missing as before. *)
Theorem C85_up_partial : forall exp_ e s src dst ms md P,   env_ok e -> heap_ok s -> image s src ms 1 -> image s dst md 1 ->
  sm_rows md = sm_rows ms * 2 -> sm_cols md = sm_cols ms * 2 -> sm_chan md = sm_chan ms ->
  sm_chan ms = 1 \/ sm_chan ms = 3 -> 2 <= sm_rows ms -> 2 <= sm_cols ms ->
  colours s ms P -> sm_rows md * sm_cols md * 4 * sm_chan md + 96 <= 2147483647 ->
  exists s', hypercv_pyramid_up exp_ src dst e s = Ret tt s' /\ expanded s ms md P s' /\ only_pixels s md s' /\ ~ no_leak s s'.
Proof. exact up_run. Qed.
Print Assumptions C85_up_partial.
(** A constant image is reduced to a constant image. *)
Theorem C85_down_constant : forall exp_ e s src dst ms md v,   env_ok e -> heap_ok s -> image s src ms 1 -> image s dst md 1 ->
  sm_rows md = (sm_rows ms + 1) / 2 -> sm_cols md = (sm_cols ms + 1) / 2 -> sm_chan md = sm_chan ms ->
  sm_chan ms = 1 \/ sm_chan ms = 3 -> 2 <= sm_rows ms -> 2 <= sm_cols ms ->
  (forall i j c, in_image ms i j c -> pix s ms i j c = Some (v c)) ->
  sm_rows ms * sm_cols ms * 4 * sm_chan ms + 96 <= 2147483647 ->
  exists s', hypercv_pyramid_down exp_ src dst e s = Ret tt s'
    /\ forall i j c, in_image md i j c -> pix s' md i j c = Some (v c).
Proof. exact down_constant. Qed.
Print Assumptions C85_down_constant.
(** An enlarged constant image, away from its border and in two corners.  Missing: the border is not constant (refuted). *)
Theorem C85_up_constant_partial : forall exp_ e s src dst ms md v,   env_ok e -> heap_ok s -> image s src ms 1 -> image s dst md 1 ->
  sm_rows md = sm_rows ms * 2 -> sm_cols md = sm_cols ms * 2 -> sm_chan md = sm_chan ms ->
  sm_chan ms = 1 \/ sm_chan ms = 3 -> 2 <= sm_rows ms -> 2 <= sm_cols ms ->
  (forall i j c, in_image ms i j c -> pix s ms i j c = Some (v c)) ->
  sm_rows md * sm_cols md * 4 * sm_chan md + 96 <= 2147483647 ->
  exists s', hypercv_pyramid_up exp_ src dst e s = Ret tt s'
    /\ (forall i j c, 2 <= i < sm_rows md - 2 -> 2 <= j < sm_cols md - 2 -> 0 <= c < sm_chan md -> pix s' md i j c = Some (v c))
    /\ (forall c, 0 <= c < sm_chan md -> exists z, pix s' md 0 0 c = Some z /\ nearest_even (Z.min (255 * 64) (144 * v c)) 64 z)
    /\ (forall c, 0 <= c < sm_chan md -> exists z, pix s' md (sm_rows md - 1) (sm_cols md - 1) c = Some z /\ nearest_even (v c) 4 z).
Proof. exact up_constant. Qed.
Print Assumptions C85_up_constant_partial.
(** Enlarging a constant image never gives a constant image. *)
Theorem C85_up_border_refuted : forall exp_ e s src dst ms md v,   env_ok e -> heap_ok s -> image s src ms 1 -> image s dst md 1 ->
  sm_rows md = sm_rows ms * 2 -> sm_cols md = sm_cols ms * 2 -> sm_chan md = sm_chan ms ->
  sm_chan ms = 1 \/ sm_chan ms = 3 -> 2 <= sm_rows ms -> 2 <= sm_cols ms -> 0 < v ->
  (forall i j c, in_image ms i j c -> pix s ms i j c = Some v) ->
  sm_rows md * sm_cols md * 4 * sm_chan md + 96 <= 2147483647 ->
  exists s' a b, hypercv_pyramid_up exp_ src dst e s = Ret tt s'
    /\ pix s' md 0 0 0 = Some a /\ pix s' md (sm_rows md - 1) (sm_cols md - 1) 0 = Some b /\ b < v <= a.
Proof. exact up_not_constant. Qed.
Print Assumptions C85_up_border_refuted.
Example C85_hypotheses : image st_pyr (Some 0%nat) (im_hdr 0 2 2 1 1 1) 1 /\ image st_pyr (Some 2%nat) (im_hdr 2 2 2 1 1 1) 1
  /\ image st_pyr (Some 4%nat) (im_hdr 4 4 4 1 1 1) 1 /\ image st_pyr (Some 6%nat) (im_hdr 6 1 1 1 1 1) 1
  /\ colours st_pyr (im_hdr 0 2 2 1 1 1) (fun i j _ => 10 + 20 * i + 10 * j)
  /\ (forall i j c, in_image (im_hdr 2 2 2 1 1 1) i j c -> pix st_pyr (im_hdr 2 2 2 1 1 1) i j c = Some 7).
Proof. exact st_pyr_ok. Qed.
Example C85_heap : heap_ok st_pyr /\ env_ok ex_env.
Proof. split; [exact st_pyr_heap|exact ex_env_ok]. Qed.
(** C86.  Rotation by 0 degrees.  Missing: other angles (refuted below). *)
Theorem C86_zero_partial : forall cos_ sin_ e s p m es, env_ok e -> heap_ok s -> cube s p m BIP es ->
  cos_ (db_of_Z 0) = db_of_Z 1 -> sin_ (db_of_Z 0) = db_of_Z 0 ->
  let w := 2 * ((hm_samples m + 1) / 2) in let h := 2 * ((hm_lines m + 1) / 2) in
  w <= 16777216 -> h <= 16777216 -> w * h * hm_bands m * es <= 2147483647 ->
  exists p' s', hyper_mat_rotate cos_ sin_ p (db_of_Z 0) e s = Ret p' s' /\ padded_copy s m es w h p' s'.
Proof. exact rotate_zero. Qed.
Print Assumptions C86_zero_partial.
(** Half a turn of a 2 x 2 image writes outside the result. *)
Theorem C86_half_turn_refuted : forall cos_ sin_, cos_ angle_180 = cos_180 -> sin_ angle_180 = sin_180 ->
  exists e s p m, env_ok e /\ heap_ok s /\ cube s p m BIP 1 /\ hm_samples m = 2 /\ hm_lines m = 2
    /\ hyper_mat_rotate cos_ sin_ p (db_of_Z 180) e s = UB.
Proof. exact rotate_180. Qed.
Print Assumptions C86_half_turn_refuted.
(** A quarter turn of a 2 x 2 image loses a pixel. *)
Theorem C86_quarter_turn_refuted : forall cos_ sin_, cos_ angle_90 = cos_90 -> sin_ angle_90 = sin_90 ->
  exists e s p m p' m' s', env_ok e /\ heap_ok s /\ cube s p m BIP 1 /\ hm_samples m = 2 /\ hm_lines m = 2 /\ hm_bands m = 1
    /\ hyper_mat_rotate cos_ sin_ p (db_of_Z 90) e s = Ret p' s' /\ hm_at s' p' = Some m'
    /\ hm_samples m' = 2 /\ hm_lines m' = 2 /\ sample_byte s m BIP 1 0 0 0 0 = Some 10
    /\ (forall i j, 0 <= i < 2 -> 0 <= j < 2 -> exists v, sample_byte s' m' BIP 1 i j 0 0 = Some v /\ v <> 10).
Proof. exact rotate_90. Qed.
Print Assumptions C86_quarter_turn_refuted.
Example C86_hypotheses : cube st_rot (Some 0%nat) (hc_hdr 0 3 1 2 1 BIP) BIP 1
  /\ 2 * ((3 + 1) / 2) = 4 /\ 2 * ((1 + 1) / 2) = 2.
Proof. exact st_rot_ok. Qed.
Example C86_heap : heap_ok st_rot /\ env_ok ex_env.
Proof. split; [exact st_rot_heap|exact ex_env_ok]. Qed.
Example C86_functions : exists cos_ sin_ : sf -> sf, cos_ (db_of_Z 0) = db_of_Z 1 /\ sin_ (db_of_Z 0) = db_of_Z 0
  /\ cos_ angle_180 = cos_180 /\ sin_ angle_180 = sin_180.
Proof.
  exists (fun x => if SFeqb x angle_180 then cos_180 else db_of_Z 1), (fun x => if SFeqb x angle_180 then sin_180 else db_of_Z 0).
  repeat split.
Qed.
