(** * Properties C49, C50, C52, C53: transform size, magnitude, drawing. *)
From Verif Require Import Base ModelFloat ModelCore ModelDft ModelDraw SpecBase SpecNum SpecMatrix SpecDft SpecDraw
  Fixtures Fixtures2 ProofEx ProofEx3 ProofEx6 ProofDft ProofDraw ProofEx7.
From Coq Require Import Lia.
Open Scope Z_scope.

(** C49.  Right up to 14171760; beyond, multiples of 3^15 are missing from the table. *)
Theorem C49_size_partial : forall n, 0 <= n <= 14171760 ->
  exists r, get_optimal_DFT_size n = Some r /\ least_from smooth n r.
Proof. exact dft_small. Qed.
Print Assumptions C49_size_partial.
Theorem C49_size_exact : forall n, 0 <= n < 2125764000 ->
  exists r, get_optimal_DFT_size n = Some r /\ least_from few3 n r.
Proof. exact dft_inside. Qed.
Print Assumptions C49_size_exact.
Theorem C49_beyond : forall n, -2147483648 <= n <= 2147483647 -> n < 0 \/ 2125764000 <= n ->
  get_optimal_DFT_size n = Some (-1).
Proof. exact dft_outside. Qed.
Print Assumptions C49_beyond.
Theorem C49_refuted : exists n r, 0 < n <= 2125764000 /\ get_optimal_DFT_size n = Some r /\ smooth n /\ n < r.
Proof. exact dft_refuted. Qed.
Print Assumptions C49_refuted.
Example C49_values : map get_optimal_DFT_size [0; 7; 1000; 1001; 14348907] = map Some [1; 8; 1000; 1024; 14400000].
Proof. vm_compute. reflexivity. Qed.

(** C50.  The imaginary part is read at row i*j, column 0. *)
Theorem C50_exact : forall pow2 sqrt_ e s p1 p2 p3 mr mi md R C X Y W,
  float_image s p1 mr R C X -> float_image s p2 mi R C Y -> float_image s p3 md R C W ->
  sm_data mr <> sm_data md -> sm_data mi <> sm_data md -> (R - 1) * (C - 1) < R ->
  exists s', hypercv_magnitude pow2 sqrt_ p1 p2 p3 e s = Ret tt s'
    /\ matrix s' (sm_data md) 4 R C (fun i j => magnitude_word pow2 sqrt_ (X i j) (Y (i * j) 0))
    /\ only_bytes s (sm_data md) 0 (R * C * 4) s'.
Proof. exact magnitude_run. Qed.
Print Assumptions C50_exact.
Theorem C50_out_of_bounds : forall pow2 sqrt_ e s p1 p2 p3 mr mi md R C X Y W q f,
  float_image s p1 mr R C X -> float_image s p2 mi R C Y -> float_image s p3 md R C W ->
  sm_data mr <> sm_data md -> sm_data mi <> sm_data md ->
  bytes_at s (sm_data mi) = Some (q, R * C * 4, f) -> R <= (R - 1) * (C - 1) ->
  hypercv_magnitude pow2 sqrt_ p1 p2 p3 e s = UB.
Proof. exact magnitude_ub. Qed.
Print Assumptions C50_out_of_bounds.
(** Real part 0, imaginary part 4, magnitude 3. *)
Theorem C50_refuted : exists e s p1 p2 p3 mr mi md X Y W s',
  float_image s p1 mr 1 2 X /\ float_image s p2 mi 1 2 Y /\ float_image s p3 md 1 2 W
  /\ hypercv_magnitude sq root p1 p2 p3 e s = Ret tt s'
  /\ float_int (X 0 1) 0 /\ float_int (Y 0 1) 4
  /\ exists w, word_at s' (sm_data md) 4 4 = Some w /\ float_int w 3.
Proof. exact mag_refuted. Qed.
Print Assumptions C50_refuted.
Example C50_hypotheses : float_image mag33 (Some 0%nat) (im_hdr 0 3 3 4 1 4) 3 3 (cells 3 (fw [1; 2; 3; 4; 5; 6; 7; 8; 9]))
  /\ hypercv_magnitude sq root (Some 0%nat) (Some 2%nat) (Some 4%nat) ex_env mag33 = UB.
Proof.
  split; [apply mag33_ok|]. destruct mag33_ok as (A & B & C). eapply C50_out_of_bounds; eauto; try discriminate; reflexivity.
Qed.

(** C52.  Squares of half width size/2 around every point of the array. *)
Theorem C52_points : forall e s p dst ms md, image s p ms 1 -> image s dst md 1 -> sm_type ms = 1 ->
  sm_rows ms = sm_rows md -> sm_cols ms = sm_cols md -> sm_chan ms = sm_chan md -> sm_data ms <> sm_data md ->
  forall color size, 0 <= c_r color < 256 -> 0 <= c_g color < 256 -> 0 <= c_b color < 256 ->
  forall v pts, points_at s v pts -> v <> sm_data md -> -2147483648 < size <= 2147483647 ->
  (forall x y, In (x, y) pts -> int_range (x - Z.abs (Z.quot size 2)) /\ int_range (x + Z.abs (Z.quot size 2))
                             /\ int_range (y - Z.abs (Z.quot size 2)) /\ int_range (y + Z.abs (Z.quot size 2))) ->
  sm_chan md = 1 \/ sm_chan md = 3 ->
  exists s', draw_POINT p dst v (Z.of_nat (List.length pts)) color size e s = Ret tt s'
    /\ drawn s ms md (near_points pts (Z.quot size 2)) (bgr (sm_chan md) (c_r color) (c_g color) (c_b color)) s'.
Proof. exact points_run. Qed.
Print Assumptions C52_points.
Theorem C52_other_channels : forall e s p dst ms md, image s p ms 1 -> image s dst md 1 -> sm_type ms = 1 ->
  sm_rows ms = sm_rows md -> sm_cols ms = sm_cols md -> sm_chan ms = sm_chan md -> sm_data ms <> sm_data md ->
  forall color size v pts, points_at s v pts -> v <> sm_data md -> -2147483648 < size <= 2147483647 ->
  (forall x y, In (x, y) pts -> int_range (x - Z.abs (Z.quot size 2)) /\ int_range (x + Z.abs (Z.quot size 2))
                             /\ int_range (y - Z.abs (Z.quot size 2)) /\ int_range (y + Z.abs (Z.quot size 2))) ->
  sm_chan md <> 1 -> sm_chan md <> 3 ->
  exists s', draw_POINT p dst v (Z.of_nat (List.length pts)) color size e s = Ret tt s'
    /\ drawn s ms md (fun _ _ => False) (fun _ => 0) s'.
Proof. exact points_copy. Qed.
Print Assumptions C52_other_channels.
Example C52_hypotheses : image (st_draw 1) (Some 0%nat) (im_hdr 0 3 3 1 1 1) 1 /\ image (st_draw 1) (Some 2%nat) (im_hdr 2 3 3 1 1 1) 1
  /\ points_at (st_draw 1) (Some 4%nat) [(1, 2); (-1, 0)].
Proof. split; [apply st_draw1_ok|]. split; [apply st_draw1_ok|apply st_draw_points]. Qed.
Example C52_run :
  match draw_POINT (Some 0%nat) (Some 2%nat) (Some 4%nat) 2 (mkRGB 200 150 100) 2 ex_env (st_draw 1) with
  | Ret _ s' => dump s' (Some 3%nat) 9 | _ => [] end = map Some [200; 1; 2; 200; 200; 200; 200; 200; 200].
Proof. vm_compute. reflexivity. Qed.

(** C53.  What is coloured: the whole line x -> (x2-x1)/(y2-y1) x + b, not the segment. *)
Theorem C53_exact : forall e s p dst ms md, image s p ms 1 -> image s dst md 1 -> sm_type ms = 1 ->
  sm_rows ms = sm_rows md -> sm_cols ms = sm_cols md -> sm_chan ms = sm_chan md -> sm_data ms <> sm_data md ->
  forall x1 y1 x2 y2 thickness color, int_range (x2 - x1) -> int_range (y2 - y1) ->
  -2147483648 < thickness <= 2147483647 -> sm_cols md + Z.abs (Z.quot thickness 2) <= 2147483647 ->
  (forall j, 0 <= j < sm_cols md -> exists z, library_row x1 y1 x2 y2 j = Some z /\ int_range z) ->
  sm_chan md = 3 -> 0 <= c_r color < 256 -> 0 <= c_g color < 256 -> 0 <= c_b color < 256 ->
  exists s', draw_line p dst x1 y1 x2 y2 color thickness e s = Ret tt s'
    /\ drawn s ms md (library_line x1 y1 x2 y2 (sm_cols md) (Z.quot thickness 2))
         (rgb_order (c_r color) (c_g color) (c_b color)) s'.
Proof. exact line_run. Qed.
Print Assumptions C53_exact.
(** Diagonals: the segment is coloured (and what lies beyond it). *)
Theorem C53_diagonal_partial : forall e s p dst ms md, image s p ms 1 -> image s dst md 1 -> sm_type ms = 1 ->
  sm_rows ms = sm_rows md -> sm_cols ms = sm_cols md -> sm_chan ms = sm_chan md -> sm_data ms <> sm_data md ->
  forall x1 y1 x2 y2 thickness color, sm_chan md = 3 -> small_coords x1 y1 x2 y2 -> y1 <> y2 -> sm_cols md <= 2097152 ->
  -2147483648 < thickness <= 2147483647 -> sm_cols md + Z.abs (Z.quot thickness 2) <= 2147483647 ->
  0 <= c_r color < 256 -> 0 <= c_g color < 256 -> 0 <= c_b color < 256 ->
  Z.abs (x2 - x1) = Z.abs (y2 - y1) -> 0 <= thickness ->
  exists s' P, draw_line p dst x1 y1 x2 y2 color thickness e s = Ret tt s'
    /\ drawn s ms md P (rgb_order (c_r color) (c_g color) (c_b color)) s'
    /\ forall i j, in_image md i j 0 -> on_segment x1 y1 x2 y2 i j -> P i j.
Proof. exact diagonal_run. Qed.
Print Assumptions C53_diagonal_partial.
(** Every vertical line is drawn as the whole row y1. *)
Theorem C53_vertical_wrong : forall e s p dst ms md, image s p ms 1 -> image s dst md 1 -> sm_type ms = 1 ->
  sm_rows ms = sm_rows md -> sm_cols ms = sm_cols md -> sm_chan ms = sm_chan md -> sm_data ms <> sm_data md ->
  forall x1 y1 x2 y2 thickness color, sm_chan md = 3 -> small_coords x1 y1 x2 y2 -> y1 <> y2 -> sm_cols md <= 2097152 ->
  -2147483648 < thickness <= 2147483647 -> sm_cols md + Z.abs (Z.quot thickness 2) <= 2147483647 ->
  0 <= c_r color < 256 -> 0 <= c_g color < 256 -> 0 <= c_b color < 256 ->
  x1 = x2 -> 0 <= y1 -> 0 <= thickness ->
  exists s', draw_line p dst x1 y1 x2 y2 color thickness e s = Ret tt s'
    /\ drawn s ms md (fun i j => i = y1) (rgb_order (c_r color) (c_g color) (c_b color)) s'.
Proof. exact vertical_run. Qed.
Print Assumptions C53_vertical_wrong.
(** Every horizontal line converts NaN to int. *)
Theorem C53_horizontal_undefined : forall e s p dst ms md x1 y1 x2 color thickness,
  image s p ms 1 -> image s dst md 1 -> sm_type ms = 1 ->
  sm_rows ms = sm_rows md -> sm_cols ms = sm_cols md -> sm_chan ms = sm_chan md -> sm_data ms <> sm_data md ->
  int_range (x2 - x1) -> draw_line p dst x1 y1 x2 y1 color thickness e s = UB.
Proof. exact horizontal_ub. Qed.
Print Assumptions C53_horizontal_undefined.
(** With one channel nothing is ever drawn. *)
Theorem C53_one_channel_copy : forall e s p dst ms md, image s p ms 1 -> image s dst md 1 -> sm_type ms = 1 ->
  sm_rows ms = sm_rows md -> sm_cols ms = sm_cols md -> sm_chan ms = sm_chan md -> sm_data ms <> sm_data md ->
  forall x1 y1 x2 y2 thickness color, int_range (x2 - x1) -> int_range (y2 - y1) ->
  -2147483648 < thickness <= 2147483647 -> sm_cols md + Z.abs (Z.quot thickness 2) <= 2147483647 ->
  (forall j, 0 <= j < sm_cols md -> exists z, library_row x1 y1 x2 y2 j = Some z /\ int_range z) ->
  sm_chan md = 1 ->
  exists s', draw_line p dst x1 y1 x2 y2 color thickness e s = Ret tt s'
    /\ drawn s ms md (fun _ _ => False) (fun _ => 0) s'.
Proof. exact line_grey. Qed.
Print Assumptions C53_one_channel_copy.
Theorem C53_refuted : exists e s p dst ms md x1 y1 x2 y2 col s' i j,
  image s p ms 1 /\ image s dst md 1 /\ sm_chan md = 3
  /\ draw_line p dst x1 y1 x2 y2 col 1 e s = Ret tt s' /\ in_image md i j 0
  /\ on_segment x1 y1 x2 y2 i j /\ pix s' md i j 0 = pix s ms i j 0 /\ pix s ms i j 0 = Some 21 /\ c_r col = 200 /\ c_b col = 100.
Proof. exact vertical_refuted. Qed.
Print Assumptions C53_refuted.
Theorem C53_overrun_refuted : exists e s p dst ms md x1 y1 x2 y2 col s' i j,
  image s p ms 1 /\ image s dst md 1 /\ sm_chan md = 3
  /\ draw_line p dst x1 y1 x2 y2 col 1 e s = Ret tt s' /\ in_image md i j 0
  /\ ~ on_segment x1 y1 x2 y2 i j /\ pix s ms i j 0 = Some 24 /\ pix s' md i j 0 = Some 200 /\ c_r col = 200.
Proof. exact overrun_refuted. Qed.
Print Assumptions C53_overrun_refuted.
Example C53_hypotheses : heap_ok (st_draw 3) /\ image (st_draw 3) (Some 0%nat) (im_hdr 0 3 3 1 3 1) 1
  /\ image (st_draw 3) (Some 2%nat) (im_hdr 2 3 3 1 3 1) 1 /\ small_coords 0 0 2 2
  /\ map (library_row 0 2 2 0) [0; 1; 2] = [Some 2; Some 1; Some 0].
Proof. split; [apply st_draw3_ok|]. split; [apply st_draw3_ok|]. split; [apply st_draw3_ok|]. split; [unfold small_coords; lia|vm_compute; reflexivity]. Qed.
Example C53_run :
  match draw_line (Some 0%nat) (Some 2%nat) 0 2 2 0 (mkRGB 200 150 100) 1 ex_env (st_draw 3) with
  | Ret _ s' => dump s' (Some 3%nat) 27 | _ => [] end
  = map Some [0; 1; 2; 3; 4; 5; 200; 150; 100; 9; 10; 11; 200; 150; 100; 15; 16; 17; 200; 150; 100; 21; 22; 23; 24; 25; 26].
Proof. vm_compute. reflexivity. Qed.
