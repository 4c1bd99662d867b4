(** * Properties C45, C46, C51: morphology and histogram equalisation. *)
From Verif Require Import Base ModelCore ModelMorph SpecBase SpecImage SpecImage2 SpecPixel SpecMatrix SpecFilter SpecMorph SpecMorph2
  Fixtures Fixtures2 ProofEx ProofEx3 ProofEx6 ProofMorph ProofMorph2 ProofHist ProofMorph3 ProofEx9 ProofEx29 ProofEx32.
Open Scope Z_scope.

(** C45.  Square images, element no larger than the image. *)
Theorem C45_erosion_exact : forall e s src dst k d ms md w h E P, image s src ms 1 -> image s dst md 1 ->
  sm_chan ms = 1 -> sm_chan md = 1 -> sm_rows md = sm_rows ms -> sm_cols md = sm_cols ms -> sm_rows ms = sm_cols ms ->
  grey s ms P -> element s k w h d E -> w <= sm_cols ms -> h <= sm_rows ms ->
  sm_data ms <> sm_data md -> d <> sm_data md ->
  exists s' V, hypercv_corrosion src dst k e s = Ret tt s'
    /\ painted s md V s' /\ library_erosion (sm_rows ms) (sm_cols ms) w h E P V.
Proof. exact corrosion_exact. Qed.
Print Assumptions C45_erosion_exact.
(** With the centre in the element this is the erosion.  Missing: other elements, images that are not square. *)
Theorem C45_erosion_partial : forall R C w h E P V, 0 < w -> 0 < h -> E (h / 2) (w / 2) = 1 ->
  library_erosion R C w h E P V -> erosion R C w h E P V.
Proof. exact erosion_centre. Qed.
Print Assumptions C45_erosion_partial.
Theorem C45_dilation_exact : forall e s src dst k d ms md w h E P, image s src ms 1 -> image s dst md 1 ->
  sm_chan ms = 1 -> sm_chan md = 1 -> sm_rows md = sm_rows ms -> sm_cols md = sm_cols ms -> sm_rows ms = sm_cols ms ->
  grey s ms P -> element s k w h d E -> w <= sm_cols ms -> h <= sm_rows ms ->
  sm_data ms <> sm_data md -> d <> sm_data md ->
  exists s' V, hypercv_expend src dst k e s = Ret tt s'
    /\ painted s md V s' /\ library_dilation (sm_rows ms) (sm_cols ms) w h E P V.
Proof. exact expend_exact. Qed.
Print Assumptions C45_dilation_exact.
(** With the centre in the element every pixel the element fits around is set, whatever the image. *)
Theorem C45_dilation_centre : forall R C w h E P V i j, 0 < w -> 0 < h -> E (h / 2) (w / 2) = 1 ->
  library_dilation R C w h E P V -> 0 <= i < R -> 0 <= j < C -> fits R C w h i j -> V i j <> 0.
Proof. exact dilation_centre. Qed.
Print Assumptions C45_dilation_centre.
(** An element larger than the image: nothing happens. *)
Theorem C45_too_big : forall e s src dst k d ms w h, sm_at s src = Some ms -> s2_at s k = Some (mkS2 w h d) ->
  sm_cols ms < w \/ sm_rows ms < h ->
  hypercv_corrosion src dst k e s = Ret tt s /\ hypercv_expend src dst k e s = Ret tt s.
Proof. exact too_big. Qed.
Print Assumptions C45_too_big.
(** Rows are addressed by the row count: images with more rows than columns are read past their end. *)
Theorem C45_tall_undefined : forall e s src dst k d ms md w h q f, image s src ms 1 -> image s dst md 1 ->
  sm_chan ms = 1 -> s2_at s k = Some (mkS2 w h d) -> w <= sm_cols ms -> h <= sm_rows ms -> sm_data ms <> sm_data md ->
  bytes_at s (sm_data ms) = Some (q, sm_rows ms * sm_cols ms, f) -> sm_cols ms < sm_rows ms ->
  hypercv_corrosion src dst k e s = UB /\ hypercv_expend src dst k e s = UB.
Proof. exact tall_undefined. Qed.
Print Assumptions C45_tall_undefined.
(** More columns than rows: the operation works on rows that start R bytes apart, in both images, and each row
    is stored over the end of the one before. *)
Theorem C45_wide_erosion : forall e s src dst k d ms md w h E P, image s src ms 1 -> image s dst md 1 ->
  sm_chan ms = 1 -> sm_chan md = 1 -> sm_rows md = sm_rows ms -> sm_cols md = sm_cols ms -> sm_rows ms <= sm_cols ms ->
  sm_cols ms <= 1000000000 -> overlapping s (sm_data ms) (sm_rows ms) (sm_cols ms) P ->
  element s k w h d E -> w <= sm_cols ms -> h <= sm_rows ms -> sm_data ms <> sm_data md -> d <> sm_data md ->
  exists s' V, hypercv_corrosion src dst k e s = Ret tt s'
    /\ painted_overlapping s (sm_data md) (sm_rows ms) (sm_cols ms) V s'
    /\ library_erosion (sm_rows ms) (sm_cols ms) w h E P V.
Proof. exact corrosion_wide. Qed.
Print Assumptions C45_wide_erosion.
Theorem C45_wide_dilation : forall e s src dst k d ms md w h E P, image s src ms 1 -> image s dst md 1 ->
  sm_chan ms = 1 -> sm_chan md = 1 -> sm_rows md = sm_rows ms -> sm_cols md = sm_cols ms -> sm_rows ms <= sm_cols ms ->
  sm_cols ms <= 1000000000 -> overlapping s (sm_data ms) (sm_rows ms) (sm_cols ms) P ->
  element s k w h d E -> w <= sm_cols ms -> h <= sm_rows ms -> sm_data ms <> sm_data md -> d <> sm_data md ->
  exists s' V, hypercv_expend src dst k e s = Ret tt s'
    /\ painted_overlapping s (sm_data md) (sm_rows ms) (sm_cols ms) V s'
    /\ library_dilation (sm_rows ms) (sm_cols ms) w h E P V.
Proof. exact expend_wide. Qed.
Print Assumptions C45_wide_dilation.
(** The pixel at the bottom right keeps what it held before, whatever the images and the element. *)
Theorem C45_wide_corner : forall e s src dst k d ms md w h E P, image s src ms 1 -> image s dst md 1 ->
  sm_chan ms = 1 -> sm_chan md = 1 -> sm_rows md = sm_rows ms -> sm_cols md = sm_cols ms -> 1 < sm_rows ms < sm_cols ms ->
  sm_cols ms <= 1000000000 -> overlapping s (sm_data ms) (sm_rows ms) (sm_cols ms) P ->
  element s k w h d E -> w <= sm_cols ms -> h <= sm_rows ms -> sm_data ms <> sm_data md -> d <> sm_data md ->
  exists s' s'', hypercv_corrosion src dst k e s = Ret tt s' /\ hypercv_expend src dst k e s = Ret tt s''
    /\ pix s' md (sm_rows ms - 1) (sm_cols ms - 1) 0 = pix s md (sm_rows ms - 1) (sm_cols ms - 1) 0
    /\ pix s'' md (sm_rows ms - 1) (sm_cols ms - 1) 0 = pix s md (sm_rows ms - 1) (sm_cols ms - 1) 0.
Proof. exact wide_corner_kept. Qed.
Print Assumptions C45_wide_corner.
Theorem C45_erosion_refuted : exists e s src dst k d ms md w h E P s' V,
  image s src ms 1 /\ image s dst md 1 /\ sm_chan ms = 1 /\ sm_chan md = 1 /\ sm_rows ms = sm_cols ms
  /\ grey s ms P /\ element s k w h d E /\ hypercv_corrosion src dst k e s = Ret tt s' /\ painted s md V s'
  /\ ~ erosion (sm_rows ms) (sm_cols ms) w h E P V.
Proof. exact corrosion_wrong. Qed.
Print Assumptions C45_erosion_refuted.
Theorem C45_dilation_refuted : exists e s src dst k d ms md w h E P s' V,
  image s src ms 1 /\ image s dst md 1 /\ sm_chan ms = 1 /\ sm_chan md = 1 /\ sm_rows ms = sm_cols ms
  /\ grey s ms P /\ element s k w h d E /\ hypercv_expend src dst k e s = Ret tt s' /\ painted s md V s'
  /\ ~ dilation (sm_rows ms) (sm_cols ms) w h E P V.
Proof. exact expend_wrong. Qed.
Print Assumptions C45_dilation_refuted.
(** With a NULL destination both results are left in a new matrix the caller never learns of. *)
Theorem C45_null_refuted : forall e s src k d ms w h E P, env_ok e -> heap_ok s -> image s src ms 1 -> sm_chan ms = 1 ->
  sm_rows ms = sm_cols ms -> grey s ms P -> element s k w h d E -> w <= sm_cols ms -> h <= sm_rows ms ->
  exists s' s'' p md V V', hypercv_corrosion src None k e s = Ret tt s' /\ hypercv_expend src None k e s = Ret tt s''
    /\ old_unchanged s s' /\ old_unchanged s s'' /\ fresh_in s p /\ sm_at s' p = Some md /\ sm_at s'' p = Some md
    /\ sm_rows md = sm_rows ms /\ sm_cols md = sm_cols ms
    /\ grey s' md V /\ library_erosion (sm_rows ms) (sm_cols ms) w h E P V
    /\ grey s'' md V' /\ library_dilation (sm_rows ms) (sm_cols ms) w h E P V'.
Proof. exact morphology_lost. Qed.
Print Assumptions C45_null_refuted.
Example C45_null_hypotheses : env_ok ex_env /\ heap_ok st_hole /\ heap_ok st_zero.
Proof. exact morph_heaps. Qed.
Example C45_hypotheses : image st_hole (Some 0%nat) (im_hdr 0 3 3 1 1 1) 1 /\ image st_hole (Some 2%nat) (im_hdr 2 3 3 1 1 1) 1
  /\ grey st_hole (im_hdr 0 3 3 1 1 1) (cells 3 hole) /\ element st_hole (Some 4%nat) 3 1 (Some 5%nat) (cells 3 [1; 0; 1]).
Proof. exact st_hole_ok. Qed.
Example C45_wide : image st_wide (Some 0%nat) (im_hdr 0 2 3 1 1 1) 1 /\ image st_wide (Some 2%nat) (im_hdr 2 2 3 1 1 1) 1
  /\ element st_wide (Some 4%nat) 1 1 (Some 5%nat) (cells 1 [1])
  /\ match hypercv_corrosion (Some 0%nat) (Some 2%nat) (Some 4%nat) ex_env st_wide with
     | Ret _ s' => (pix s' (im_hdr 2 2 3 1 1 1) 1 1 0, pix s' (im_hdr 2 2 3 1 1 1) 1 2 0) = (Some 1, Some 99)
     | _ => False end.
Proof. exact wide_wrong. Qed.
Example C45_wide_hypotheses : overlapping st_wide (Some 1%nat) 2 3 (fun _ _ => 1) /\ sm_data (im_hdr 0 2 3 1 1 1) = Some 1%nat.
Proof. exact wide_ones. Qed.
Example C45_tall : image st_tall (Some 0%nat) (im_hdr 0 2 1 1 1 1) 1 /\ image st_tall (Some 2%nat) (im_hdr 2 2 1 1 1 1) 1
  /\ hypercv_corrosion (Some 0%nat) (Some 2%nat) (Some 4%nat) ex_env st_tall = UB
  /\ hypercv_expend (Some 0%nat) (Some 2%nat) (Some 4%nat) ex_env st_tall = UB.
Proof. exact tall_wrong. Qed.

(** C46.  Each pass starts from the source again, so only the last operation counts. *)
Theorem C46_open_exact : forall e s src dst k d ms md w h E P n, image s src ms 1 -> image s dst md 1 ->
  sm_chan ms = 1 -> sm_chan md = 1 -> sm_rows md = sm_rows ms -> sm_cols md = sm_cols ms -> sm_rows ms = sm_cols ms ->
  grey s ms P -> element s k w h d E -> w <= sm_cols ms -> h <= sm_rows ms ->
  sm_data ms <> sm_data md -> d <> sm_data md -> 0 < n ->
  exists s' V, hypercv_open src dst k n e s = Ret tt s'
    /\ painted s md V s' /\ library_dilation (sm_rows ms) (sm_cols ms) w h E P V.
Proof. exact open_exact. Qed.
Print Assumptions C46_open_exact.
Theorem C46_close_exact : forall e s src dst k d ms md w h E P n, image s src ms 1 -> image s dst md 1 ->
  sm_chan ms = 1 -> sm_chan md = 1 -> sm_rows md = sm_rows ms -> sm_cols md = sm_cols ms -> sm_rows ms = sm_cols ms ->
  grey s ms P -> element s k w h d E -> w <= sm_cols ms -> h <= sm_rows ms ->
  sm_data ms <> sm_data md -> d <> sm_data md -> 0 < n ->
  exists s' V, hypercv_close src dst k n e s = Ret tt s'
    /\ painted s md V s' /\ library_erosion (sm_rows ms) (sm_cols ms) w h E P V.
Proof. exact close_exact. Qed.
Print Assumptions C46_close_exact.
Theorem C46_open_refuted : exists e s src dst k d ms md w h E P s' V,
  image s src ms 1 /\ image s dst md 1 /\ sm_chan ms = 1 /\ sm_chan md = 1 /\ sm_rows ms = sm_cols ms
  /\ grey s ms P /\ element s k w h d E /\ hypercv_open src dst k 1 e s = Ret tt s' /\ painted s md V s'
  /\ ~ exists T, erosion (sm_rows ms) (sm_cols ms) w h E P T /\ dilation (sm_rows ms) (sm_cols ms) w h E T V.
Proof. exact open_wrong. Qed.
Print Assumptions C46_open_refuted.
Theorem C46_close_refuted : exists e s src dst k d ms md w h E P s' V,
  image s src ms 1 /\ image s dst md 1 /\ sm_chan ms = 1 /\ sm_chan md = 1 /\ sm_rows ms = sm_cols ms
  /\ grey s ms P /\ element s k w h d E /\ hypercv_close src dst k 1 e s = Ret tt s' /\ painted s md V s'
  /\ ~ exists T, dilation (sm_rows ms) (sm_cols ms) w h E P T /\ erosion (sm_rows ms) (sm_cols ms) w h E T V.
Proof. exact close_wrong. Qed.
Print Assumptions C46_close_refuted.
(** With a NULL destination both results are lost. *)
Theorem C46_null_refuted : forall e s src k d ms w h E P n, env_ok e -> heap_ok s -> image s src ms 1 -> sm_chan ms = 1 ->
  sm_rows ms = sm_cols ms -> grey s ms P -> element s k w h d E -> w <= sm_cols ms -> h <= sm_rows ms -> 0 < n ->
  exists s' s'' p md V V', hypercv_open src None k n e s = Ret tt s' /\ hypercv_close src None k n e s = Ret tt s''
    /\ old_unchanged s s' /\ old_unchanged s s'' /\ fresh_in s p /\ sm_at s' p = Some md /\ sm_at s'' p = Some md
    /\ sm_rows md = sm_rows ms /\ sm_cols md = sm_cols ms
    /\ grey s' md V /\ library_dilation (sm_rows ms) (sm_cols ms) w h E P V
    /\ grey s'' md V' /\ library_erosion (sm_rows ms) (sm_cols ms) w h E P V'.
Proof. exact open_close_lost. Qed.
Print Assumptions C46_null_refuted.
(** The hypotheses: C46_hypotheses together with C45_null_hypotheses. *)
Example C46_hypotheses : image st_zero (Some 0%nat) (im_hdr 0 3 3 1 1 1) 1 /\ image st_zero (Some 2%nat) (im_hdr 2 3 3 1 1 1) 1
  /\ grey st_zero (im_hdr 0 3 3 1 1 1) (cells 3 zero9) /\ element st_zero (Some 4%nat) 1 1 (Some 5%nat) (cells 1 [1]).
Proof. exact st_zero_ok. Qed.

(** C51.  What is stored, as long as no product overflows ... *)
Theorem C51_exact : forall e s src dst ms md P, image s src ms 1 -> image s dst md 1 ->
  sm_chan ms = 1 -> sm_chan md = 1 -> sm_rows md = sm_rows ms -> sm_cols md = sm_cols ms ->
  sm_data ms <> sm_data md -> grey s ms P ->
  (forall v : nat, (v < 255)%nat ->
     (library_level (sm_rows ms) (sm_cols ms) P v + pixels_of (sm_rows ms) (sm_cols ms) P (Z.of_nat (S v))) * 255 <= 2147483647) ->
  exists s', HisEqualization src dst e s = Ret tt s'
    /\ painted s md (fun i j => library_level (sm_rows ms) (sm_cols ms) P (Z.to_nat (P i j)) mod 256) s'.
Proof. exact his_exact. Qed.
Print Assumptions C51_exact.
(** ... and otherwise the behaviour is undefined. *)
Theorem C51_overflow : forall e s src dst ms md P v, image s src ms 1 -> image s dst md 1 ->
  sm_chan ms = 1 -> sm_chan md = 1 -> sm_rows md = sm_rows ms -> sm_cols md = sm_cols ms ->
  sm_data ms <> sm_data md -> grey s ms P -> (v < 255)%nat ->
  2147483647 < (library_level (sm_rows ms) (sm_cols ms) P v + pixels_of (sm_rows ms) (sm_cols ms) P (Z.of_nat (S v))) * 255 ->
  HisEqualization src dst e s = UB.
Proof. exact his_overflow. Qed.
Print Assumptions C51_overflow.
(** No product overflows for these sizes, whatever the pixels. *)
Theorem C51_sizes : forall R C P v, 0 < R -> 0 < C -> 255 <= R * C <= 8421504 ->
  (forall i j, 0 <= i < R -> 0 <= j < C -> 0 <= P i j) ->
  (library_level R C P v + pixels_of R C P (Z.of_nat (S v))) * 255 <= 2147483647.
Proof. exact his_sizes. Qed.
Print Assumptions C51_sizes.
(** The lowest level of the image is mapped as wanted unless it is 0.  Missing: the other levels. *)
Theorem C51_lowest_partial : forall R C P v, 0 < R -> 0 < C -> pixels_upto R C P (Z.of_nat v) = 0 ->
  (forall i j, 0 <= i < R -> 0 <= j < C -> 0 <= P i j) ->
  library_level R C P (S v) = equalised R C P (Z.of_nat (S v)).
Proof. exact his_lowest. Qed.
Print Assumptions C51_lowest_partial.
Theorem C51_refuted : exists e s src dst ms md P s' a b,
  image s src ms 1 /\ image s dst md 1 /\ sm_chan ms = 1 /\ sm_chan md = 1 /\ grey s ms P
  /\ sm_rows md = sm_rows ms /\ sm_cols md = sm_cols ms
  /\ HisEqualization src dst e s = Ret tt s'
  /\ P 0 0 < P 9 6 /\ pix s' md 0 0 0 = Some a /\ pix s' md 9 6 0 = Some b /\ b < a
  /\ a <> equalised (sm_rows ms) (sm_cols ms) P (P 0 0).
Proof. exact his_wrong. Qed.
Print Assumptions C51_refuted.
Theorem C51_small_refuted : exists e s src dst ms md P, image s src ms 1 /\ image s dst md 1 /\ sm_chan ms = 1 /\ sm_chan md = 1
  /\ grey s ms P /\ sm_rows md = sm_rows ms /\ sm_cols md = sm_cols ms /\ HisEqualization src dst e s = UB.
Proof. exact his_one_pixel. Qed.
Print Assumptions C51_small_refuted.
Example C51_levels : let P := fun i j => three_levels (i * 16 + j) in
  (map (fun v => library_level 16 16 P v) [0%nat; 1%nat; 9%nat; 10%nat; 20%nat],
   map (equalised 16 16 P) [0; 1; 9; 10; 20]) = ([150; 149; 141; 141; 236], [149; 149; 149; 150; 255]).
Proof. vm_compute. reflexivity. Qed.
