(** * Properties C54 to C56, C67, C68: calibration and statistics of an image. *)
From Verif Require Import Base ModelCore ModelFloat ModelStat SpecBase SpecCore SpecImage SpecImage2 SpecPixel SpecNum SpecMatrix SpecFilter SpecStat SpecVar ModelDouble
  Fixtures Fixtures2 ProofEx ProofEx3 ProofEx6 ProofEx8 ProofHM ProofStat ProofCalib ProofEx10 ProofRoot2 ProofVar2 ProofEx31.
From Coq Require Import Floats.SpecFloat.
Open Scope Z_scope.

(** C54.  The coefficient of column j and band k is read at k * bands + j of the table ... *)
Theorem C54_relative_exact : forall e s p t m N, env_ok e -> heap_ok s -> cube s p m BIP 2 ->
  hm_samples m * hm_lines m * hm_bands m * 4 <= 2147483647 ->
  readable s t N -> 4 * ((hm_bands m - 1) * hm_bands m + hm_samples m) <= N ->
  (hm_bands m - 1) * hm_bands m + hm_samples m <= 2147483647 ->
  exists p' s', relative_radiometric_correction p t e s = Ret p' s'
    /\ calibrated s m 2 fl_of_Z t (fun j k => k * hm_bands m + j) s' p'.
Proof. exact relative_run. Qed.
Print Assumptions C54_relative_exact.
(** ... which is its place when there are as many columns as bands.  Missing: other shapes. *)
Theorem C54_relative_partial : forall e s p t m, env_ok e -> heap_ok s -> cube s p m BIP 2 -> hm_samples m = hm_bands m ->
  hm_samples m * hm_lines m * hm_bands m * 4 <= 2147483647 ->
  readable s t (hm_samples m * hm_bands m * 4) ->
  exists p' s', relative_radiometric_correction p t e s = Ret p' s'
    /\ calibrated s m 2 fl_of_Z t (own_coefficient (hm_samples m)) s' p'.
Proof. exact relative_square. Qed.
Print Assumptions C54_relative_partial.
(** More bands than columns: a table of that many coefficients is read past its end. *)
Theorem C54_relative_overrun : forall e s p q d m, env_ok e -> heap_ok s -> cube s p m BIP 2 -> hm_samples m < hm_bands m ->
  hm_samples m * hm_lines m * hm_bands m * 4 <= 2147483647 -> hm_samples m * hm_bands m <= 2147483647 ->
  bytes_at s (Some q) = Some (q, hm_samples m * hm_bands m * 4, d) ->
  relative_radiometric_correction p (Some q) e s = UB.
Proof. exact relative_overrun. Qed.
Print Assumptions C54_relative_overrun.
(** More columns than bands: the coefficient of another column and band is applied. *)
Theorem C54_relative_refuted : exists e s p t m p' s', env_ok e /\ heap_ok s /\ cube s p m BIP 2 /\ readable s t (hm_samples m * hm_bands m * 4)
  /\ relative_radiometric_correction p t e s = Ret p' s'
  /\ ~ calibrated s m 2 fl_of_Z t (own_coefficient (hm_samples m)) s' p'.
Proof. exact relative_wrong. Qed.
Print Assumptions C54_relative_refuted.
(** Absolute correction: each sample by the coefficient of its band. *)
Theorem C54_absolute : forall e s p t m, env_ok e -> heap_ok s -> cube s p m BIP 4 ->
  readable s t (hm_bands m * 4) ->
  exists p' s', absolute_radiometric_correction p t e s = Ret p' s'
    /\ calibrated s m 4 fl_of_bits t (fun _ k => k) s' p'.
Proof. exact absolute_run. Qed.
Print Assumptions C54_absolute.
Example C54_hypotheses : heap_ok st_cal22 /\ cube st_cal22 (Some 0%nat) (hc_hdr 0 2 1 2 12 BIP) BIP 2 /\ readable st_cal22 (Some 3%nat) 16.
Proof. exact st_cal22_ok. Qed.
Example C54_overrun_hypotheses : heap_ok st_cal12 /\ cube st_cal12 (Some 0%nat) (hc_hdr 0 1 1 2 12 BIP) BIP 2
  /\ bytes_at st_cal12 (Some 3%nat) = Some (3%nat, 8, wordsn 4 (fw [1; 2])).
Proof. exact st_cal12_ok. Qed.
Example C54_run : match relative_radiometric_correction (Some 0%nat) (Some 3%nat) ex_env st_cal22 with
  | Ret (Some k) s' => map (fun i => word_at s' (Some (k + 1)%nat) (4 * i) 4) [0; 1; 2; 3] | _ => [] end
  = map Some (fw [10; 60; 60; 262140]).
Proof. vm_compute. reflexivity. Qed.

(** C55.  The sum over the neighbours divided by the number of ordered pairs of neighbours.  Missing: sizes at which 4 * rows * cols is no int. *)
Theorem C55_contrast_partial : forall pow2 e s p m P, image s p m 1 -> sm_type m = 1 -> sm_chan m = 1 -> grey s m P ->
  4 * (sm_rows m * sm_cols m) <= 2147483647 -> 6 * sm_rows m <= 2147483647 -> 6 * sm_cols m <= 2147483647 ->
  simple_mat_contrast_ratio pow2 p e s
  = Ret (fl_div (float_contrast pow2 (sm_rows m) (sm_cols m) P) (fl_of_Z (pairs (sm_rows m) (sm_cols m)))) s.
Proof. exact contrast_exact. Qed.
Print Assumptions C55_contrast_partial.
(** Three channels: the same for the rounded averages of the channels. *)
Theorem C55_colour_partial : forall pow2 e s p m P, env_ok e -> heap_ok s -> image s p m 1 -> sm_type m = 1 -> sm_chan m = 3 ->
  colours s m P ->
  4 * (sm_rows m * sm_cols m) <= 2147483647 -> 6 * sm_rows m <= 2147483647 -> 6 * sm_cols m <= 2147483647 ->
  exists s', simple_mat_contrast_ratio pow2 p e s
    = Ret (fl_div (float_contrast pow2 (sm_rows m) (sm_cols m) (fun i j => nearest (P i j 0 + P i j 1 + P i j 2) 3))
             (fl_of_Z (pairs (sm_rows m) (sm_cols m)))) s'
    /\ old_unchanged s s' /\ files s' = files s.
Proof. exact contrast_colour. Qed.
Print Assumptions C55_colour_partial.
(** The float sum is the sum of squared differences, as long as that is at most 2^24. *)
Theorem C55_sum : forall pow2 R C P, 0 < R -> 0 < C -> squares pow2 255 ->
  (forall i j, 0 <= i < R -> 0 <= j < C -> 0 <= P i j < 256) -> contrast_sum R C P <= 16777216 ->
  is_int (float_contrast pow2 R C P) (contrast_sum R C P).
Proof. exact contrast_int. Qed.
Print Assumptions C55_sum.
(** Larger images: the number of pairs overflows. *)
Theorem C55_overflow_refuted : forall pow2 e s p m P, image s p m 1 -> sm_type m = 1 -> sm_chan m = 1 -> grey s m P ->
  2 <= sm_rows m -> 2 <= sm_cols m -> 2147483647 < 4 * (sm_cols m - 2) * (sm_rows m - 2) ->
  simple_mat_contrast_ratio pow2 p e s = UB.
Proof. exact contrast_overflow. Qed.
Print Assumptions C55_overflow_refuted.
Example C55_hypotheses : image (st_fil 3 []) (Some 0%nat) (im_hdr 0 3 3 1 1 1) 1 /\ grey (st_fil 3 []) (im_hdr 0 3 3 1 1 1) (cells 3 px33)
  /\ squares sq 255.
Proof. split; [apply st_int_ok|]. split; [apply st_int_ok|exact sq_squares]. Qed.
Example C55_run : (pairs 3 3, contrast_sum 3 3 (cells 3 px33),
  match simple_mat_contrast_ratio sq (Some 0%nat) ex_env (st_fil 3 []) with Ret x _ => Some (bits_of_fl x) | _ => None end)
  = (24, 483906, Some (bits_of_fl (fl_div (fl_of_Z 483906) (fl_of_Z 24)))).
Proof. vm_compute. reflexivity. Qed.

(** C56.  The assertion compares the size of a pointer with 256: every call ends the program. *)
Theorem C56_statistics_refuted : forall e s p t m, sm_at s p = Some m -> simple_mat_grayscale_statistics p t e s = Exit.
Proof. exact statistics_exit. Qed.
Print Assumptions C56_statistics_refuted.
Theorem C56_statistics_null : forall e s t, simple_mat_grayscale_statistics None t e s = Exit.
Proof. exact statistics_null. Qed.
Print Assumptions C56_statistics_null.
Theorem C56_entropy_refuted : forall log_ e s p m, env_ok e -> heap_ok s -> image s p m 1 -> simple_mat_entropy log_ p e s = Exit.
Proof. exact entropy_exit. Qed.
Print Assumptions C56_entropy_refuted.
Theorem C56_entropy_never_returns : forall log_ e s p x s', simple_mat_entropy log_ p e s <> Ret x s'.
Proof. exact entropy_never. Qed.
Print Assumptions C56_entropy_never_returns.
Example C56_hypotheses : env_ok ex_env /\ heap_ok (st_fil 3 []) /\ image (st_fil 3 []) (Some 0%nat) (im_hdr 0 3 3 1 1 1) 1.
Proof. split; [exact ex_env_ok|]. split; [ex_heap_tac|apply st_int_ok]. Qed.

(** C67.  What is computed: a float sum of the elements read as unsigned numbers (floats for type 4), divided twice ... *)
Theorem C67_exact : forall e s p m es W, image s p m es -> sm_chan m = 1 -> In (sm_type m) [1; 2; 3; 4; 12] ->
  elements_of s (sm_data m) es (sm_rows m * sm_cols m) W ->
  simple_mat_mean p e s = Ret (float_mean (sm_rows m) (sm_cols m) (fun i => unsigned_reading (sm_type m) (W i))) s.
Proof. exact mean_exact. Qed.
Print Assumptions C67_exact.
(** ... which is the mean for whole numbers with a whole mean and a sum of at most 2^24.  Missing: the rest. *)
Theorem C67_whole_partial : forall R C v z mu, 0 < R <= 16777216 -> 0 < C <= 16777216 -> (forall i, 0 <= i < R * C -> is_int (v i) (z i) /\ 0 <= z i) ->
  sumz (R * C) z = mu * (R * C) -> sumz (R * C) z <= 16777216 -> is_int (float_mean R C v) mu.
Proof. exact mean_int. Qed.
Print Assumptions C67_whole_partial.
(** How far it is off in general, relative to the true mean: at most (n + 3) / 2^23 for n unsigned elements.
    Missing: more than 2^20 elements (refuted for 2^25), signed types (refuted). *)
Theorem C67_error_partial : forall e s p m es W, image s p m es -> sm_chan m = 1 -> In (sm_type m) [1; 12] ->
  elements_of s (sm_data m) es (sm_rows m * sm_cols m) W -> (forall i, 0 <= i < sm_rows m * sm_cols m -> W i <= 65535) ->
  0 < sm_rows m -> 0 < sm_cols m -> sm_rows m * sm_cols m <= 1048576 -> 0 < sumz (sm_rows m * sm_cols m) W ->
  exists x c, simple_mat_mean p e s = Ret x s /\ sf_num x = Some c
    /\ Z.abs (c * (sm_rows m * sm_cols m) - sumz (sm_rows m * sm_cols m) W * sf_one) * 8388608
       <= (sm_rows m * sm_cols m + 3) * sumz (sm_rows m * sm_cols m) W * sf_one.
Proof. exact image_mean_error. Qed.
Print Assumptions C67_error_partial.
Example C67_error_hypotheses : image st_four (Some 0%nat) (im_hdr 0 2 2 1 1 1) 1 /\ sumz (2 * 2) (fun i => nth (Z.to_nat i) [1; 3; 5; 7] 0) = 16.
Proof. split; [exact (proj1 st_four_ok)|reflexivity]. Qed.
(** Signed elements: the mean of a single -1 is 65535. *)
Theorem C67_signed_refuted : exists e s p m x, image s p m 2 /\ sm_chan m = 1 /\ sm_type m = 2 /\ sm_rows m = 1 /\ sm_cols m = 1
  /\ option_map (sgn 16) (word_at s (sm_data m) 0 2) = Some (-1)
  /\ simple_mat_mean p e s = Ret x s /\ is_int x 65535.
Proof. exact mean_wrong. Qed.
Print Assumptions C67_signed_refuted.
(** Large images: the sum stops growing at 2^24, the mean of 2^25 ones is 1/2. *)
Theorem C67_large_refuted : forall e s p m, image s p m 1 -> sm_chan m = 1 -> sm_type m = 1 -> sm_rows m = 8192 -> sm_cols m = 4096 ->
  elements_of s (sm_data m) 1 (sm_rows m * sm_cols m) (fun _ => 1) ->
  simple_mat_mean p e s = Ret (fl_div (fl_of_Z 1) (fl_of_Z 2)) s.
Proof. exact mean_ones. Qed.
Print Assumptions C67_large_refuted.
Example C67_hypotheses : image st_four (Some 0%nat) (im_hdr 0 2 2 1 1 1) 1
  /\ elements_of st_four (Some 1%nat) 1 (2 * 2) (fun i => nth (Z.to_nat i) [1; 3; 5; 7] 0).
Proof. exact st_four_ok. Qed.
Example C67_large_hypotheses : image st_ones (Some 0%nat) (im_hdr 0 8192 4096 1 1 1) 1
  /\ elements_of st_ones (Some 1%nat) 1 (8192 * 4096) (fun _ => 1).
Proof. exact st_ones_ok. Qed.
Example C67_run : match simple_mat_mean (Some 0%nat) ex_env st_four with Ret x _ => Some (bits_of_fl x) | _ => None end = Some (bits_of_fl (fl_of_Z 4)).
Proof. vm_compute. reflexivity. Qed.

(** C68.  What is computed: the squared differences to the mean, summed in single precision, divided twice ... *)
Theorem C68_exact : forall pow2 e s p m es W, image s p m es -> sm_chan m = 1 -> In (sm_type m) [1; 2; 3; 4; 12] ->
  elements_of s (sm_data m) es (sm_rows m * sm_cols m) W ->
  simple_mat_variance pow2 p e s
  = Ret (float_variance pow2 (sm_rows m) (sm_cols m) (fun i => unsigned_reading (sm_type m) (W i))) s.
Proof. exact variance_exact. Qed.
Print Assumptions C68_exact.
(** ... which is the variance for whole numbers with whole mean and variance and sums of at most 2^24.  Missing: the rest. *)
Theorem C68_whole_partial : forall pow2 R C v z mu va, 0 < R <= 16777216 -> 0 < C <= 16777216 ->
  (forall i, 0 <= i < R * C -> is_int (v i) (z i) /\ 0 <= z i) ->
  (forall x d, Z.abs d <= 16777216 -> is_int x d -> db_ok (pow2 (db_of_fl x)) /\ sf_num (pow2 (db_of_fl x)) = Some (d * d * sf_one)) ->
  sumz (R * C) z = mu * (R * C) -> sumz (R * C) z <= 16777216 ->
  sumz (R * C) (fun i => (mu - z i) * (mu - z i)) = va * (R * C) -> sumz (R * C) (fun i => (mu - z i) * (mu - z i)) <= 16777216 ->
  is_int (float_variance pow2 R C v) va.
Proof. exact variance_int. Qed.
Print Assumptions C68_whole_partial.
(** How far it is off in general, for n unsigned elements that are not all equal.  With V = n * (sum of squares) - (sum)^2, which is n^2 times the
    variance, n^2 times the result is V + k up to (n + 6) / 2^23, where k is the square of the error of n times the mean (at most (n + 3) / 2^23 of the sum).
    Missing: more than 2^20 elements, all elements equal, signed types (refuted). *)
Theorem C68_error_partial : forall pow2 e s p m es W n, squares_closely pow2 -> image s p m es -> sm_chan m = 1 -> In (sm_type m) [1; 12] ->
  elements_of s (sm_data m) es n W -> (forall i, 0 <= i < n -> W i <= 65535) ->
  0 < sm_rows m -> 0 < sm_cols m -> n = sm_rows m * sm_cols m -> n <= 1048576 -> sumz n W * sumz n W < n * sumz n (fun i => W i * W i) ->
  exists x c k, simple_mat_variance pow2 p e s = Ret x s /\ sf_num x = Some c /\ 0 <= k
    /\ k * (8388608 * 8388608) <= (n + 3) * sumz n W * sf_one * ((n + 3) * sumz n W * sf_one)
    /\ Z.abs (c * n * n * sf_one - ((n * sumz n (fun i => W i * W i) - sumz n W * sumz n W) * (sf_one * sf_one) + k)) * 8388608
       <= (n + 6) * ((n * sumz n (fun i => W i * W i) - sumz n W * sumz n W) * (sf_one * sf_one) + k).
Proof. exact image_variance_error. Qed.
Print Assumptions C68_error_partial.
Example C68_error_hypotheses : squares_closely (fun x => db_mul x x) /\ image st_four (Some 0%nat) (im_hdr 0 2 2 1 1 1) 1
  /\ sumz 4 (fun i => nth (Z.to_nat i) [1; 3; 5; 7] 0) * sumz 4 (fun i => nth (Z.to_nat i) [1; 3; 5; 7] 0)
     < 4 * sumz 4 (fun i => nth (Z.to_nat i) [1; 3; 5; 7] 0 * nth (Z.to_nat i) [1; 3; 5; 7] 0).
Proof. split; [exact product_squares|]. split; [exact (proj1 st_four_ok)|reflexivity]. Qed.
(** Signed elements are read as unsigned ones: for -24576 and 24576 the result is 2^26 instead of 24576^2 = 9 * 2^26. *)
Theorem C68_signed_refuted : exists e s p m, image s p m 2 /\ sm_chan m = 1 /\ sm_type m = 2 /\ sm_rows m = 1 /\ sm_cols m = 2
  /\ option_map (sgn 16) (word_at s (sm_data m) 0 2) = Some (-24576) /\ option_map (sgn 16) (word_at s (sm_data m) 2 2) = Some 24576
  /\ forall pow2, pow2 (db_of_Z 8192) = db_of_Z 67108864 -> pow2 (db_of_Z (-8192)) = db_of_Z 67108864 ->
     exists x, simple_mat_variance pow2 p e s = Ret x s /\ sf_num x = Some (67108864 * sf_one).
Proof. exact variance_wrong. Qed.
Print Assumptions C68_signed_refuted.
Example C68_signed_hypotheses : sq (db_of_Z 8192) = db_of_Z 67108864 /\ sq (db_of_Z (-8192)) = db_of_Z 67108864.
Proof. split; vm_compute; reflexivity. Qed.
Example C68_run : match simple_mat_variance sq (Some 0%nat) ex_env st_four with Ret x _ => Some (bits_of_fl x) | _ => None end = Some (bits_of_fl (fl_of_Z 5)).
Proof. vm_compute. reflexivity. Qed.
