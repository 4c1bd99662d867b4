(** * Properties C75-C84: means, spectra, stretching, matrix sum and logarithm, edge energy. *)
From Coq Require Import String.
From Verif Require Import Base ModelFloat ModelDouble ModelCore SpecBase SpecNum SpecMatrix SpecPixel SpecImage SpecImage2 SpecFilter SpecStat SpecSpectral
  SpecScan SpecFile SpecCxx Fixtures Fixtures2 ProofEx ProofEx6 ProofSpectral ProofSpectral2 ProofSpectral3 ProofSpectral4 ProofSpectral5 ProofSpectral6
  ProofSpectral7 ProofEx17 SpecEnergy ProofSpectral8 ProofEx18 SpecVar ProofSum ProofSum2 ProofRoot2 ProofVar2 ProofVar3 ProofEx30.
From Verif Require Import ModelSpectral.
From Coq Require Import List Lia Floats.SpecFloat.
Import ListNotations.
Open Scope Z_scope.

(** C75.  The six integer means: the elements added in single precision in order, divided by their number. *)
Theorem C75_integers : forall k f e s t len W, In (k, f) [(UChar, mean_uchar); (Char, mean_char); (UShort, mean_ushort); (Short, mean_short);
    (UInt, mean_uint); (Int, mean_int)] -> 0 <= len -> elements_of s t (kind_size k) len W ->
  f t len e s = Ret (float_average len (fun i => fl_of_Z (kind_value k (W i)))) s.
Proof. exact mean_kinds. Qed.
Print Assumptions C75_integers.
Theorem C75_float : forall e s t len W, 0 <= len -> elements_of s t 4 len W ->
  mean_float t len e s = Ret (float_average len (fun i => fl_of_bits (W i))) s.
Proof. exact mean_float_exact. Qed.
Print Assumptions C75_float.
Theorem C75_double : forall e s t len W, 0 <= len -> elements_of s t 8 len W ->
  mean_double t len e s = Ret (db_div (double_sum len (fun i => db_of_bits (W i))) (db_of_Z len)) s.
Proof. exact mean_double_exact. Qed.
Print Assumptions C75_double.
(** The mean itself while the magnitudes add up to at most 2^24.  Missing: larger sums, which are rounded (refuted). *)
Theorem C75_mean_partial : forall k f e s t len W, In (k, f) [(UChar, mean_uchar); (Char, mean_char); (UShort, mean_ushort); (Short, mean_short);
    (UInt, mean_uint); (Int, mean_int)] -> 0 < len <= 16777216 -> elements_of s t (kind_size k) len W ->
  sumz len (fun i => Z.abs (kind_value k (W i))) <= 16777216 ->
  exists total, f t len e s = Ret (fl_div total (fl_of_Z len)) s /\ is_int total (sumz len (fun i => kind_value k (W i)))
    /\ forall mu, sumz len (fun i => kind_value k (W i)) = mu * len -> is_int (fl_div total (fl_of_Z len)) mu.
Proof. exact mean_whole. Qed.
Print Assumptions C75_mean_partial.
(** How far the mean is off in general, relative to the true one: at most (n + 2) / 2^23 for n elements.
    Missing: more than 2^20 elements (refuted for 2^25), negative elements. *)
Theorem C75_error_partial : forall k f e s t len W, In (k, f) [(UChar, mean_uchar); (UShort, mean_ushort)] -> 0 < len <= 1048576 ->
  elements_of s t (kind_size k) len W -> 0 < sumz len W ->
  exists x c, f t len e s = Ret x s /\ sf_num x = Some c /\ Z.abs (c * len - sumz len W * sf_one) * 8388608 <= (len + 2) * sumz len W * sf_one.
Proof. exact array_mean_error. Qed.
Print Assumptions C75_error_partial.
(** The sum that is divided, also for signed elements and up to 2^23 of them: off by at most (n + 1) / 2^23 of the sum of the magnitudes. *)
Theorem C75_sum_error_partial : forall k f e s t len W, In (k, f) [(UChar, mean_uchar); (Char, mean_char); (UShort, mean_ushort); (Short, mean_short)] ->
  0 < len <= 8388608 -> elements_of s t (kind_size k) len W -> 0 < sumz len (fun i => Z.abs (kind_value k (W i))) ->
  exists total c, f t len e s = Ret (fl_div total (fl_of_Z len)) s /\ sf_num total = Some c
    /\ Z.abs (c - sumz len (fun i => kind_value k (W i)) * sf_one) * 8388608 <= (len + 1) * sumz len (fun i => Z.abs (kind_value k (W i))) * sf_one.
Proof. exact array_sum_error. Qed.
Print Assumptions C75_sum_error_partial.
Example C75_sum_error_hypotheses : elements_of (mkSt [mkObj 4096 3 0 true (CBytes (fun i => 255 - i))] []) (Some 0%nat) (kind_size Char) 3 (fun i => 255 - i)
  /\ sumz 3 (fun i => kind_value Char (255 - i)) = -6 /\ sumz 3 (fun i => Z.abs (kind_value Char (255 - i))) = 6.
Proof. exact down_sum. Qed.
(** The numbers a are the elements scaled by 2^1074. *)
Theorem C75_float_error_partial : forall e s t len W a, 0 < len <= 1048576 -> elements_of s t 4 len W ->
  (forall i, 0 <= i < len -> sf_num (fl_of_bits (W i)) = Some (a i) /\ 0 <= a i) -> 2 ^ 1000 <= sumz len a <= len * 2 ^ 1132 ->
  exists x c, mean_float t len e s = Ret x s /\ sf_num x = Some c /\ Z.abs (c * len - sumz len a) * 8388608 <= (len + 2) * sumz len a.
Proof. exact float_mean_error. Qed.
Print Assumptions C75_float_error_partial.
(** The mean of 1, 1 and 0 is not a float. *)
Example C75_error_hypotheses : elements_of (mkSt [mkObj 4096 12 0 true (CBytes (wordsn 4 (fw [1; 1; 0])))] []) (Some 0%nat) 4 3 (fun i => nth (Z.to_nat i) (fw [1; 1; 0]) 0)
  /\ (forall i, 0 <= i < 3 -> sf_num (fl_of_bits (nth (Z.to_nat i) (fw [1; 1; 0]) 0)) = Some ((if i <? 2 then 1 else 0) * sf_one) /\ 0 <= (if i <? 2 then 1 else 0) * sf_one)
  /\ 2 ^ 1000 <= sumz 3 (fun i => (if i <? 2 then 1 else 0) * sf_one) <= 3 * 2 ^ 1132.
Proof. exact thirds_ok. Qed.
(** 2^25 bytes of value 1 have the mean 1/2. *)
Theorem C75_large_refuted : forall e s t, elements_of s t 1 33554432 (fun _ => 1) ->
  exists x, mean_uchar t 33554432 e s = Ret x s /\ sf_num x = Some (sf_one / 2).
Proof. exact mean_stalls. Qed.
Print Assumptions C75_large_refuted.
Example C75_hypotheses : elements_of (mkSt [mkObj 4096 3 0 true (CBytes (fun i => 255 - i))] []) (Some 0%nat) 1 3 (fun i => 255 - i)
  /\ exists x, mean_char (Some 0%nat) 3 ex_env (mkSt [mkObj 4096 3 0 true (CBytes (fun i => 255 - i))] []) = Ret x (mkSt [mkObj 4096 3 0 true (CBytes (fun i => 255 - i))] [])
       /\ sf_num x = Some (-2 * sf_one).
Proof.
  split; [intros i Hi; assert (i = 0 \/ i = 1 \/ i = 2) as [-> | [-> | ->]] by lia; reflexivity|].
  eexists. split; vm_compute; reflexivity.
Qed.
(** C76.  Missing: a destination of smaller elements (refuted). *)
Theorem C76_transport_partial : forall e s d md p ms es, cube s p ms BSQ es -> hm_at s d = Some md ->
  hm_samples md = hm_lines ms -> hm_lines md = hm_samples ms -> hm_bands md = hm_bands ms ->
  readable s (hm_data md) (hm_samples ms * hm_lines ms * hm_bands ms * es) -> hm_data md <> hm_data ms ->
  exists s', hyper_mat_transport d p e s = Ret tt s' /\ bands_transposed s ms md es s' /\ only_written (hm_data md) s s'.
Proof. exact cube_transport_ok. Qed.
Print Assumptions C76_transport_partial.
(** Twice gives the cube back. *)
Theorem C76_twice : forall e s d md p ms b mb es, cube s p ms BSQ es -> cube s d md BSQ es -> hm_at s b = Some mb ->
  hm_type md = hm_type ms -> hm_samples md = hm_lines ms -> hm_lines md = hm_samples ms -> hm_bands md = hm_bands ms ->
  hm_samples mb = hm_samples ms -> hm_lines mb = hm_lines ms -> hm_bands mb = hm_bands ms ->
  readable s (hm_data mb) (hm_samples ms * hm_lines ms * hm_bands ms * es) -> hm_data md <> hm_data ms -> hm_data mb <> hm_data md ->
  exists s1 s2, hyper_mat_transport d p e s = Ret tt s1 /\ hyper_mat_transport b d e s1 = Ret tt s2
    /\ forall i j k t, in_cube ms i j k -> 0 <= t < es -> sample_byte s2 mb BSQ es i j k t = sample_byte s ms BSQ es i j k t.
Proof. exact cube_transport_twice. Qed.
Print Assumptions C76_twice.
(** The element type of the destination is not checked. *)
Theorem C76_types_refuted : exists e s d md p ms, env_ok e /\ heap_ok s /\ cube s p ms BSQ 4 /\ cube s d md BSQ 1
  /\ hm_samples md = hm_lines ms /\ hm_lines md = hm_samples ms /\ hm_bands md = hm_bands ms /\ hm_data md <> hm_data ms
  /\ hyper_mat_transport d p e s = UB.
Proof. exact transport_bytes. Qed.
Print Assumptions C76_types_refuted.
Example C76_hypotheses : cube (st_tr 4 4) (Some 0%nat) (hc_hdr 0 2 1 1 4 BSQ) BSQ 4 /\ cube (st_tr 4 4) (Some 3%nat) (hc_hdr 3 1 2 1 4 BSQ) BSQ 4
  /\ cube (st_tr 4 4) (Some 6%nat) (hc_hdr 6 2 1 1 4 BSQ) BSQ 4.
Proof. exact st_tr_ok. Qed.
(** C77.  Missing: cubes of other element types (refuted). *)
Theorem C77_mean_partial : forall e s p m d md, cube s p m BIP 4 -> sm_at s d = Some md -> sm_type md = 4 ->
  sm_cols md = hm_samples m -> sm_rows md = hm_lines m -> readable s (sm_data md) (hm_lines m * hm_samples m * 4) -> sm_data md <> hm_data m ->
  exists s', hyper_mat_mean p d e s = Ret tt s' /\ per_pixel s m md (float_average (hm_bands m)) s' /\ only_written (sm_data md) s s'.
Proof. exact cube_mean_exact. Qed.
Print Assumptions C77_mean_partial.
(** What the rounded average is for whole numbers. *)
Theorem C77_whole : forall n v z, 0 < n <= 16777216 -> (forall i, 0 <= i < n -> is_int (v i) (z i)) ->
  sumz n (fun i => Z.abs (z i)) <= 16777216 -> forall mu, sumz n z = mu * n -> is_int (float_average n v) mu.
Proof. exact average_of_whole. Qed.
Print Assumptions C77_whole.
(** How far it is off in general for numbers that are not negative, relative to the true average; a is scaled by 2^1074. *)
Theorem C77_error : forall n v a, 0 < n <= 1048576 ->
  (forall i, 0 <= i < n -> fl_ok (v i) /\ sf_num (v i) = Some (a i) /\ 0 <= a i) -> 2 ^ 1000 <= sumz n a <= n * 2 ^ 1132 ->
  exists c, fl_ok (float_average n v) /\ sf_num (float_average n v) = Some c /\ 0 <= c
    /\ Z.abs (c * n - sumz n a) * 8388608 <= (n + 2) * sumz n a.
Proof. exact average_err. Qed.
Print Assumptions C77_error.
(** A cube of bytes is read as one of floats. *)
Theorem C77_types_refuted : exists e s p m d md, env_ok e /\ heap_ok s /\ cube s p m BIP 1 /\ image s d md 4
  /\ sm_cols md = hm_samples m /\ sm_rows md = hm_lines m /\ hyper_mat_mean p d e s = UB.
Proof. exact mean_bytes. Qed.
Print Assumptions C77_types_refuted.
Example C77_hypotheses : cube (st_mean 4 4) (Some 0%nat) (hc_hdr 0 2 1 2 4 BIP) BIP 4 /\ image (st_mean 4 4) (Some 3%nat) (im_hdr 3 1 2 4 1 4) 4.
Proof. exact st_mean_ok. Qed.
(** C78.  What is computed, for every pair of spectra whose products are ints when cut ... *)
Theorem C78_angle : forall acos_ e s x y n Wx Wy K, 0 <= n -> nonnull x && nonnull y = true -> elements_of s x 4 n Wx -> elements_of s y 4 n Wy ->
  (forall i, 0 <= i < n -> cut_product (fl_of_bits (Wx i)) (fl_of_bits (Wy i)) = Some (K i)) ->
  spectral_angle_mapper acos_ x y n e s = Ret (library_angle acos_ n (fun i => fl_of_bits (Wx i)) (fun i => fl_of_bits (Wy i)) K) s.
Proof. exact angle_exact. Qed.
Print Assumptions C78_angle.
(** ... and it is undefined for all others. *)
Theorem C78_undefined_refuted : forall acos_ e s x y n Wx Wy j, 0 <= j < n -> nonnull x && nonnull y = true -> elements_of s x 4 n Wx -> elements_of s y 4 n Wy ->
  cut_product (fl_of_bits (Wx j)) (fl_of_bits (Wy j)) = None -> spectral_angle_mapper acos_ x y n e s = UB.
Proof. exact angle_undefined. Qed.
Print Assumptions C78_undefined_refuted.
Theorem C78_symmetric : forall acos_ e s x y n Wx Wy, 0 <= n -> elements_of s x 4 n Wx -> elements_of s y 4 n Wy ->
  spectral_angle_mapper acos_ x y n e s = spectral_angle_mapper acos_ y x n e s.
Proof. exact angle_symmetric. Qed.
Print Assumptions C78_symmetric.
(** Missing: fractions and longer spectra (both refuted). *)
Theorem C78_self_partial : forall acos_ e s x n W z, 0 <= n -> nonnull x = true -> elements_of s x 4 n W ->
  (forall i, 0 <= i < n -> is_int (fl_of_bits (W i)) (z i)) -> 0 < sumz n (fun i => z i * z i) <= 4096 ->
  spectral_angle_mapper acos_ x x n e s = Ret (fl_of_db (acos_ (db_of_Z 1))) s.
Proof. exact angle_self. Qed.
Print Assumptions C78_self_partial.
Theorem C78_halves_refuted : exists e s x W, elements_of s x 4 2 W /\ (forall i, 0 <= i < 2 -> sf_num (fl_of_bits (W i)) = Some (sf_one / 2))
  /\ forall acos_, spectral_angle_mapper acos_ x x 2 e s = Ret (fl_of_db (acos_ (db_of_Z 0))) s.
Proof. exact angle_halves. Qed.
Print Assumptions C78_halves_refuted.
Theorem C78_above_one_refuted : exists e s x W q, elements_of s x 4 2 W
  /\ sf_num (fl_of_bits (W 0)) = Some (64 * sf_one) /\ sf_num (fl_of_bits (W 1)) = Some sf_one /\ SFltb (db_of_Z 1) q = true
  /\ forall acos_, spectral_angle_mapper acos_ x x 2 e s = Ret (fl_of_db (acos_ q)) s.
Proof. exact angle_above_one. Qed.
Print Assumptions C78_above_one_refuted.
(** C79.  The pixels marked are those whose angle is at least the threshold. *)
Theorem C79_marks : forall acos_ e s p m spectrum threshold X Wy K, env_ok e -> heap_ok s -> cube s p m BIP 4 -> nonnull spectrum = true ->
  elements_of s spectrum 4 (hm_bands m) Wy -> hm_lines m * hm_samples m + 96 <= INT_MAX ->
  (forall i j k, in_cube m i j k -> sample_word s m BIP 4 i j k = Some (X i j k)) ->
  (forall i j k, in_cube m i j k -> cut_product (fl_of_bits (X i j k)) (fl_of_bits (Wy k)) = Some (K i j k)) ->
  exists r s', spectrum_SAM_match acos_ p spectrum threshold e s = Ret r s'
    /\ marked s (hm_lines m) (hm_samples m)
         (fun i j => SFleb threshold (library_angle acos_ (hm_bands m) (fun k => fl_of_bits (X i j k)) (fun k => fl_of_bits (Wy k)) (K i j))) r s'.
Proof. exact match_exact. Qed.
Print Assumptions C79_marks.
(** So the reference spectrum itself is not marked and one at a right angle is. *)
Theorem C79_matches_refuted : exists acos_ e s p m spectrum r s' mi, env_ok e /\ heap_ok s /\ cube s p m BIP 4 /\ hm_bands m = 2
  /\ acos_ (db_of_Z 1) = db_of_Z 0 /\ acos_ (db_of_Z 0) = db_of_fl right_angle
  /\ sample_word s m BIP 4 0 0 0 = word_at s spectrum 0 4 /\ sample_word s m BIP 4 0 0 1 = word_at s spectrum 4 4
  /\ sample_word s m BIP 4 0 1 0 = Some 0 /\ word_at s spectrum 4 4 = Some 0
  /\ spectrum_SAM_match acos_ p spectrum (fl_of_Z 1) e s = Ret r s' /\ sm_at s' r = Some mi
  /\ byte_at s' (sm_data mi) 0 = Some 0 /\ byte_at s' (sm_data mi) 1 = Some 1.
Proof. exact match_inverted. Qed.
Print Assumptions C79_matches_refuted.
Example C79_hypotheses : cube st_match (Some 0%nat) (hc_hdr 0 2 1 2 4 BIP) BIP 4 /\ elements_of st_match (Some 3%nat) 4 2 (fun i => nth (Z.to_nat i) (fw [1; 0]) 0).
Proof.
  split; [exact st_match_ok|]. intros i Hi. assert (i = 0 \/ i = 1) as [-> | ->] by lia; vm_compute; reflexivity.
Qed.
(** C80.  A text of at most n numbers.  Missing: longer texts and other text (refuted). *)
Theorem C80_read_partial : forall scanf_ e s path t t' vs fuel n, file_of s path = Some t -> reads scanf_ t vs t' -> finished scanf_ t' ->
  0 <= n < 2 ^ 60 -> Z.of_nat (List.length vs) <= n -> (List.length vs < fuel)%nat ->
  exists p s', read_spectrum_file scanf_ fuel path n e s = Ret p s' /\ fresh_in s p /\ old_unchanged s s' /\ readable s' p (n * 4)
    /\ forall j, (j < List.length vs)%nat -> word_at s' p (4 * Z.of_nat j) 4 = Some (bits_of_fl (nth j vs (fl_of_Z 0))).
Proof. exact read_spectrum_ok. Qed.
Print Assumptions C80_read_partial.
(** A longer text is written past the end of the buffer ... *)
Theorem C80_long_refuted : forall scanf_ e s path t t' vs fuel n, file_of s path = Some t -> reads scanf_ t vs t' ->
  0 <= n < 2 ^ 60 -> n < Z.of_nat (List.length vs) -> (Z.to_nat n < fuel)%nat -> read_spectrum_file scanf_ fuel path n e s = UB.
Proof. exact read_spectrum_long. Qed.
Print Assumptions C80_long_refuted.
(** ... and so is a text that does not continue with a number, since fscanf then never reaches the end. *)
Theorem C80_text_refuted : forall scanf_ e s path t t' vs fuel n, file_of s path = Some t -> reads scanf_ t vs t' -> stuck scanf_ t' ->
  0 <= n < 2 ^ 60 -> (Z.to_nat n + List.length vs < fuel)%nat -> read_spectrum_file scanf_ fuel path n e s = UB.
Proof. exact read_spectrum_stuck. Qed.
Print Assumptions C80_text_refuted.
Theorem C80_missing : forall scanf_ e s path fuel n, file_of s path = None -> read_spectrum_file scanf_ fuel path n e s = Exit.
Proof. exact read_spectrum_missing. Qed.
Print Assumptions C80_missing.
Example C80_hypotheses : let scanf_ (t : list Z) := match t with [] => ScanEnd | 120 :: _ => ScanFail t | c :: r => ScanValue (fl_of_Z (c - 48)) r end in
  reads scanf_ [49; 50] [fl_of_Z 1; fl_of_Z 2] [] /\ finished scanf_ [] /\ reads scanf_ [49; 120] [fl_of_Z 1] [120] /\ stuck scanf_ [120].
Proof. cbn. repeat split; try (eexists; split; [reflexivity|]); repeat split; try (eexists; split; reflexivity). Qed.
(** C81.  Every band whose stretched values are ints.  Missing: constant bands (refuted). *)
Theorem C81_stretch_partial : forall e s p d ms md X Y, cube s p ms BSQ 4 -> hm_at s d = Some md ->
  hm_samples md = hm_samples ms -> hm_lines md = hm_lines ms -> hm_bands md = hm_bands ms -> hm_type md = 1 ->
  readable s (hm_data md) (hm_bands ms * hm_lines ms * hm_samples ms) -> hm_data md <> hm_data ms ->
  (forall i j k, in_cube ms i j k -> sample_word s ms BSQ 4 i j k = Some (X i j k)) ->
  (forall i j k, in_cube ms i j k ->
     stretch (band_max (hm_lines ms) (hm_samples ms) (fun i j => fl_of_bits (X i j k))) (band_min (hm_lines ms) (hm_samples ms) (fun i j => fl_of_bits (X i j k)))
             (fl_of_bits (X i j k)) = Some (Y i j k)) ->
  exists s', hyper_mat_linear_tension p d e s = Ret tt s'
    /\ (forall i j k, in_cube ms i j k -> sample_byte s' md BSQ 1 i j k 0 = Some (Y i j k)) /\ only_written (hm_data md) s s'.
Proof. exact tension_exact. Qed.
Print Assumptions C81_stretch_partial.
Theorem C81_undefined_refuted : forall e s p d ms md X i0 j0 k0, cube s p ms BSQ 4 -> hm_at s d = Some md ->
  hm_samples md = hm_samples ms -> hm_lines md = hm_lines ms -> hm_bands md = hm_bands ms -> hm_type md = 1 ->
  readable s (hm_data md) (hm_bands ms * hm_lines ms * hm_samples ms) -> hm_data md <> hm_data ms ->
  (forall i j k, in_cube ms i j k -> sample_word s ms BSQ 4 i j k = Some (X i j k)) -> in_cube ms i0 j0 k0 ->
  stretch (band_max (hm_lines ms) (hm_samples ms) (fun i j => fl_of_bits (X i j k0))) (band_min (hm_lines ms) (hm_samples ms) (fun i j => fl_of_bits (X i j k0)))
             (fl_of_bits (X i0 j0 k0)) = None ->
  hyper_mat_linear_tension p d e s = UB.
Proof. exact tension_undefined. Qed.
Print Assumptions C81_undefined_refuted.
(** A constant band is undefined. *)
Theorem C81_constant_refuted : forall e s p d ms md X v a k0, cube s p ms BSQ 4 -> hm_at s d = Some md ->
  hm_samples md = hm_samples ms -> hm_lines md = hm_lines ms -> hm_bands md = hm_bands ms -> hm_type md = 1 ->
  readable s (hm_data md) (hm_bands ms * hm_lines ms * hm_samples ms) -> hm_data md <> hm_data ms ->
  (forall i j k, in_cube ms i j k -> sample_word s ms BSQ 4 i j k = Some (X i j k)) -> 0 <= k0 < hm_bands ms ->
  (forall i j, in_cube ms i j k0 -> fl_of_bits (X i j k0) = v) -> fl_ok v -> sf_num v = Some a -> 0 <= a <= 1000000000 * sf_one ->
  hyper_mat_linear_tension p d e s = UB.
Proof. exact tension_constant. Qed.
Print Assumptions C81_constant_refuted.
(** Whole values in a range that divides 255: the smallest goes to 1 (0 stays 0), the others to their place. *)
Theorem C81_whole : forall mx mn x zx zn z u, is_int mx zx -> is_int mn zn -> is_int x z -> 0 <= zn -> zn < zx <= 65793 -> zn <= z <= zx -> u * (zx - zn) = 255 ->
  stretch mx mn x = Some (if (z =? zn) then (if z =? 0 then 0 else 1) else (z - zn) * u).
Proof. exact stretch_whole. Qed.
Print Assumptions C81_whole.
Example C81_hypotheses : forall W, cube (st_tens W) (Some 0%nat) (hc_hdr 0 2 1 1 4 BSQ) BSQ 4 /\ cube (st_tens W) (Some 3%nat) (hc_hdr 3 2 1 1 1 BSQ) BSQ 1.
Proof. exact st_tens_ok. Qed.
Example C81_values : exists s', hyper_mat_linear_tension (Some 0%nat) (Some 3%nat) ex_env (st_tens (fw [7; 58])) = Ret tt s'
  /\ byte_at s' (Some 4%nat) 0 = Some 1 /\ byte_at s' (Some 4%nat) 1 = Some 255.
Proof. eexists. split; [vm_compute; reflexivity|]. split; vm_compute; reflexivity. Qed.
(** C82.  Matrices of the same width.  Missing: different widths (refuted). *)
Theorem C82_addition_partial : forall e s p1 m1 p2 m2 d md W1 W2, sm_at s p1 = Some m1 -> sm_at s p2 = Some m2 -> sm_at s d = Some md ->
  sm_chan m1 = sm_chan m2 -> sm_cols m1 = sm_cols m2 -> 0 < sm_rows m1 -> 0 < sm_rows m2 -> 0 < sm_cols m1 -> 0 < sm_chan m1 ->
  let n := Z.min (sm_rows m1) (sm_rows m2) * sm_cols m1 * sm_chan m1 in
  n <= INT_MAX -> elements_of s (sm_data m1) 4 n W1 -> elements_of s (sm_data m2) 4 n W2 -> readable s (sm_data md) (n * 4) ->
  exists s', simple_mat_addition_float p1 p2 d e s = Ret tt s'
    /\ combined s (sm_data m1) (sm_data m2) (sm_data md) n fl_add s' /\ only_bytes s (sm_data md) 0 (4 * n) s'.
Proof. exact addition_float_exact. Qed.
Print Assumptions C82_addition_partial.
Theorem C82_widths_refuted : exists e s p1 m1 p2 m2 d md s', env_ok e /\ heap_ok s /\ image s p1 m1 4 /\ image s p2 m2 4 /\ image s d md 4
  /\ sm_rows m2 = sm_rows m1 /\ sm_cols m1 < sm_cols m2
  /\ word_at s (sm_data m1) (4 * (1 * sm_cols m1 + 0)) 4 = Some (bits_of_fl (fl_of_Z 2))
  /\ word_at s (sm_data m2) (4 * (1 * sm_cols m2 + 0)) 4 = Some (bits_of_fl (fl_of_Z 30))
  /\ simple_mat_addition_float p1 p2 d e s = Ret tt s'
  /\ word_at s' (sm_data md) (4 * (1 * sm_cols md + 0)) 4 = Some (bits_of_fl (fl_of_Z 22)).
Proof. exact addition_widths. Qed.
Print Assumptions C82_widths_refuted.
Theorem C82_log : forall log_ e s p ms d md W, sm_at s p = Some ms -> sm_at s d = Some md -> sm_type ms = 4 -> sm_type md = 4 ->
  sm_rows md = sm_rows ms -> sm_cols md = sm_cols ms -> 0 < sm_rows ms -> 0 < sm_cols ms -> (forall x, db_ok x -> db_ok (log_ x)) ->
  let n := sm_rows ms * sm_cols ms in
  n <= INT_MAX -> elements_of s (sm_data ms) 4 n W -> readable s (sm_data md) (n * 4) ->
  exists s', simple_mat_log log_ p d e s = Ret tt s'
    /\ combined s (sm_data ms) (sm_data ms) (sm_data md) n (fun x _ => fl_of_db (log_ (db_of_fl x))) s' /\ only_bytes s (sm_data md) 0 (4 * n) s'.
Proof. exact log_exact. Qed.
Print Assumptions C82_log.
Example C82_hypotheses : image st_add (Some 0%nat) (im_hdr 0 2 1 4 1 4) 4 /\ image st_add (Some 2%nat) (im_hdr 2 2 2 4 1 4) 4
  /\ image st_add (Some 4%nat) (im_hdr 4 2 1 4 1 4) 4.
Proof. exact st_add_ok. Qed.
(** C83.  Missing: images of one row or column, an allocator handing out addresses congruent to 48 mod 64, and an unchanged header (all refuted). *)
Theorem C83_energy_partial : forall pow2 e s p m P, env_ok e -> heap_ok s -> sm_at s p = Some m -> 2 <= sm_rows m -> 2 <= sm_cols m ->
  sm_rows m * sm_cols m * 4 + 96 <= INT_MAX -> readable s (sm_data m) (sm_rows m * sm_cols m) ->
  (forall i j, 0 <= i < sm_rows m -> 0 <= j < sm_cols m -> byte_at s (sm_data m) (i * sm_cols m + j) = Some (P i j)) ->
  (forall k, e_addr e k mod 64 <> 48) ->
  exists s', cal_edge_signal_energy pow2 p e s = Ret (mean_square pow2 (sm_rows m) (sm_cols m) (edge_response (beyond_one m P))) s'
    /\ sm_at s' p = Some (as_grey m) /\ unchanged_except [p] s s' /\ files s' = files s.
Proof. exact energy_exact. Qed.
Print Assumptions C83_energy_partial.
(** The energy of a constant image. *)
Theorem C83_constant_partial : forall pow2 e s p m v, env_ok e -> heap_ok s -> sm_at s p = Some m -> 2 <= sm_rows m -> 2 <= sm_cols m ->
  sm_rows m * sm_cols m * 4 + 96 <= INT_MAX -> readable s (sm_data m) (sm_rows m * sm_cols m) ->
  (forall x, 0 <= x < sm_rows m * sm_cols m -> byte_at s (sm_data m) x = Some v) ->
  (forall k, e_addr e k mod 64 <> 48) -> pow2 (S754_zero false) = S754_zero false ->
  exists r s', cal_edge_signal_energy pow2 p e s = Ret r s' /\ sf_num r = Some 0.
Proof. exact energy_constant. Qed.
Print Assumptions C83_constant_partial.
(** The checks assign to the header: a three channel image is relabelled. *)
Theorem C83_header_refuted : exists pow2 e s p m s' m' r, env_ok e /\ heap_ok s /\ sm_at s p = Some m /\ sm_chan m = 3
  /\ cal_edge_signal_energy pow2 p e s = Ret r s' /\ sm_at s' p = Some m' /\ sm_chan m' = 1.
Proof. exact energy_header. Qed.
Print Assumptions C83_header_refuted.
Theorem C83_alignment_refuted : forall pow2 e s p m P, env_ok e -> heap_ok s -> sm_at s p = Some m -> 2 <= sm_rows m -> 2 <= sm_cols m ->
  sm_rows m * sm_cols m * 4 + 96 <= INT_MAX -> readable s (sm_data m) (sm_rows m * sm_cols m) ->
  (forall i j, 0 <= i < sm_rows m -> 0 <= j < sm_cols m -> byte_at s (sm_data m) (i * sm_cols m + j) = Some (P i j)) ->
  (forall k, e_addr e k mod 64 = 48) -> cal_edge_signal_energy pow2 p e s = UB.
Proof. exact energy_misaligned. Qed.
Print Assumptions C83_alignment_refuted.
(** An image of one row is read outside. *)
Theorem C83_one_row_refuted : forall pow2 e s p m q f, env_ok e -> heap_ok s -> sm_at s p = Some m -> sm_rows m = 1 -> 1 <= sm_cols m ->
  sm_cols m * 4 + 96 <= INT_MAX -> sm_data m = Some q -> bytes_at s (Some q) = Some (q, sm_cols m, f) -> cal_edge_signal_energy pow2 p e s = UB.
Proof. exact energy_one_row. Qed.
Print Assumptions C83_one_row_refuted.
Example C83_hypotheses : sm_at (st_edge 1) (Some 0%nat) = Some (im_hdr 0 2 2 1 1 1) /\ readable (st_edge 1) (Some 1%nat) (2 * 2)
  /\ (forall i j, 0 <= i < 2 -> 0 <= j < 2 -> byte_at (st_edge 1) (Some 1%nat) (i * 2 + j) = Some (60 * (2 * i + j)))
  /\ (forall k, e_addr ex_env k mod 64 <> 48).
Proof. exact st_edge_ok. Qed.
Example C83_value : exists r s', cal_edge_signal_energy (fun x => db_mul x x) (Some 0%nat) ex_env (st_edge 1) = Ret r s' /\ sf_num r <> Some 0 /\ sf_num r <> None.
Proof. exact energy_value. Qed.
(** C84. *)
Theorem C84_distance : forall e s x y n Wx Wy, 0 <= n -> elements_of s x 4 n Wx -> elements_of s y 4 n Wy ->
  euclidean_distance x y n e s = Ret (float_distance n (fun i => fl_of_bits (Wx i)) (fun i => fl_of_bits (Wy i))) s.
Proof. exact distance_exact. Qed.
Print Assumptions C84_distance.
Theorem C84_distance_symmetric : forall e s x y n Wx Wy, 0 <= n -> elements_of s x 4 n Wx -> elements_of s y 4 n Wy ->
  euclidean_distance x y n e s = euclidean_distance y x n e s.
Proof. exact distance_symmetric. Qed.
Print Assumptions C84_distance_symmetric.
Theorem C84_distance_self : forall e s x n W, 0 <= n -> elements_of s x 4 n W ->
  (forall i, 0 <= i < n -> fl_of_bits (W i) <> S754_nan /\ forall b, fl_of_bits (W i) <> S754_infinity b) ->
  euclidean_distance x x n e s = Ret (fl_of_Z 0) s.
Proof. exact distance_self. Qed.
Print Assumptions C84_distance_self.
(** Missing: distances that are not whole or above 4096 (rounded). *)
Theorem C84_distance_whole_partial : forall e s x y n Wx Wy zx zy S, 0 <= n -> elements_of s x 4 n Wx -> elements_of s y 4 n Wy ->
  (forall i, 0 <= i < n -> is_int (fl_of_bits (Wx i)) (zx i) /\ is_int (fl_of_bits (Wy i)) (zy i)) ->
  0 <= S <= 4096 -> sumz n (fun i => (zx i - zy i) * (zx i - zy i)) = S * S ->
  exists r, euclidean_distance x y n e s = Ret r s /\ is_int r S.
Proof. exact distance_whole. Qed.
Print Assumptions C84_distance_whole_partial.
(** How far the square of the distance is off in general, relative to the true one: at most (n + 6) / 2^23 for spectra of n elements.
    The numbers a and b are the elements scaled by 2^1074.  Missing: more than 2^20 elements; distances below 2^-36 or above 2^51. *)
Theorem C84_distance_error_partial : forall e s x y n Wx Wy a b, 0 < n <= 1048576 -> elements_of s x 4 n Wx -> elements_of s y 4 n Wy ->
  (forall i, 0 <= i < n -> sf_num (fl_of_bits (Wx i)) = Some (a i) /\ sf_num (fl_of_bits (Wy i)) = Some (b i)) ->
  2 ^ 2075 <= sumz n (fun i => (a i - b i) * (a i - b i)) <= 2 ^ 2250 ->
  exists r c, euclidean_distance x y n e s = Ret r s /\ sf_num r = Some c
    /\ Z.abs (c * c - sumz n (fun i => (a i - b i) * (a i - b i))) * 8388608 <= (n + 6) * sumz n (fun i => (a i - b i) * (a i - b i)).
Proof. exact distance_error. Qed.
Print Assumptions C84_distance_error_partial.
(** The distance of (1, 2) and (2, 1) is not a float. *)
Example C84_error_hypotheses : elements_of st_slant (Some 0%nat) 4 2 (fun i => nth (Z.to_nat i) (fw [1; 2]) 0) /\ elements_of st_slant (Some 1%nat) 4 2 (fun i => nth (Z.to_nat i) (fw [2; 1]) 0)
  /\ (forall i, 0 <= i < 2 -> sf_num (fl_of_bits (nth (Z.to_nat i) (fw [1; 2]) 0)) = Some ((1 + i) * sf_one) /\ sf_num (fl_of_bits (nth (Z.to_nat i) (fw [2; 1]) 0)) = Some ((2 - i) * sf_one))
  /\ 2 ^ 2075 <= sumz 2 (fun i => ((1 + i) * sf_one - (2 - i) * sf_one) * ((1 + i) * sf_one - (2 - i) * sf_one)) <= 2 ^ 2250.
Proof. exact slant_ok. Qed.
Theorem C84_deviation : forall pow2 e s x n W, 0 <= n -> elements_of s x 4 n W ->
  sp_standard_deviation pow2 x n e s = Ret (spectrum_deviation pow2 n (fun i => fl_of_bits (W i))) s.
Proof. exact deviation_exact. Qed.
Print Assumptions C84_deviation.
(** Missing: means and deviations that are not whole (rounded). *)
Theorem C84_deviation_whole_partial : forall pow2 n v z mu sd, 0 < n <= 16777216 -> squares_floats pow2 16777216 ->
  (forall i, 0 <= i < n -> is_int (v i) (z i)) -> sumz n (fun i => Z.abs (z i)) <= 16777216 -> sumz n z = mu * n ->
  0 <= sd -> sumz n (fun i => (z i - mu) * (z i - mu)) = sd * sd * n -> sd * sd * n <= 16777216 ->
  is_int (spectrum_deviation pow2 n v) sd.
Proof. exact deviation_whole. Qed.
Print Assumptions C84_deviation_whole_partial.
(** How far it is off in general for spectra that are not negative: M is the computed average, and n times the square of the result is the sum of
    the squared differences to M up to (n + 7) / 2^23.  Missing: more than 2^20 elements, negative elements, sums of squares below 2^-53. *)
Theorem C84_deviation_error_partial : forall pow2 e s x n W a, squares_closely pow2 -> 0 < n <= 1048576 -> elements_of s x 4 n W ->
  (forall i, 0 <= i < n -> sf_num (fl_of_bits (W i)) = Some (a i) /\ 0 <= a i) -> 2 ^ 1000 <= sumz n a <= n * 2 ^ 1132 ->
  exists M, Z.abs (M * n - sumz n a) * 8388608 <= (n + 2) * sumz n a
    /\ (2 ^ 2095 <= sumz n (fun i => (a i - M) * (a i - M)) <= n * 2 ^ 2206 ->
        exists r c, sp_standard_deviation pow2 x n e s = Ret r s /\ sf_num r = Some c
          /\ Z.abs (c * c * n - sumz n (fun i => (a i - M) * (a i - M))) * 8388608 <= (n + 7) * sumz n (fun i => (a i - M) * (a i - M))).
Proof. exact deviation_error. Qed.
Print Assumptions C84_deviation_error_partial.
Example C84_deviation_hypotheses : squares_closely (fun x => db_mul x x) /\ elements_of st_slant (Some 0%nat) 4 2 (fun i => nth (Z.to_nat i) (fw [1; 2]) 0)
  /\ sf_num (float_average 2 (fun i => fl_of_bits (nth (Z.to_nat i) (fw [1; 2]) 0))) = Some (sf_one + sf_one / 2)
  /\ 2 ^ 1000 <= sumz 2 (fun i => (1 + i) * sf_one) <= 2 * 2 ^ 1132
  /\ 2 ^ 2095 <= sumz 2 (fun i => ((1 + i) * sf_one - (sf_one + sf_one / 2)) * ((1 + i) * sf_one - (sf_one + sf_one / 2))) <= 2 * 2 ^ 2206.
Proof. exact (conj product_squares slant_spread). Qed.
Example C84_values : exists r, euclidean_distance (Some 0%nat) (Some 1%nat) 2 ex_env
     (mkSt [mkObj 4096 8 0 true (CBytes (wordsn 4 (fw [1; 2]))); mkObj 8192 8 1 true (CBytes (wordsn 4 (fw [4; 6])))] [])
   = Ret r (mkSt [mkObj 4096 8 0 true (CBytes (wordsn 4 (fw [1; 2]))); mkObj 8192 8 1 true (CBytes (wordsn 4 (fw [4; 6])))] []) /\ sf_num r = Some (5 * sf_one).
Proof. eexists. split; vm_compute; reflexivity. Qed.
