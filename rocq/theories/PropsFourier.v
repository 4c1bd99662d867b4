(** * Properties C90, C91: the Fourier transforms. *)
From Verif Require Import Base ModelFloat ModelConv ModelFourier SpecBase SpecNum SpecMatrix SpecStat SpecFilter SpecFourier
  Fixtures Fixtures2 ProofEx ProofEx6 ProofFourier ProofFourier2 ProofFourier4 ProofEx22.
From Coq Require Import List Lia Floats.SpecFloat Reals.
Import ListNotations.
Open Scope Z_scope.

(** C90.  The forward transform stores the Fourier sums of a byte or 16-bit image, computed in the machine's floats, and nothing else. *)
Theorem C90_code : forall cos_ sin_ e s src re im ms mr mi ty es R C P X Y,
  (ty = 1 /\ es = 1 \/ ty = 12 /\ es = 2) ->
  sheet s src ms ty es R C P -> sheet s re mr 4 4 R C X -> sheet s im mi 4 4 R C Y ->
  sm_chan ms = 1 -> sm_chan mr = 1 -> sm_chan mi = 1 ->
  sm_data ms <> sm_data mr -> sm_data ms <> sm_data mi -> sm_data mr <> sm_data mi ->
  exists s', hypercv_dft cos_ sin_ src re im e s = Ret tt s'
    /\ matrix s' (sm_data mr) 4 R C (fun i j => float_word (dft_re (machine cos_ sin_) R C P i j))
    /\ matrix s' (sm_data mi) 4 R C (fun i j => float_word (dft_im (machine cos_ sin_) R C P i j))
    /\ only_two s (sm_data mr) (sm_data mi) (R * C * 4) s'.
Proof. exact fourier_run. Qed.
Print Assumptions C90_code.
(** Images of any other type: the call returns without storing anything. *)
Theorem C90_other_types : forall cos_ sin_ e s src re im ms mr mi ty es R C P X Y,
  ty <> 1 -> ty <> 12 ->
  sheet s src ms ty es R C P -> sheet s re mr 4 4 R C X -> sheet s im mi 4 4 R C Y ->
  sm_chan ms = 1 -> sm_chan mr = 1 -> sm_chan mi = 1 ->
  hypercv_dft cos_ sin_ src re im e s = Ret tt s.
Proof. exact fourier_other. Qed.
Print Assumptions C90_other_types.
(** The transform back, whatever the two matrices hold; 16-bit results are rounded to a byte as well. *)
Theorem C90_back_code : forall cos_ sin_ e s re im dst mr mi md ty es R C X Y W,
  (ty = 1 /\ es = 1 \/ ty = 12 /\ es = 2) ->
  sheet s re mr 4 4 R C X -> sheet s im mi 4 4 R C Y -> sheet s dst md ty es R C W ->
  sm_data md <> sm_data mr -> sm_data md <> sm_data mi ->
  exists s', hypercv_idft cos_ sin_ re im dst e s = Ret tt s'
    /\ matrix s' (sm_data md) es R C (fun i j => saturate_cast_float2uchar
         (dft_inverse (machine cos_ sin_) R C (fun x y => fl_of_bits (X x y)) (fun x y => fl_of_bits (Y x y)) i j))
    /\ only_bytes s (sm_data md) 0 (R * C * es) s'.
Proof. exact fourier_back. Qed.
Print Assumptions C90_back_code.
(** With real numbers in place of floats the two transforms together multiply the image by the root of its size: they are inverse to each other for a single point only. *)
Theorem C90_exact : forall R C P i j, 0 <= i < R -> 0 <= j < C ->
  dft_inverse reals R C (dft_re reals R C P) (dft_im reals R C P) i j = (sqrt (IZR (R * C)) * IZR (P i j))%R.
Proof. exact transform_pair. Qed.
Print Assumptions C90_exact.
(** In floats: the first value is the sum of the image. *)
Theorem C90_sum : forall cos_ sin_ R C P, trig_like cos_ sin_ -> 0 < R <= 16777216 -> 0 < C <= 16777216 ->
  (forall x y, 0 <= x < R -> 0 <= y < C -> 0 <= P x y) -> sumz R (fun x => sumz C (P x)) <= 16777216 ->
  is_int (dft_re (machine cos_ sin_) R C P 0 0) (sumz R (fun x => sumz C (P x)))
  /\ is_int (dft_im (machine cos_ sin_) R C P 0 0) 0.
Proof. exact transform_sum. Qed.
Print Assumptions C90_sum.
(** In floats: the transform of an image with a single point, the first one, is constant. *)
Theorem C90_point : forall cos_ sin_ R C P v i j, trig_like cos_ sin_ -> 0 < R <= 2048 -> 0 < C <= 2048 -> 0 <= v <= 65535 ->
  one_point P R C v -> 0 <= i < R -> 0 <= j < C ->
  is_int (dft_re (machine cos_ sin_) R C P i j) v /\ is_int (dft_im (machine cos_ sin_) R C P i j) 0.
Proof. exact transform_point. Qed.
Print Assumptions C90_point.
(** In floats, for every image with such a point and every cosine and sine: v comes back as n v (at most 255). *)
Theorem C90_inverse_refuted : forall cos_ sin_ e s src re im dst ms mr mi md ty es R C P X Y W v n,
  trig_like cos_ sin_ -> (ty = 1 /\ es = 1 \/ ty = 12 /\ es = 2) ->
  sheet s src ms ty es R C P -> sheet s re mr 4 4 R C X -> sheet s im mi 4 4 R C Y -> sheet s dst md ty es R C W ->
  sm_chan ms = 1 -> sm_chan mr = 1 -> sm_chan mi = 1 ->
  sm_data ms <> sm_data mr -> sm_data ms <> sm_data mi -> sm_data mr <> sm_data mi ->
  sm_data md <> sm_data mr -> sm_data md <> sm_data mi ->
  R <= 2048 -> C <= 2048 -> one_point P R C v -> 0 <= v <= 65535 -> R * C = n * n -> 0 < n -> R * C * v < 4194304 ->
  exists s1 s2, hypercv_dft cos_ sin_ src re im e s = Ret tt s1 /\ hypercv_idft cos_ sin_ re im dst e s1 = Ret tt s2
    /\ word_at s2 (sm_data md) 0 (Z.to_nat es) = Some (clamp 0 255 (n * v)).
Proof. exact round_trip. Qed.
Print Assumptions C90_inverse_refuted.
(** C91.  The spectrum call stores the scaled magnitudes of the image with alternating signs; the type of the image is not looked at. *)
Theorem C91_code : forall cos_ sin_ e s src dst ms md ty ty' R C P W,
  sheet s src ms ty 1 R C P -> sheet s dst md ty' 1 R C W -> sm_data ms <> sm_data md -> R + C <= 2147483647 ->
  exists s', hypercv_dft_frespectrum cos_ sin_ src dst e s = Ret tt s'
    /\ matrix s' (sm_data md) 1 R C (fun i j => saturate_cast_float2uchar
         (magnitude_of (machine cos_ sin_) R C (spectrum_re (machine cos_ sin_) R C P i j) (spectrum_im (machine cos_ sin_) R C P i j)))
    /\ only_bytes s (sm_data md) 0 (R * C) s'.
Proof. exact spectrum_code. Qed.
Print Assumptions C91_code.
(** With real numbers and even sizes this is the transform with the frequency (0, 0) moved to the middle. *)
Theorem C91_centred : forall R C P i j h k, 0 < R -> 0 < C -> R = 2 * h -> C = 2 * k ->
  spectrum_re reals R C P i j = dft_re reals R C P ((i + h) mod R) ((j + k) mod C)
  /\ spectrum_im reals R C P i j = dft_im reals R C P ((i + h) mod R) ((j + k) mod C).
Proof. exact centred_spectrum. Qed.
Print Assumptions C91_centred.
(** In floats: the spectrum of a single point v is constant, v divided by the root of the size. *)
Theorem C91_point : forall cos_ sin_ R C P v n w i j, trig_like cos_ sin_ -> 0 < R <= 2048 -> 0 < C <= 2048 -> 0 <= v <= 4096 ->
  one_point P R C v -> R * C = n * n -> 0 < n -> v = n * w -> 0 <= i < R -> 0 <= j < C ->
  saturate_cast_float2uchar (magnitude_of (machine cos_ sin_) R C
    (spectrum_re (machine cos_ sin_) R C P i j) (spectrum_im (machine cos_ sin_) R C P i j)) = clamp 0 255 w.
Proof. exact spectrum_point. Qed.
Print Assumptions C91_point.
(** For an odd size the stored values are not a rearrangement of the transform. *)
Theorem C91_odd_refuted : exists R C P, 0 < R /\ 0 < C /\ forall i j, 0 <= i < R -> 0 <= j < C ->
  magnitude_of reals R C (spectrum_re reals R C P 0 0) (spectrum_im reals R C P 0 0)
  <> magnitude_of reals R C (dft_re reals R C P i j) (dft_im reals R C P i j).
Proof. exact spectrum_odd. Qed.
Print Assumptions C91_odd_refuted.
Example C90_hypotheses : sheet st_fourier (Some 0%nat) (im_hdr 0 2 2 1 1 1) 1 1 2 2 fourier_P
  /\ sheet st_fourier (Some 2%nat) (im_hdr 2 2 2 4 1 4) 4 4 2 2 (fun _ _ => 0)
  /\ sheet st_fourier (Some 4%nat) (im_hdr 4 2 2 4 1 4) 4 4 2 2 (fun _ _ => 0)
  /\ sheet st_fourier (Some 6%nat) (im_hdr 6 2 2 1 1 1) 1 1 2 2 (fun _ _ => 0)
  /\ one_point fourier_P 2 2 10 /\ sumz 2 (fun x => sumz 2 (fourier_P x)) = 10.
Proof. exact st_fourier_ok. Qed.
Example C90_hypotheses_trig : trig_like ex_cos ex_sin.
Proof. exact ex_trig. Qed.
Example C90_hypotheses_other : sheet st_fourier_float (Some 0%nat) (im_hdr 0 2 2 4 1 4) 4 4 2 2 (fun _ _ => 0)
  /\ sheet st_fourier_float (Some 2%nat) (im_hdr 2 2 2 4 1 4) 4 4 2 2 (fun _ _ => 0)
  /\ sheet st_fourier_float (Some 4%nat) (im_hdr 4 2 2 4 1 4) 4 4 2 2 (fun _ _ => 0).
Proof. exact st_fourier_float_ok. Qed.
Example C90_run : exists s1 s2, hypercv_dft ex_cos ex_sin (Some 0%nat) (Some 2%nat) (Some 4%nat) ex_env st_fourier = Ret tt s1
  /\ hypercv_idft ex_cos ex_sin (Some 2%nat) (Some 4%nat) (Some 6%nat) ex_env s1 = Ret tt s2
  /\ byte_at s2 (Some 7%nat) 0 = Some 20.
Proof. exact fourier_runs. Qed.
