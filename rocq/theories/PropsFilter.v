(** * Properties C41, C42, C44, C47, C48: integral image, filters, gradients. *)
From Verif Require Import Base ModelFloat ModelCore ModelFilter SpecBase SpecImage SpecImage2 SpecPixel SpecNum SpecMatrix SpecFilter
  Fixtures Fixtures2 ProofEx ProofEx3 ProofEx4 ProofEx6 ProofFilter ProofGrad ProofFilter2 ProofEx8.
From Coq Require Import Lia.
Open Scope Z_scope.

(** C41.  The first row and column receive the pixels themselves instead of their sums. *)
Theorem C41_exact : forall e s src dst ms md P, image s src ms 1 -> image s dst md 4 ->
  sm_chan ms = 1 -> sm_chan md = 1 -> sm_type md = 3 -> sm_rows md = sm_rows ms -> sm_cols md = sm_cols ms ->
  sm_data ms <> sm_data md -> grey s ms P -> 510 * (sm_rows ms * sm_cols ms) + 2000 <= INT_MAX ->
  exists s', hypercv_integral src dst e s = Ret tt s'
    /\ matrix s' (sm_data md) 4 (sm_rows ms) (sm_cols ms) (fun i j => library_integral P i j mod 4294967296)
    /\ only_bytes s (sm_data md) 0 (sm_rows ms * sm_cols ms * 4) s'.
Proof. exact integral_exact. Qed.
Print Assumptions C41_exact.
(** Differences still give the sums over rectangles that avoid row and column 0. *)
Theorem C41_rectangles : forall P i0 i1 j0 j1, 0 <= i0 <= i1 -> 0 <= j0 <= j1 ->
  library_integral P i1 j1 - library_integral P i0 j1 - library_integral P i1 j0 + library_integral P i0 j0
  = block_sum P (i0 + 1) (i1 + 1) (j0 + 1) (j1 + 1).
Proof. exact integral_rectangles. Qed.
Print Assumptions C41_rectangles.
(** Missing for the full claim: images whose first row or column is not zero. *)
Theorem C41_zero_border_partial : forall P i j, 0 <= i -> 0 <= j ->
  (forall a, 0 <= a <= i -> P a 0 = 0) -> (forall b, 0 <= b <= j -> P 0 b = 0) ->
  library_integral P i j = block_sum P 0 (i + 1) 0 (j + 1).
Proof. exact integral_zero_border. Qed.
Print Assumptions C41_zero_border_partial.
Theorem C41_refuted : exists e s src dst ms md P s',
  image s src ms 1 /\ image s dst md 4 /\ sm_rows md = sm_rows ms /\ sm_cols md = sm_cols ms /\ grey s ms P
  /\ hypercv_integral src dst e s = Ret tt s'
  /\ (exists i j w, 0 <= i < sm_rows ms /\ 0 <= j < sm_cols ms
        /\ word_at s' (sm_data md) ((i * sm_cols ms + j) * 4) 4 = Some w /\ w <> block_sum P 0 (i + 1) 0 (j + 1)).
Proof. exact integral_wrong. Qed.
Print Assumptions C41_refuted.
(** With a NULL destination the result is left in a new matrix the caller never learns of. *)
Theorem C41_null_refuted : forall e s src ms P, env_ok e -> heap_ok s -> image s src ms 1 -> sm_chan ms = 1 -> grey s ms P ->
  510 * (sm_rows ms * sm_cols ms) + 2000 <= INT_MAX ->
  exists s' d md, hypercv_integral src None e s = Ret tt s' /\ old_unchanged s s' /\ files s' = files s
    /\ fresh_in s d /\ sm_at s' d = Some md /\ sm_rows md = sm_rows ms /\ sm_cols md = sm_cols ms
    /\ matrix s' (sm_data md) 4 (sm_rows ms) (sm_cols ms) (fun i j => library_integral P i j mod 4294967296).
Proof. exact integral_lost. Qed.
Print Assumptions C41_null_refuted.
Example C41_null_hypotheses : env_ok ex_env /\ heap_ok (st_fil 3 []).
Proof. exact st_fil_heap. Qed.
Example C41_hypotheses : image (st_fil 3 []) (Some 0%nat) (im_hdr 0 3 3 1 1 1) 1
  /\ image (st_fil 3 []) (Some 2%nat) (im_hdr 2 3 3 3 1 4) 4 /\ grey (st_fil 3 []) (im_hdr 0 3 3 1 1 1) (cells 3 px33).
Proof. exact st_int_ok. Qed.
Example C41_values : map (fun ij => library_integral (cells 3 px33) (fst ij) (snd ij)) [(0, 0); (0, 2); (1, 1); (2, 2)] = [5; 7; 2; 470].
Proof. vm_compute. reflexivity. Qed.

(** C42.  The weighted sums are added to what the destination held. *)
Theorem C42_exact : forall e s src dst kernel ms md x kr kc K W P, image s src ms 1 -> sm_at s dst = Some md ->
  sm_chan ms = 1 \/ sm_chan ms = 3 -> colours s ms P ->
  matrix s (sm_data md) 4 (sm_rows ms) (sm_cols ms * sm_chan ms) W -> matrix s kernel 4 kr kc K ->
  sm_data ms <> sm_data md -> kernel <> sm_data md -> 0 < kr -> 0 < kc -> kr * kc <= INT_MAX ->
  sm_rows ms + kr <= INT_MAX -> sm_cols ms + kc <= INT_MAX ->
  exists s', hypercv_filter2D src dst kernel kr kc (mode_of x) e s = Ret tt s'
    /\ accumulated s dst md (sm_rows ms) (sm_cols ms) (sm_chan ms) kr kc K
         (fun c => beyond x ms (fun a b => P a b c)) W s'.
Proof. exact filter_exact. Qed.
Print Assumptions C42_exact.
(** Destination zero and integer kernel: the sum itself.  Missing: destinations that are not zero, channel counts other than 1 and 3. *)
Theorem C42_integer_kernel_partial : forall e s src dst kernel ms md x kr kc K k P, image s src ms 1 -> sm_at s dst = Some md ->
  sm_chan ms = 1 \/ sm_chan ms = 3 -> colours s ms P ->
  matrix s (sm_data md) 4 (sm_rows ms) (sm_cols ms * sm_chan ms) (fun _ _ => 0) -> matrix s kernel 4 kr kc K ->
  sm_data ms <> sm_data md -> kernel <> sm_data md -> 0 < kr -> 0 < kc -> kr * kc <= INT_MAX ->
  sm_rows ms + kr <= INT_MAX -> sm_cols ms + kc <= INT_MAX ->
  (forall m n, 0 <= m < kr -> 0 <= n < kc -> float_int (K m n) (k m n)) ->
  255 * sumz kr (fun m => sumz kc (fun n => Z.abs (k m n))) <= 16777216 ->
  exists s' W', hypercv_filter2D src dst kernel kr kc (mode_of x) e s = Ret tt s'
    /\ matrix s' (sm_data md) 4 (sm_rows ms) (sm_cols ms * sm_chan ms) W'
    /\ (forall i j c, in_image ms i j c ->
          float_int (W' i (j * sm_chan ms + c)) (weighted_sum kr kc k (beyond x ms (fun a b => P a b c)) i j)).
Proof. exact filter_integer. Qed.
Print Assumptions C42_integer_kernel_partial.
(** The constant border mode takes row or column 1 for everything outside. *)
Theorem C42_constant_border : forall e s src dst kernel ms md kr kc K W P, image s src ms 1 -> sm_at s dst = Some md ->
  sm_chan ms = 1 \/ sm_chan ms = 3 -> colours s ms P ->
  matrix s (sm_data md) 4 (sm_rows ms) (sm_cols ms * sm_chan ms) W -> matrix s kernel 4 kr kc K ->
  sm_data ms <> sm_data md -> kernel <> sm_data md -> 0 < kr -> 0 < kc -> kr * kc <= INT_MAX ->
  sm_rows ms + kr <= INT_MAX -> sm_cols ms + kc <= INT_MAX -> 2 <= sm_rows ms -> 2 <= sm_cols ms ->
  exists s', hypercv_filter2D src dst kernel kr kc 0 e s = Ret tt s'
    /\ accumulated s dst md (sm_rows ms) (sm_cols ms) (sm_chan ms) kr kc K
         (fun c => beyond_one ms (fun a b => P a b c)) W s'.
Proof. exact filter_constant. Qed.
Print Assumptions C42_constant_border.
(** Any other number of channels: nothing is computed, the destination becomes float all the same. *)
Theorem C42_other_channels : forall e s src dst kernel ms md x kr kc, image s src ms 1 -> sm_at s dst = Some md ->
  sm_chan ms <> 1 -> sm_chan ms <> 3 -> src <> dst -> kernel <> None -> 0 < kr -> 0 < kc ->
  sm_rows ms + kr <= INT_MAX -> sm_cols ms + kc <= INT_MAX ->
  exists s', hypercv_filter2D src dst kernel kr kc (mode_of x) e s = Ret tt s'
    /\ unchanged_except [dst] s s' /\ same_blocks s s'.
Proof. exact filter_other. Qed.
Print Assumptions C42_other_channels.
Theorem C42_refuted : exists e s src dst kernel ms md K k W P s',
  image s src ms 1 /\ sm_at s dst = Some md /\ sm_chan ms = 1 /\ colours s ms P
  /\ matrix s (sm_data md) 4 (sm_rows ms) (sm_cols ms) W /\ matrix s kernel 4 3 3 K
  /\ (forall m n, 0 <= m < 3 -> 0 <= n < 3 -> float_int (K m n) (k m n))
  /\ hypercv_filter2D src dst kernel 3 3 (mode_of Replicate) e s = Ret tt s'
  /\ (exists w, word_at s' (sm_data md) 0 4 = Some w
        /\ float_int w 5 /\ weighted_sum 3 3 k (beyond Replicate ms (fun a b => P a b 0)) 0 0 = 4).
Proof. exact filter_wrong. Qed.
Print Assumptions C42_refuted.
Example C42_hypotheses : image (st_fil 4 []) (Some 0%nat) (im_hdr 0 3 3 1 1 1) 1
  /\ colours (st_fil 4 []) (im_hdr 0 3 3 1 1 1) (fun i j _ => cells 3 px33 i j)
  /\ matrix (st_fil 4 []) (Some 3%nat) 4 3 3 (fun _ _ => 0)
  /\ matrix (st_fil 4 []) (Some 4%nat) 4 3 3 (cells 3 (fw [0; 0; 0; 0; 2; -1; 0; 0; 0])).
Proof. destruct (st_fil_ok []) as (A & _ & B & C). split; [exact A|]. split; [exact B|]. split; [exact st_fil_zero|exact C]. Qed.
Example C42_sums : map (fun ij => weighted_sum 3 3 (cells 3 [0; 0; 0; 0; 2; -1; 0; 0; 0])
    (beyond Reflect (im_hdr 0 3 3 1 1 1) (cells 3 px33)) (fst ij) (snd ij)) [(0, 0); (1, 1); (2, 2)] = [4; -198; 9].
Proof. vm_compute. reflexivity. Qed.

(** C44.  No image gets through. *)
Theorem C44_medianblur_exits : forall fuel e s src dst size, nonnull src = true -> hypercv_medianblur fuel src dst size e s = Exit.
Proof. exact medianblur_exit. Qed.
Print Assumptions C44_medianblur_exits.
Theorem C44_meanblur_exits : forall e s src dst size, nonnull src = true -> hypercv_meanblur src dst size e s = Exit.
Proof. exact meanblur_exit. Qed.
Print Assumptions C44_meanblur_exits.
Theorem C44_medianblur_null : forall fuel e s dst size,
  hypercv_medianblur fuel None dst size e s = if Z.rem size 2 =? 1 then UB else Exit.
Proof. exact medianblur_null. Qed.
Print Assumptions C44_medianblur_null.
Theorem C44_meanblur_null : forall e s dst size, hypercv_meanblur None dst size e s = UB.
Proof. exact meanblur_null. Qed.
Print Assumptions C44_meanblur_null.
(** The helper that looks for the median never returns either. *)
Theorem C44_median_never : forall fuel array size e s v s', 2 <= size ->
  median_member fuel array size e s <> Ret v s'.
Proof. exact median_never. Qed.
Print Assumptions C44_median_never.
Theorem C44_refuted : exists e s src dst m, image s src m 1 /\ image s dst m 1
  /\ hypercv_meanblur src dst 3 e s = Exit /\ (forall fuel, hypercv_medianblur fuel src dst 3 e s = Exit).
Proof. exact blur_wrong. Qed.
Print Assumptions C44_refuted.

(** C47.  All border modes but the constant one. *)
Theorem C47_sobel : forall e s src dst ms md x P thr, image s src ms 1 -> image s dst md 1 ->
  sm_chan ms = 1 -> sm_chan md = 1 -> sm_rows ms = sm_rows md -> sm_cols ms = sm_cols md ->
  sm_data ms <> sm_data md -> grey s ms P ->
  exists s', hypercv_sobel src dst thr (mode_of x) e s = Ret tt s' /\ painted s md (edge thr (beyond x ms P)) s'.
Proof. exact sobel_exact. Qed.
Print Assumptions C47_sobel.
(** The constant border reads row or column 1 for everything outside ... *)
Theorem C47_constant_border : forall e s src dst ms md P thr, image s src ms 1 -> image s dst md 1 ->
  sm_chan ms = 1 -> sm_chan md = 1 -> sm_rows ms = sm_rows md -> sm_cols ms = sm_cols md ->
  sm_data ms <> sm_data md -> grey s ms P -> 2 <= sm_rows ms -> 2 <= sm_cols ms ->
  exists s', hypercv_sobel src dst thr 0 e s = Ret tt s' /\ painted s md (edge thr (beyond_one ms P)) s'.
Proof. exact sobel_constant. Qed.
Print Assumptions C47_constant_border.
(** ... which a single row does not have. *)
Theorem C47_one_row_undefined : forall e s src dst ms md q f thr, image s src ms 1 -> sm_at s dst = Some md ->
  sm_chan ms = 1 -> sm_rows ms = sm_rows md -> sm_cols ms = sm_cols md ->
  bytes_at s (sm_data ms) = Some (q, sm_rows ms * sm_cols ms, f) -> sm_rows ms = 1 ->
  hypercv_sobel src dst thr 0 e s = UB.
Proof. exact sobel_constant_ub. Qed.
Print Assumptions C47_one_row_undefined.
Theorem C47_refuted : exists e s src dst ms md, image s src ms 1 /\ image s dst md 1 /\ sm_chan ms = 1 /\ sm_chan md = 1
  /\ sm_rows ms = sm_rows md /\ sm_cols ms = sm_cols md /\ hypercv_sobel src dst 10 0 e s = UB.
Proof. exact sobel_wrong. Qed.
Print Assumptions C47_refuted.
Example C47_hypotheses : image st_grad (Some 0%nat) (im_hdr 0 3 3 1 1 1) 1 /\ image st_grad (Some 2%nat) (im_hdr 2 3 3 1 1 1) 1
  /\ grey st_grad (im_hdr 0 3 3 1 1 1) (cells 3 px33).
Proof. exact st_grad_ok. Qed.
Example C47_values : map (fun ij => edge 300 (beyond Replicate (im_hdr 0 3 3 1 1 1) (cells 3 px33)) (fst ij) (snd ij))
  [(0, 0); (0, 1); (1, 1); (2, 2)] = [0; 0; 0; 255].
Proof. vm_compute. reflexivity. Qed.

(** C48.  Kernel size 2 doubles the result; sizes other than 2 do not matter. *)
Theorem C48_laplacian : forall e s src dst ms md x P k, image s src ms 1 -> image s dst md 1 ->
  sm_chan ms = 1 -> sm_chan md = 1 -> sm_rows ms = sm_rows md -> sm_cols ms = sm_cols md ->
  sm_data ms <> sm_data md -> grey s ms P -> 0 < k ->
  exists s', hypercv_laplacian src dst k (mode_of x) e s = Ret tt s'
    /\ painted s md (fun i j => clamp 0 255 ((if k =? 2 then 2 else 1) * laplace (beyond x ms P) i j)) s'.
Proof. exact laplacian_exact. Qed.
Print Assumptions C48_laplacian.
Theorem C48_constant_border : forall e s src dst ms md P k, image s src ms 1 -> image s dst md 1 ->
  sm_chan ms = 1 -> sm_chan md = 1 -> sm_rows ms = sm_rows md -> sm_cols ms = sm_cols md ->
  sm_data ms <> sm_data md -> grey s ms P -> 0 < k -> 2 <= sm_rows ms -> 2 <= sm_cols ms ->
  exists s', hypercv_laplacian src dst k 0 e s = Ret tt s'
    /\ painted s md (fun i j => clamp 0 255 ((if k =? 2 then 2 else 1) * laplace (beyond_one ms P) i j)) s'.
Proof. exact laplacian_constant. Qed.
Print Assumptions C48_constant_border.
Theorem C48_one_row_undefined : forall e s src dst ms md q f k, image s src ms 1 -> sm_at s dst = Some md ->
  sm_chan ms = 1 -> 0 < k ->
  bytes_at s (sm_data ms) = Some (q, sm_rows ms * sm_cols ms, f) -> sm_rows ms = 1 ->
  hypercv_laplacian src dst k 0 e s = UB.
Proof. exact laplacian_constant_ub. Qed.
Print Assumptions C48_one_row_undefined.
Theorem C48_refuted : exists e s src dst ms md, image s src ms 1 /\ image s dst md 1 /\ sm_chan ms = 1 /\ sm_chan md = 1
  /\ sm_rows ms = sm_rows md /\ sm_cols ms = sm_cols md /\ hypercv_laplacian src dst 3 0 e s = UB.
Proof. exact laplacian_wrong. Qed.
Print Assumptions C48_refuted.
Example C48_hypotheses : image st_grad (Some 0%nat) (im_hdr 0 3 3 1 1 1) 1 /\ image st_grad (Some 2%nat) (im_hdr 2 3 3 1 1 1) 1
  /\ grey st_grad (im_hdr 0 3 3 1 1 1) (cells 3 px33).
Proof. exact st_grad_ok. Qed.
Example C48_values : map (fun ij => laplace (beyond Replicate (im_hdr 0 3 3 1 1 1) (cells 3 px33)) (fst ij) (snd ij))
  [(0, 0); (1, 0); (1, 1); (2, 2)] = [-4; 261; 205; 185].
Proof. vm_compute. reflexivity. Qed.
