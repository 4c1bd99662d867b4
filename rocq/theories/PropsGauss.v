(** * Property C43: Gaussian smoothing. *)
From Verif Require Import Base ModelFloat ModelDouble ModelCore ModelFilter ModelGauss SpecBase SpecNum SpecMatrix SpecPixel SpecImage2 SpecFilter SpecGauss SpecCxx
  Fixtures Fixtures2 ProofEx ProofBlur6 ProofEx16 ProofBlur7 ProofBlur8 ProofEx32.
From Coq Require Import List Lia Floats.SpecFloat.
Import ListNotations.
Open Scope Z_scope.

(** C43.  Every size, standard deviation and exp: the weights read the same from both ends. *)
Theorem C43_symmetric : forall exp_ e s n sigma ktype es, env_ok e -> heap_ok s -> 0 < n ->
  (ktype = 4 /\ es = 4) \/ (ktype = 5 /\ es = 8) -> n * es + 96 <= 2147483647 ->
  exists p m s', gaussian_kernel exp_ n sigma ktype e s = Ret p s'
    /\ sm_at s' p = Some m /\ sm_rows m = 1 /\ sm_cols m = n /\ sm_type m = ktype
    /\ symmetric_words s' (sm_data m) es n /\ old_unchanged s s' /\ files s' = files s.
Proof. exact kernel_symmetric. Qed.
Print Assumptions C43_symmetric.
(** The tabulated kernels add up to 1 exactly ... *)
Theorem C43_table_sum : forall exp_ e s n sigma a ktype es, env_ok e -> heap_ok s -> n = 1 \/ n = 3 \/ n = 5 \/ n = 7 ->
  (ktype = 4 /\ es = 4) \/ (ktype = 5 /\ es = 8) -> db_ok sigma -> sf_num sigma = Some a -> a <= 0 ->
  exists p m s', gaussian_kernel exp_ n sigma ktype e s = Ret p s' /\ sm_at s' p = Some m
    /\ weight_sum s' (sm_data m) es n = Some sf_one.
Proof. exact kernel_table_one. Qed.
Print Assumptions C43_table_sum.
(** ... the computed ones to 1 within 1/4096.  Missing: exactly 1 (refuted), extreme standard deviations (refuted), sizes above 2047, double kernels. *)
Theorem C43_near_one_partial : forall exp_ e s n sigma, env_ok e -> heap_ok s -> 0 < n < 2048 -> Z.odd n = true ->
  exp_like exp_ -> good_sigma sigma ->
  exists p m s' z, gaussian_kernel exp_ n sigma 4 e s = Ret p s' /\ sm_at s' p = Some m
    /\ weight_sum s' (sm_data m) 4 n = Some z /\ Z.abs (z - sf_one) * 4096 <= sf_one.
Proof. exact kernel_near_one. Qed.
Print Assumptions C43_near_one_partial.
(** Standard deviation one half: 1 + 2^-26. *)
Theorem C43_sum_refuted : exists exp_ e s sigma p m s' z, exp_like exp_
  /\ exp_ (dlit (-2) 1) = dlit 1353352832366127 10000000000000000 /\ env_ok e /\ heap_ok s /\ good_sigma sigma
  /\ gaussian_kernel exp_ 3 sigma 4 e s = Ret p s' /\ sm_at s' p = Some m /\ weight_sum s' (sm_data m) 4 3 = Some z
  /\ z * 67108864 = sf_one * 67108865.
Proof. exact kernel_not_one. Qed.
Print Assumptions C43_sum_refuted.
(** A constant image, also in place: stays constant; the temporary image and both kernels are never freed.  Missing: extreme standard deviations (refuted), kernels above 2047, a NULL destination (C43_null_constant_refuted), constant border mode with one row or column. *)
Theorem C43_constant_partial : forall exp_ e s src dst ms md v kw kh s1 s2 x,   env_ok e -> heap_ok s -> image s src ms 1 -> image s dst md 1 ->
  sm_rows md = sm_rows ms -> sm_cols md = sm_cols ms -> sm_chan md = sm_chan ms ->
  sm_chan ms = 1 \/ sm_chan ms = 3 -> (forall i j c, in_image ms i j c -> pix s ms i j c = Some (v c)) ->
  sm_rows ms * sm_cols ms * 4 * sm_chan ms + 96 <= 2147483647 ->
  0 < kw < 2048 -> Z.odd kw = true -> 0 < kh < 2048 -> Z.odd kh = true -> exp_like exp_ -> good_sigma s1 -> good_sigma s2 ->
  exists s', hypercv_gaussian_blur exp_ src dst kw kh s1 s2 (mode_of x) e s = Ret tt s' /\ kept s md v s' /\ ~ no_leak s s'.
Proof. exact blur_constant. Qed.
Print Assumptions C43_constant_partial.
(** The same for the constant border mode, which reads row and column 1. *)
Theorem C43_constant_border : forall exp_ e s src dst ms md v kw kh s1 s2,   env_ok e -> heap_ok s -> image s src ms 1 -> image s dst md 1 ->
  sm_rows md = sm_rows ms -> sm_cols md = sm_cols ms -> sm_chan md = sm_chan ms ->
  sm_chan ms = 1 \/ sm_chan ms = 3 -> (forall i j c, in_image ms i j c -> pix s ms i j c = Some (v c)) ->
  sm_rows ms * sm_cols ms * 4 * sm_chan ms + 96 <= 2147483647 -> 2 <= sm_rows ms -> 2 <= sm_cols ms ->
  0 < kw < 2048 -> Z.odd kw = true -> 0 < kh < 2048 -> Z.odd kh = true -> exp_like exp_ -> good_sigma s1 -> good_sigma s2 ->
  exists s', hypercv_gaussian_blur exp_ src dst kw kh s1 s2 0 e s = Ret tt s' /\ kept s md v s' /\ ~ no_leak s s'.
Proof. exact blur_constant_border. Qed.
Print Assumptions C43_constant_border.
(** Standard deviation 2^-600: a constant image 7 becomes 0. *)
Theorem C43_tiny_sigma_refuted : exists exp_ e s src dst ms md s', exp_like exp_ /\ exp_ S754_nan = S754_nan
  /\ env_ok e /\ heap_ok s /\ image s src ms 1 /\ image s dst md 1
  /\ sm_rows md = sm_rows ms /\ sm_cols md = sm_cols ms /\ sm_chan md = sm_chan ms /\ sm_chan ms = 1
  /\ sf_num tiny = Some (2 ^ 474) /\ pix s ms 0 0 0 = Some 7
  /\ hypercv_gaussian_blur exp_ src dst 1 1 tiny tiny 1 e s = Ret tt s' /\ pix s' md 0 0 0 = Some 0.
Proof. exact blur_tiny. Qed.
Print Assumptions C43_tiny_sigma_refuted.
(** Any image and any two kernels. *)
Theorem C43_with_kernel : forall e s src dst kx ky ms md mx my KX KY P x,   env_ok e -> heap_ok s ->
  image s src ms 1 -> image s dst md 1 -> sm_rows md = sm_rows ms -> sm_cols md = sm_cols ms -> sm_chan md = sm_chan ms ->
  sm_chan ms = 1 \/ sm_chan ms = 3 -> colours s ms P ->
  sm_rows ms * sm_cols ms * 4 * sm_chan ms + 96 <= 2147483647 ->
  sm_at s kx = Some mx -> sm_at s ky = Some my -> 0 < sm_cols mx -> 0 < sm_cols my ->
  matrix s (sm_data mx) 4 1 (sm_cols mx) (fun _ => KX) -> matrix s (sm_data my) 4 1 (sm_cols my) (fun _ => KY) ->
  sm_data my <> sm_data md ->
  sm_cols ms + sm_cols mx <= 2147483647 -> sm_rows ms + sm_cols my <= 2147483647 ->
  exists s', hypercv_gaussian_blur_with_kernel src dst kx ky (mode_of x) e s = Ret tt s'
    /\ smoothed s md (smooth2 (sm_cols mx) (sm_cols my) KX KY (source_index x (sm_rows ms)) (source_index x (sm_cols ms)) P) s'
    /\ ~ no_leak s s'.
Proof. exact blur_exact. Qed.
Print Assumptions C43_with_kernel.
(** With a NULL destination the result is left in a new matrix the caller never learns of. *)
Theorem C43_null_refuted : forall e s src kx ky ms mx my KX KY P x, env_ok e -> heap_ok s ->
  image s src ms 1 -> sm_chan ms = 1 \/ sm_chan ms = 3 -> colours s ms P ->
  sm_rows ms * sm_cols ms * 4 * sm_chan ms + 96 <= 2147483647 ->
  sm_at s kx = Some mx -> sm_at s ky = Some my -> 0 < sm_cols mx -> 0 < sm_cols my ->
  matrix s (sm_data mx) 4 1 (sm_cols mx) (fun _ => KX) -> matrix s (sm_data my) 4 1 (sm_cols my) (fun _ => KY) ->
  sm_cols ms + sm_cols mx <= 2147483647 -> sm_rows ms + sm_cols my <= 2147483647 ->
  exists s' p md, hypercv_gaussian_blur_with_kernel src None kx ky (mode_of x) e s = Ret tt s'
    /\ old_unchanged s s' /\ files s' = files s /\ fresh_in s p /\ sm_at s' p = Some md
    /\ sm_rows md = sm_rows ms /\ sm_cols md = sm_cols ms /\ sm_chan md = sm_chan ms
    /\ forall i j c, in_image ms i j c -> exists b, pix s' md i j c = Some b
         /\ shown_as (smooth2 (sm_cols mx) (sm_cols my) KX KY (source_index x (sm_rows ms)) (source_index x (sm_cols ms)) P c i j) b.
Proof. exact blur_lost. Qed.
Print Assumptions C43_null_refuted.
Example C43_null_hypotheses : heap_ok st_kern /\ image st_kern (Some 0%nat) (im_hdr 0 2 2 1 1 1) 1
  /\ colours st_kern (im_hdr 0 2 2 1 1 1) (fun i j _ => 120 * i + 60 * j)
  /\ sm_at st_kern (Some 2%nat) = Some (im_hdr 2 1 3 4 1 4)
  /\ matrix st_kern (Some 3%nat) 4 1 3 (fun _ j => if j =? 1 then 1056964608 else 1048576000).
Proof. exact st_kern_ok. Qed.
(** The whole call, all border modes: a constant image with a NULL destination. *)
Theorem C43_null_constant_refuted : forall exp_ e s src ms v kw kh s1 s2 ty, env_ok e -> heap_ok s -> image s src ms 1 ->
  sm_chan ms = 1 \/ sm_chan ms = 3 -> (forall i j c, in_image ms i j c -> pix s ms i j c = Some (v c)) ->
  sm_rows ms * sm_cols ms * 4 * sm_chan ms + 96 <= 2147483647 ->
  0 < kw < 2048 -> Z.odd kw = true -> 0 < kh < 2048 -> Z.odd kh = true -> exp_like exp_ -> good_sigma s1 -> good_sigma s2 ->
  (exists x, ty = mode_of x) \/ ty = 0 /\ 2 <= sm_rows ms /\ 2 <= sm_cols ms ->
  exists s' p md, hypercv_gaussian_blur exp_ src None kw kh s1 s2 ty e s = Ret tt s'
    /\ old_unchanged s s' /\ files s' = files s /\ fresh_in s p /\ sm_at s' p = Some md
    /\ sm_rows md = sm_rows ms /\ sm_cols md = sm_cols ms /\ sm_chan md = sm_chan ms
    /\ forall i j c, in_image ms i j c -> pix s' md i j c = Some (v c).
Proof. exact blur_constant_lost. Qed.
Print Assumptions C43_null_constant_refuted.
Example C43_hypotheses : env_ok ex_env /\ heap_ok (st_flat 2 3 3)
  /\ image (st_flat 2 3 3) (Some 0%nat) (im_hdr 0 2 3 1 3 1) 1 /\ image (st_flat 2 3 3) (Some 2%nat) (im_hdr 2 2 3 1 3 1) 1
  /\ (forall i j c, in_image (im_hdr 0 2 3 1 3 1) i j c -> pix (st_flat 2 3 3) (im_hdr 0 2 3 1 3 1) i j c = Some 7)
  /\ exp_like ex_exp /\ good_sigma (dlit 1 2).
Proof.
  split; [exact ex_env_ok|]. split; [apply st_flat_heap|]. destruct st_flat_ok as (A & B & C).
  split; [exact A|]. split; [exact B|]. split; [exact C|]. split; [exact ex_exp_like|exact half_good].
Qed.
(** Weights 1/4, 1/2, 1/4 in both directions at the corner of an image replicated beyond its borders. *)
Example C43_values : let K k := if k =? 1 then 1056964608 else 1048576000 in
  let P i j (c : Z) := 16 * i + 64 * j in
  sf_num (smooth2 3 3 K K (source_index Replicate 2) (source_index Replicate 2) P 0 0 1) = Some (52 * sf_one).
Proof. vm_compute. reflexivity. Qed.
