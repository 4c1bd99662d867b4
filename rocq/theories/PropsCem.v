(** * Properties C60 and C74: constrained energy minimisation and correlation matrices. *)
From Verif Require Import Base ModelFloat ModelDouble ModelCore ModelImage ModelMatrix ModelCem SpecBase SpecNum SpecMatrix SpecCorr SpecCxx
  Fixtures Fixtures2 ProofEx ProofCem ProofCorr ProofEx15.
From Coq Require Import List Lia Floats.SpecFloat.
Import ListNotations.
Open Scope Z_scope.

(** C60.  A valid two-band cube and a readable spectrum: undefined. *)
Theorem C60_memory_refuted : exists e s p m l,
  env_ok e /\ heap_ok s /\ cube s p m l 4 /\ hm_type m = 4 /\ hm_data m <> hm_wave m /\ hm_wave m <> None
  /\ readable s (Some 3%nat) (hm_bands m * 4) /\ hyper_mat_cem p (Some 3%nat) e s = UB.
Proof. exact cem_ub. Qed.
Print Assumptions C60_memory_refuted.
(** Every cube of more than one sample: the function does not return (the output array of the first product is the inverse, and its first factor is the array of one row). *)
Theorem C60_never_refuted : forall e s p m l spectral, env_ok e -> heap_ok s -> cube s p m l 4 -> hm_data m <> hm_wave m -> hm_wave m <> None ->
  1 < hm_samples m * hm_lines m * hm_bands m -> no_return (hyper_mat_cem p spectral e s).
Proof. exact cem_never. Qed.
Print Assumptions C60_never_refuted.
(** One sample, where it does return: the spectrum 1.0 of the caller is 3.0 afterwards. *)
Theorem C60_spectrum_refuted : exists e s p m l q s',
  env_ok e /\ heap_ok s /\ cube s p m l 4 /\ hyper_mat_cem p (Some 3%nat) e s = Ret q s'
  /\ hm_bands m = 1 /\ word_at s (Some 3%nat) 0 4 = Some 1065353216 /\ word_at s' (Some 3%nat) 0 4 = Some 1077936128.
Proof. exact cem_spectrum. Qed.
Print Assumptions C60_spectrum_refuted.
Example C60_hypotheses : env_ok ones_env /\ heap_ok (cem_st 2 1 2 BIL) /\ cube (cem_st 2 1 2 BIL) (Some 0%nat) (cem_hdr 2 1 2 BIL) BIL 4
  /\ hm_data (cem_hdr 2 1 2 BIL) <> hm_wave (cem_hdr 2 1 2 BIL) /\ hm_wave (cem_hdr 2 1 2 BIL) <> None.
Proof. split; [exact ones_env_ok|]. split; [apply cem_heap|]. split; [exact cem_cube|]. split; discriminate. Qed.

(** C74.  The integer types: the quotient of the product by n, as long as the sums fit the element type. *)
Theorem C74_integers : forall es sg f e s x y z l n m X Y W,   In (es, sg, f) [ (1, false, correlation_matrix_uchar); (1, true, correlation_matrix_char); (2, true, correlation_matrix_short);
    (2, false, correlation_matrix_ushort); (4, true, correlation_matrix_int); (4, false, correlation_matrix_uint) ] -> 0 <= l -> 0 < n <= 2147483647 -> 0 <= m ->
  l * n <= 2147483647 -> n * m <= 2147483647 -> l * m <= 2147483647 ->
  matrix s x es l n X -> matrix s y es n m Y -> matrix s z es l m W -> x <> z -> y <> z ->
  (forall i j t, 0 <= i < l -> 0 <= j < m -> 0 <= t < n ->
     fits sg es (value sg es (W i j) + sumz (t + 1) (fun t => value sg es (X i t) * value sg es (Y t j)))
     /\ (es = 4 -> sg = true -> int_range (value sg es (X i t) * value sg es (Y t j)))) ->
  exists s' V, f z x y l n m e s = Ret tt s'
    /\ matrix s' z es l m V
    /\ (forall i j, 0 <= i < l -> 0 <= j < m ->
          value sg es (V i j) = Z.quot (value sg es (W i j) + sumz n (fun t => value sg es (X i t) * value sg es (Y t j))) n)
    /\ only_bytes s z 0 (l * m * es) s'.
Proof. exact corr_int. Qed.
Print Assumptions C74_integers.
(** float: the rounded sum divided by n and rounded. *)
Theorem C74_float : forall e s x y z l n m X Y W,   0 <= l -> 0 < n <= 2147483647 -> 0 <= m -> l * n <= 2147483647 -> n * m <= 2147483647 -> l * m <= 2147483647 ->
  matrix s x 4 l n X -> matrix s y 4 n m Y -> matrix s z 4 l m W -> x <> z -> y <> z ->
  exists s', correlation_matrix_float z x y l n m e s = Ret tt s'
    /\ matrix s' z 4 l m (fun i j => bits_of_fl (fl_div
         (foldz n (fun a t => fl_add a (fl_mul (fl_of_bits (X i t)) (fl_of_bits (Y t j)))) (fl_of_bits (W i j))) (fl_of_Z n)) mod 4294967296)
    /\ only_bytes s z 0 (l * m * 4) s'.
Proof. exact corr_float. Qed.
Print Assumptions C74_float.
(** ... which is exact for integers within the precision that n divides. *)
Theorem C74_float_exact : forall e s x y z l n m X Y W X' Y' W' Q,   0 <= l -> 0 < n <= 16777216 -> 0 <= m -> l * n <= 2147483647 -> n * m <= 2147483647 -> l * m <= 2147483647 ->
  matrix s x 4 l n X -> matrix s y 4 n m Y -> matrix s z 4 l m W -> x <> z -> y <> z ->
  (forall i t, 0 <= i < l -> 0 <= t < n -> float_int (X i t) (X' i t)) ->
  (forall t j, 0 <= t < n -> 0 <= j < m -> float_int (Y t j) (Y' t j)) ->
  (forall i j, 0 <= i < l -> 0 <= j < m -> float_int (W i j) (W' i j)) ->
  (forall i j t, 0 <= i < l -> 0 <= j < m -> 0 <= t < n ->
     Z.abs (X' i t * Y' t j) <= 16777216
     /\ Z.abs (W' i j + sumz (t + 1) (fun t => X' i t * Y' t j)) <= 16777216) ->
  (forall i j, 0 <= i < l -> 0 <= j < m -> W' i j + sumz n (fun t => X' i t * Y' t j) = n * Q i j) ->
  exists s' V, correlation_matrix_float z x y l n m e s = Ret tt s'
    /\ matrix s' z 4 l m V /\ (forall i j, 0 <= i < l -> 0 <= j < m -> float_int (V i j) (Q i j))
    /\ only_bytes s z 0 (l * m * 4) s'.
Proof. exact corr_float_int. Qed.
Print Assumptions C74_float_exact.
(** A sum that leaves the element type although the quotient (136) fits it: 8 is stored. *)
Theorem C74_uchar_refuted : exists e s s' x y z X Y,
  env_ok e /\ heap_ok s /\ matrix s x 1 1 2 X /\ matrix s y 1 2 1 Y /\ matrix s z 1 1 1 (fun _ _ => 0) /\ x <> z /\ y <> z
  /\ correlation_matrix_uchar z x y 1 2 1 e s = Ret tt s'
  /\ sumz 2 (fun t => X 0 t * Y t 0) / 2 = 136 /\ word_at s' z 0 1 = Some 8.
Proof. exact corr_wraps. Qed.
Print Assumptions C74_uchar_refuted.
(** What the result held before the call is averaged in. *)
Theorem C74_initial_refuted : exists e s s' x y z X Y w,
  env_ok e /\ heap_ok s /\ matrix s x 1 1 2 X /\ matrix s y 1 2 1 Y /\ matrix s z 1 1 1 (fun _ _ => w) /\ x <> z /\ y <> z
  /\ correlation_matrix_uchar z x y 1 2 1 e s = Ret tt s'
  /\ sumz 2 (fun t => X 0 t * Y t 0) / 2 = 7 /\ word_at s' z 0 1 = Some 27.
Proof. exact corr_adds. Qed.
Print Assumptions C74_initial_refuted.
Example C74_hypotheses : matrix (corr_st 2 4 3 2 40) (Some 0%nat) 1 1 2 (fun _ => two 2 4)
  /\ matrix (corr_st 2 4 3 2 40) (Some 1%nat) 1 2 1 (fun i _ => two 3 2 i)
  /\ matrix (corr_st 2 4 3 2 40) (Some 2%nat) 1 1 1 (fun _ _ => 40)
  /\ fits true 1 (40 + sumz 2 (fun t => value true 1 (two 2 4 t) * value true 1 (two 3 2 t))).
Proof. destruct corr_mats2 as (H1 & H2 & H3). split; [exact H1|]. split; [exact H2|]. split; [exact H3|]. split; vm_compute; [discriminate|reflexivity]. Qed.
Example C74_float_hypotheses : matrix (cem_st 1 1 1 BSQ) (Some 3%nat) 4 1 1 (fun _ _ => 1065353216) /\ float_int 1065353216 1.
Proof. split; [|reflexivity]. intros i j Hi Hj. assert (i = 0) as -> by lia. assert (j = 0) as -> by lia. reflexivity. Qed.
