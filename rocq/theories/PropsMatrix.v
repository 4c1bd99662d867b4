(** * Properties C39, C40: matrix product, transpose, inversion. *)
From Verif Require Import Base ModelFloat ModelDouble ModelCore ModelMatrix SpecBase SpecNum SpecMatrix Fixtures Fixtures2
  ProofEx ProofEx4 ProofMatrix ProofGauss ProofInvert ProofEx6.
From Coq Require Import Floats.SpecFloat Field_theory QArith.Qcanon.
Open Scope Z_scope.

(** C39, types that wrap: every cell gets the sum modulo 2^(8 es), whatever the contents. *)
Theorem C39_product_wraps : forall e s x y z m k n X Y W es f,
  In (es, f) [ (1, MulMatrix_char); (1, MulMatrix_uchar); (2, MulMatrix_short); (4, MulMatrix_uint) ] ->
  0 <= m -> 0 <= k -> 0 <= n -> m * k <= 2147483647 -> k * n <= 2147483647 -> m * n <= 2147483647 ->
  matrix s x es m k X -> matrix s y es k n Y -> matrix s z es m n W -> x <> z -> y <> z ->
  exists s', f x y z m k n e s = Ret tt s'
    /\ matrix s' z es m n (fun i j => (W i j + sumz k (fun t => X i t * Y t j)) mod 256 ^ es)
    /\ only_bytes s z 0 (m * n * es) s'.
Proof. exact mul_wrap. Qed.
Print Assumptions C39_product_wraps.
(** int: as long as no product or partial sum overflows. *)
Theorem C39_product_int : forall e s x y z m k n X Y W,
  0 <= m -> 0 <= k -> 0 <= n -> m * k <= 2147483647 -> k * n <= 2147483647 -> m * n <= 2147483647 ->
  matrix s x 4 m k X -> matrix s y 4 k n Y -> matrix s z 4 m n W -> x <> z -> y <> z ->
  (forall i j t, 0 <= i < m -> 0 <= j < n -> 0 <= t < k ->
     int_range (signed_word 4 (X i t) * signed_word 4 (Y t j))
     /\ int_range (signed_word 4 (W i j) + sumz (t + 1) (fun t => signed_word 4 (X i t) * signed_word 4 (Y t j)))) ->
  exists s' V, MulMatrix_int x y z m k n e s = Ret tt s'
    /\ matrix s' z 4 m n V
    /\ (forall i j, 0 <= i < m -> 0 <= j < n ->
          signed_word 4 (V i j) = signed_word 4 (W i j) + sumz k (fun t => signed_word 4 (X i t) * signed_word 4 (Y t j)))
    /\ only_bytes s z 0 (m * n * 4) s'.
Proof. exact mulm_int. Qed.
Print Assumptions C39_product_int.
(** unsigned short: the product is computed in int, which 65535 * 65535 overflows. *)
Theorem C39_product_ushort_partial : forall e s x y z m k n X Y W,
  0 <= m -> 0 <= k -> 0 <= n -> m * k <= 2147483647 -> k * n <= 2147483647 -> m * n <= 2147483647 ->
  matrix s x 2 m k X -> matrix s y 2 k n Y -> matrix s z 2 m n W -> x <> z -> y <> z ->
  (forall i j t, 0 <= i < m -> 0 <= j < n -> 0 <= t < k -> X i t * Y t j + 65535 <= 2147483647) ->
  exists s', MulMatrix_ushort x y z m k n e s = Ret tt s'
    /\ matrix s' z 2 m n (fun i j => (W i j + sumz k (fun t => X i t * Y t j)) mod 256 ^ 2)
    /\ only_bytes s z 0 (m * n * 2) s'.
Proof. exact mul_ushort. Qed.
Print Assumptions C39_product_ushort_partial.
Theorem C39_ushort_refuted : exists e s x y z m k n X Y W, env_ok e /\ heap_ok s
  /\ matrix s x 2 m k X /\ matrix s y 2 k n Y /\ matrix s z 2 m n W /\ x <> z /\ y <> z
  /\ m = 1 /\ k = 1 /\ n = 1 /\ MulMatrix_ushort x y z m k n e s = UB.
Proof. exact ushort_refuted. Qed.
Print Assumptions C39_ushort_refuted.
(** float, double: the rounded products are added in the order of the index ... *)
Theorem C39_product_float : forall e s x y z m k n X Y W,
  0 <= m -> 0 <= k -> 0 <= n -> m * k <= 2147483647 -> k * n <= 2147483647 -> m * n <= 2147483647 ->
  matrix s x 4 m k X -> matrix s y 4 k n Y -> matrix s z 4 m n W -> x <> z -> y <> z ->
  exists s' V, MulMatrix_float x y z m k n e s = Ret tt s'
    /\ matrix s' z 4 m n V
    /\ (forall i j, 0 <= i < m -> 0 <= j < n ->
          fl_of_bits (V i j) = foldz k (fun a t => fl_add a (fl_mul (fl_of_bits (X i t)) (fl_of_bits (Y t j)))) (fl_of_bits (W i j)))
    /\ only_bytes s z 0 (m * n * 4) s'.
Proof. exact mul_float. Qed.
Print Assumptions C39_product_float.
Theorem C39_product_double : forall e s x y z m k n X Y W,
  0 <= m -> 0 <= k -> 0 <= n -> m * k <= 2147483647 -> k * n <= 2147483647 -> m * n <= 2147483647 ->
  matrix s x 8 m k X -> matrix s y 8 k n Y -> matrix s z 8 m n W -> x <> z -> y <> z ->
  exists s' V, MulMatrix_double x y z m k n e s = Ret tt s'
    /\ matrix s' z 8 m n V
    /\ (forall i j, 0 <= i < m -> 0 <= j < n ->
          db_of_bits (V i j) = foldz k (fun a t => db_add a (db_mul (db_of_bits (X i t)) (db_of_bits (Y t j)))) (db_of_bits (W i j)))
    /\ only_bytes s z 0 (m * n * 8) s'.
Proof. exact mul_double. Qed.
Print Assumptions C39_product_double.
(** ... so on integers within the precision it is the matrix product. *)
Theorem C39_product_float_exact : forall e s x y z m k n X Y W X' Y' W',
  0 <= m -> 0 <= k -> 0 <= n -> m * k <= 2147483647 -> k * n <= 2147483647 -> m * n <= 2147483647 ->
  matrix s x 4 m k X -> matrix s y 4 k n Y -> matrix s z 4 m n W -> x <> z -> y <> z ->
  (forall i t, 0 <= i < m -> 0 <= t < k -> float_int (X i t) (X' i t)) ->
  (forall t j, 0 <= t < k -> 0 <= j < n -> float_int (Y t j) (Y' t j)) ->
  (forall i j, 0 <= i < m -> 0 <= j < n -> float_int (W i j) (W' i j)) ->
  (forall i j t, 0 <= i < m -> 0 <= j < n -> 0 <= t < k ->
     Z.abs (X' i t * Y' t j) <= 16777216
     /\ Z.abs (W' i j + sumz (t + 1) (fun t => X' i t * Y' t j)) <= 16777216) ->
  exists s' V, MulMatrix_float x y z m k n e s = Ret tt s'
    /\ matrix s' z 4 m n V
    /\ (forall i j, 0 <= i < m -> 0 <= j < n -> float_int (V i j) (W' i j + sumz k (fun t => X' i t * Y' t j)))
    /\ only_bytes s z 0 (m * n * 4) s'.
Proof. exact mul_float_int. Qed.
Print Assumptions C39_product_float_exact.
Theorem C39_product_double_exact : forall e s x y z m k n X Y W X' Y' W',
  0 <= m -> 0 <= k -> 0 <= n -> m * k <= 2147483647 -> k * n <= 2147483647 -> m * n <= 2147483647 ->
  matrix s x 8 m k X -> matrix s y 8 k n Y -> matrix s z 8 m n W -> x <> z -> y <> z ->
  (forall i t, 0 <= i < m -> 0 <= t < k -> double_int (X i t) (X' i t)) ->
  (forall t j, 0 <= t < k -> 0 <= j < n -> double_int (Y t j) (Y' t j)) ->
  (forall i j, 0 <= i < m -> 0 <= j < n -> double_int (W i j) (W' i j)) ->
  (forall i j t, 0 <= i < m -> 0 <= j < n -> 0 <= t < k ->
     Z.abs (X' i t * Y' t j) <= 9007199254740992
     /\ Z.abs (W' i j + sumz (t + 1) (fun t => X' i t * Y' t j)) <= 9007199254740992) ->
  exists s' V, MulMatrix_double x y z m k n e s = Ret tt s'
    /\ matrix s' z 8 m n V
    /\ (forall i j, 0 <= i < m -> 0 <= j < n -> double_int (V i j) (W' i j + sumz k (fun t => X' i t * Y' t j)))
    /\ only_bytes s z 0 (m * n * 8) s'.
Proof. exact mul_double_int. Qed.
Print Assumptions C39_product_double_exact.
(** All eight transposes. *)
Theorem C39_transpose : forall es f e s x z m n X W,
  In (es, f) [ (8, TransMatrix_double); (2, TransMatrix_short); (1, TransMatrix_char); (2, TransMatrix_ushort);
    (1, TransMatrix_uchar); (4, TransMatrix_int); (4, TransMatrix_float); (4, TransMatrix_uint) ] ->
  0 <= m -> 0 <= n -> m * n <= 2147483647 -> matrix s x es m n X -> matrix s z es n m W -> x <> z ->
  exists s', f x z m n e s = Ret tt s'
    /\ matrix s' z es n m (fun i j => X j i) /\ only_bytes s z 0 (n * m * es) s'.
Proof. exact trans_all. Qed.
Print Assumptions C39_transpose.
Example C39_hypotheses : matrix st_chars (Some 0%nat) 1 2 3 (cells 3 chars_x)
  /\ matrix st_chars (Some 1%nat) 1 3 2 (cells 2 chars_y)
  /\ matrix st_chars (Some 2%nat) 1 2 2 (cells 2 chars_z)
  /\ matrix st_chars (Some 3%nat) 1 3 2 (fun _ _ => 0).
Proof. exact st_chars_ok. Qed.
Example C39_hypotheses_float : matrix st_fmul (Some 0%nat) 4 2 3 (cells 3 (fw floats_x))
  /\ matrix st_fmul (Some 1%nat) 4 3 2 (cells 2 (fw floats_y))
  /\ matrix st_fmul (Some 2%nat) 4 2 2 (cells 2 (fw floats_z)).
Proof. split; [|split]; apply st_fmul_ok. Qed.
Example C39_hypotheses_exact :
  (forall i t, 0 <= i < 2 -> 0 <= t < 3 -> float_int (cells 3 (fw floats_x) i t) (cells 3 floats_x i t))
  /\ (forall t j, 0 <= t < 3 -> 0 <= j < 2 -> float_int (cells 2 (fw floats_y) t j) (cells 2 floats_y t j))
  /\ (forall i j, 0 <= i < 2 -> 0 <= j < 2 -> float_int (cells 2 (fw floats_z) i j) (cells 2 floats_z i j))
  /\ (forall i j t, 0 <= i < 2 -> 0 <= j < 2 -> 0 <= t < 3 ->
       Z.abs (cells 3 floats_x i t * cells 2 floats_y t j) <= 16777216
       /\ Z.abs (cells 2 floats_z i j + sumz (t + 1) (fun t => cells 3 floats_x i t * cells 2 floats_y t j)) <= 16777216).
Proof. exact st_fmul_ints. Qed.
Example C39_run_char :
  match MulMatrix_char (Some 0%nat) (Some 1%nat) (Some 2%nat) 2 3 2 ex_env st_chars with
  | Ret tt s' => map (fun t => byte_at s' (Some 2%nat) t) [0; 1; 2; 3] | _ => [] end
  = [Some 30; Some 180; Some 79; Some 60].
Proof. vm_compute. reflexivity. Qed.
Example C39_run_float :
  match MulMatrix_float (Some 0%nat) (Some 1%nat) (Some 2%nat) 2 3 2 ex_env st_fmul with
  | Ret tt s' => elements s' (Some 2%nat) 4 4 | _ => [] end = map Some (fw [-2; 8; -2; 24]).
Proof. vm_compute. reflexivity. Qed.
Example C39_run_transpose :
  match TransMatrix_char (Some 0%nat) (Some 3%nat) 2 3 ex_env st_chars with
  | Ret tt s' => map (fun t => byte_at s' (Some 3%nat) t) [0; 1; 2; 3; 4; 5] | _ => [] end
  = map Some [255; 4; 2; 5; 3; 6].
Proof. vm_compute. reflexivity. Qed.

(** C40: in exact arithmetic every invertible matrix is inverted (zero pivots included) ... *)
Theorem C40_inverse : forall (F : Type) (zero one : F) (add mul sub : F -> F -> F) (opp : F -> F) (div : F -> F -> F) (inv : F -> F),
  field_theory zero one add mul sub opp div inv eq ->
  forall isz : F -> bool, (forall x, isz x = true <-> x = zero) ->
  forall m, 0 <= m -> forall A B : Z -> F, inverse_of zero one add mul m B A ->
  exists res mat', gauss_jordan (exact_arith zero one add mul opp inv isz) m A = (true, (res, mat'))
    /\ inverse_of zero one add mul m res A /\ inverse_of zero one add mul m A res.
Proof. exact @gauss_invertible. Qed.
Print Assumptions C40_inverse.
(** ... and on a singular matrix the loop is left early. *)
Theorem C40_singular : forall (F : Type) (zero one : F) (add mul sub : F -> F -> F) (opp : F -> F) (div : F -> F -> F) (inv : F -> F),
  field_theory zero one add mul sub opp div inv eq ->
  forall isz : F -> bool, (forall x, isz x = true <-> x = zero) ->
  forall m, 0 <= m -> forall A : Z -> F, (forall B, ~ inverse_of zero one add mul m B A) ->
  fst (gauss_jordan (exact_arith zero one add mul opp inv isz) m A) = false
  /\ exists v, (forall a, 0 <= a < m -> fsum_to zero add (Z.to_nat m) (fun k => mul (A (a * m + k)) (v k)) = zero)
       /\ exists i, 0 <= i < m /\ v i <> zero.
Proof. exact @gauss_singular. Qed.
Print Assumptions C40_singular.
(** The code performs this algorithm with float operations, and touches nothing
    but the two matrices. *)
Theorem C40_code : forall e s res mat m R X, heap_ok s -> 0 < m -> m * m <= 2147483647 ->
  matrix s res 4 m m R -> matrix s mat 4 m m X -> res <> mat ->
  exists s', invert_matrix_float res mat m e s = Ret tt s'
    /\ matrix s' res 4 m m (fun i j => fst (snd (gauss_jordan float_arith m (fun t => X (t / m) (t mod m)))) (i * m + j))
    /\ matrix s' mat 4 m m (fun i j => snd (snd (gauss_jordan float_arith m (fun t => X (t / m) (t mod m)))) (i * m + j))
    /\ unchanged_except [res; mat] s s' /\ files s' = files s /\ heap_ok s'
    /\ (forall i, ~ 0 <= i < m * m * 4 -> byte_at s' res i = byte_at s res i /\ byte_at s' mat i = byte_at s mat i).
Proof. exact invert_spec. Qed.
Print Assumptions C40_code.
(** A singular matrix is not reported: the call returns with the identity. *)
Theorem C40_reported_refuted : exists e s res mat m s', heap_ok s /\ matrix s mat 4 m m (fun _ _ => 0)
  /\ invert_matrix_float res mat m e s = Ret tt s'
  /\ forall i j, 0 <= i < m -> 0 <= j < m ->
       exists w, word_at s' res ((i * m + j) * 4) 4 = Some w /\ float_int w (if i =? j then 1 else 0).
Proof. exact invert_silent. Qed.
Print Assumptions C40_reported_refuted.
Example C40_hypotheses : field_theory 0%Qc 1%Qc Qcplus Qcmult Qcminus Qcopp Qcdiv Qcinv eq
  /\ (forall x, qisz x = true <-> x = 0%Qc)
  /\ inverse_of 0%Qc 1%Qc Qcplus Qcmult 2 qinv qmat
  /\ (forall B, ~ inverse_of 0%Qc 1%Qc Qcplus Qcmult 2 B (fun _ => 1%Qc)).
Proof. split; [exact Qcft|]. split; [exact qisz_ok|]. split; [exact qinv_ok|exact qmat_singular]. Qed.
Example C40_hypotheses_code : heap_ok st_inv /\ matrix st_inv (Some 0%nat) 4 2 2 (fun _ _ => 9)
  /\ matrix st_inv (Some 1%nat) 4 2 2 (cells 2 (fw [0; 2; 4; 1])).
Proof. split; [|split]; apply st_inv_ok. Qed.
(** The inverse of 0 2 / 4 1 is -1/8 1/4 / 1/2 0. *)
Example C40_run :
  match invert_matrix_float (Some 0%nat) (Some 1%nat) 2 ex_env st_inv with
  | Ret tt s' => map (fun w => match w with Some w => sf_num (fl_of_bits w) | None => None end) (elements s' (Some 0%nat) 4 4)
  | _ => [] end = map (fun z => Some (z * 2 ^ 1071)) [-1; 2; 4; 0].
Proof. vm_compute. reflexivity. Qed.
