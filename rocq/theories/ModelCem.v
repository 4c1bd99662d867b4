(** * Model: correlation matrices (/repo/modules/process/src/c_src/matrixprocess.c
    300-354) and constrained energy minimisation (/repo/modules/algorithm/src/cem.c). *)
From Verif Require Import Base ModelFloat ModelDouble ModelCore ModelImage ModelMatrix.
From Coq Require Import Floats.SpecFloat String.
Open Scope Z_scope.

(** The seven functions have the same text; [quo w n] is what is stored for the
    stored word w divided by n (None: undefined). *)
Definition correlation_with (es : Z) (mul : ptr -> ptr -> ptr -> Z -> Z -> Z -> M unit) (quo : Z -> Z -> option Z)
    (res mat1 mat2 : ptr) (l n m : Z) : M unit :=
  mul mat1 mat2 res l n m ;;;
  lm <- ev (l * m)%C ;;
  for_ 0 lm (fun i =>
    w <- loadle res (i * es) (Z.to_nat es) ;;
    r <- ev (quo w n) ;;
    storele res (i * es) (Z.to_nat es) r).

(** Types that are promoted to int. *)
Definition quo_promoted (dec : Z -> Z) (w n : Z) : option Z := cdiv (ci (dec w)) (ci n).
(** Unsigned int: n is converted to unsigned. *)
Definition quo_uint (w n : Z) : option Z := if u32 n =? 0 then None else Some (w / u32 n).
Definition quo_float (w n : Z) : option Z := Some (bits_of_fl (fl_div (fl_of_bits w) (fl_of_Z n))).

(** matrixprocess.c 300-306, 308-314, 316-322, 324-330, 332-338, 340-346, 348-354. *)
Definition correlation_matrix_uchar := correlation_with 1 MulMatrix_uchar (quo_promoted (fun w => w)).
Definition correlation_matrix_char := correlation_with 1 MulMatrix_char (quo_promoted (sgn 8)).
Definition correlation_matrix_short := correlation_with 2 MulMatrix_short (quo_promoted (sgn 16)).
Definition correlation_matrix_ushort := correlation_with 2 MulMatrix_ushort (quo_promoted (fun w => w)).
Definition correlation_matrix_int := correlation_with 4 MulMatrix_int (quo_promoted (sgn 32)).
Definition correlation_matrix_uint := correlation_with 4 MulMatrix_uint quo_uint.
Definition correlation_matrix_float := correlation_with 4 MulMatrix_float quo_float.

(** cem.c 14-70: hyper_mat_cem. *)
Definition hyper_mat_cem (bsq_mat spectral : ptr) : M ptr :=
  m0 <- hget bsq_mat ;;
  assert (hm_type m0 =? 4) ;;;
  c <- il_cmp m0 "bsq" ;;
  (if c =? 1 then ret tt else convert2bsq bsq_mat) ;;;
  m <- hget bsq_mat ;;
  let samples := hm_samples m in
  let lines := hm_lines m in
  let bands := hm_bands m in
  let data_type := hm_type m in
  sl <- ev (samples * lines)%C ;;
  src <- reshape_hypermat_2_simplemat bsq_mat bands sl ;;
  ms <- sget src ;;
  t <- create_simple_mat (sm_cols ms) (sm_rows ms) data_type 1 ;;
  simple_mat_transport t src ;;;
  corrmat <- create_simple_mat bands bands data_type 1 ;;
  mt <- sget t ;;
  mc <- sget corrmat ;;
  correlation_matrix_float (sm_data mc) (sm_data ms) (sm_data mt) bands sl bands ;;;
  invmat <- create_simple_mat bands bands data_type 1 ;;
  mi <- sget invmat ;;
  invert_matrix_float (sm_data mi) (sm_data mc) bands ;;;
  fir1 <- malloc (bands * 4) ;;
  fir2 <- malloc (bands * 4) ;;
  fir3 <- malloc 4 ;;
  MulMatrix_float fir1 (sm_data mi) spectral bands bands 1 ;;;
  MulMatrix_float fir2 spectral (sm_data mi) 1 bands bands ;;;
  MulMatrix_float fir3 fir2 spectral 1 bands 1 ;;;
  for_ 0 bands (fun i =>
    a <- loadf fir1 i ;; b <- loadf fir3 0 ;; storef fir1 i (fl_div a b)) ;;;
  res <- create_simple_mat lines samples data_type 1 ;;
  mr <- sget res ;;
  MulMatrix_float (sm_data mr) (sm_data mt) fir1 sl bands 1 ;;;
  delete_simple_mat src ;;;
  delete_simple_mat t ;;;
  delete_simple_mat corrmat ;;;
  delete_simple_mat invmat ;;;
  free fir1 ;;; free fir2 ;;; free fir3 ;;;
  ret res.
