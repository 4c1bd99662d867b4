(** * Model: principal components (/repo/modules/algorithm/src/pca.c). *)
From Verif Require Import Base ModelFloat ModelDouble ModelCore ModelImage ModelMath ModelMatrix ModelEigen ModelSpectral.
From Coq Require Import Floats.SpecFloat.
Open Scope Z_scope.

(** pca.c 9-32: cal_covariance_matrix. *)
Definition cal_covariance_matrix (x mean_mat res_mat : ptr) : M unit :=
  mm <- sget mean_mat ;;
  let samples := sm_cols mm in
  let lines := sm_rows mm in
  mx <- sget x ;;
  let bands := sm_cols mx in
  mr <- sget res_mat ;;
  n <- ev (samples * lines)%C ;;
  for_ 0 n (fun i =>
    for_ 0 bands (fun j =>
      k <- ev (i * bands + j)%C ;;
      a <- loadf (sm_data mx) k ;;
      b <- loadf (sm_data mm) i ;;
      storef (sm_data mx) k (fl_sub a b))) ;;;
  t <- create_simple_mat bands n 4 1 ;;
  simple_mat_transport t x ;;;
  mt <- sget t ;;
  ls <- ev (lines * samples)%C ;;
  MulMatrix_float (sm_data mt) (sm_data mx) (sm_data mr) bands ls bands ;;;
  delete_simple_mat t.

(** pca.c 36-88: hyper_mat_pca.  Line 39 assigns 4 to the type of the cube
    and asserts the assigned value. *)
Definition hyper_mat_pca (bip_mat res_bip_mat : ptr) (iteration : Z) : M unit :=
  m0 <- hget bip_mat ;;
  set_header bip_mat (CHM (mkHM (hm_samples m0) (hm_lines m0) (hm_bands m0) 4 (hm_il m0) (hm_pad m0) (hm_data m0) (hm_wave m0))) ;;;
  let samples := hm_samples m0 in
  let lines := hm_lines m0 in
  let bands := hm_bands m0 in
  mean_mat <- create_simple_mat lines samples 4 1 ;;
  hyper_mat_mean bip_mat mean_mat ;;;
  n <- ev (samples * lines)%C ;;
  reshape_mat <- reshape_hypermat_2_simplemat bip_mat n bands ;;
  cov_mat <- create_simple_mat bands bands 4 1 ;;
  cal_covariance_matrix reshape_mat mean_mat cov_mat ;;;
  temp <- simple_mat_copy cov_mat ;;
  mc <- sget cov_mat ;;
  q_mat <- create_simple_mat (sm_rows mc) (sm_cols mc) 4 1 ;;
  r_mat <- create_simple_mat (sm_rows mc) (sm_cols mc) 4 1 ;;
  mt <- sget temp ;;
  mq <- sget q_mat ;;
  mr <- sget r_mat ;;
  for_ 0 iteration (fun i =>
    matrix_QR_float (sm_data mt) (sm_data mq) (sm_data mr) bands ;;;
    MulMatrix_float (sm_data mq) (sm_data mr) (sm_data mt) bands bands bands) ;;;
  evalue <- malloc (u64 (bands * 4)) ;;
  for_ 0 bands (fun k =>
    d <- ev (k * bands + k)%C ;;
    v <- loadf (sm_data mt) d ;;
    storef evalue k v) ;;;
  sort_array_down_float evalue bands ;;;
  eigen_vector <- simple_mat_copy q_mat ;;
  mv <- sget eigen_vector ;;
  cal_eigen_vector_float (sm_data mc) (sm_data mv) evalue bands bands ;;;
  ms <- sget reshape_mat ;;
  res <- hget res_bip_mat ;;
  MulMatrix_float (sm_data ms) (sm_data mv) (hm_data res) n bands bands ;;;
  delete_simple_mat mean_mat ;;;
  delete_simple_mat cov_mat ;;;
  delete_simple_mat reshape_mat ;;;
  delete_simple_mat r_mat ;;;
  delete_simple_mat q_mat ;;;
  delete_simple_mat temp ;;;
  delete_simple_mat eigen_vector.
