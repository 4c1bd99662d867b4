(** * Model: statistics of one image
    (/repo/modules/core/src/c_src/simplemat.c 271-486) and radiometric
    calibration (/repo/modules/process/src/c_src/RadiometricCalibration.c). *)
From Verif Require Import Base ModelFloat ModelCore ModelPixel.
From Coq Require Import Floats.SpecFloat.
Open Scope Z_scope.

(** simplemat.c 287-316 and 337-366: data[i] with the pointer type chosen by
    data_type, converted to float (the integer types are read as unsigned). *)
Definition stat_load (ty : Z) (p : ptr) (i : Z) : M sf :=
  if ty =? 1 then x <- load8 p i ;; ret (fl_of_Z x)
  else if (ty =? 2) || (ty =? 12) then x <- loadle p (2 * i) 2 ;; ret (fl_of_Z x)
  else if ty =? 3 then x <- loadle p (4 * i) 4 ;; ret (fl_of_Z x)
  else loadf p i.

(** The switch of both functions has no default branch: any other data_type
    leaves res as it is. *)
Definition stat_type (ty : Z) : bool :=
  (ty =? 1) || (ty =? 2) || (ty =? 12) || (ty =? 3) || (ty =? 4).

(** simplemat.c 276-318: simple_mat_mean. *)
Definition simple_mat_mean (mat : ptr) : M sf :=
  assert (nonnull mat) ;;;
  m <- sget mat ;;
  assert (sm_chan m =? 1) ;;;
  let rows := sm_rows m in
  let cols := sm_cols m in
  res <- (if stat_type (sm_type m) then
            n <- ev (rows * cols)%C ;;
            forS 0 n (fun i res =>
              x <- stat_load (sm_type m) (sm_data m) i ;;
              ret (fl_add res x)) (fl_of_Z 0)
          else ret (fl_of_Z 0)) ;;
  ret (fl_div (fl_div res (fl_of_Z rows)) (fl_of_Z cols)).

(** simplemat.c 325-368: simple_mat_variance; [pow2 x] is pow(x, 2), a library
    function that stays a parameter. *)
Definition simple_mat_variance (pow2 : sf -> sf) (mat : ptr) : M sf :=
  assert (nonnull mat) ;;;
  m <- sget mat ;;
  assert (sm_chan m =? 1) ;;;
  let rows := sm_rows m in
  let cols := sm_cols m in
  mean <- simple_mat_mean mat ;;
  res <- (if stat_type (sm_type m) then
            n <- ev (rows * cols)%C ;;
            forS 0 n (fun i res =>
              x <- stat_load (sm_type m) (sm_data m) i ;;
              ret (fl_of_db (db_add (db_of_fl res) (pow2 (db_of_fl (fl_sub mean x)))))) (fl_of_Z 0)
          else ret (fl_of_Z 0)) ;;
  ret (fl_div (fl_div res (fl_of_Z rows)) (fl_of_Z cols)).

(** simplemat.c 391-398: the counting of grey levels into an array of ints. *)
Definition statistics_count (data gray_statist : ptr) (n : Z) : M unit :=
  for_ 0 256 (fun i => storele gray_statist (4 * i) 4 0) ;;;
  for_ 0 n (fun i =>
    v <- load8 data i ;;
    x <- loadle gray_statist (4 * v) 4 ;;
    y <- ev (sgn 32 x + 1)%C ;;
    storele gray_statist (4 * v) 4 y).

(** simplemat.c 375-399: simple_mat_grayscale_statistics.  [sizeof_ptr] is
    sizeof(gray_statist), the size of a pointer. *)
Definition sizeof_ptr : Z := 8.
Definition simple_mat_grayscale_statistics (mat gray_statist : ptr) : M unit :=
  assert (nonnull mat) ;;;
  m <- sget mat ;;
  assert (sm_type m =? 1) ;;;
  assert (sizeof_ptr =? 256) ;;;
  tmp <- (if negb (sm_chan m =? 1) then sm_rgb2gray mat 0 else ret mat) ;;
  t <- sget tmp ;;
  n <- ev (sm_rows m * sm_cols m)%C ;;
  statistics_count (sm_data t) gray_statist n.

(** simplemat.c 430-437: res += pow(a - b, 2). *)
Definition contrast_add (pow2 : sf -> sf) (res : sf) (a b : Z) : sf :=
  fl_of_db (db_add (db_of_fl res) (pow2 (db_of_Z (a - b)))).
(** One of the four neighbours: the pixel at index x is compared with the one
    at index y. *)
Definition contrast_pair (pow2 : sf -> sf) (data : ptr) (x y : cint) (res : sf) : M sf :=
  kx <- ev x ;; a <- load8 data kx ;;
  ky <- ev y ;; b <- load8 data ky ;;
  ret (contrast_add pow2 res a b).

(** simplemat.c 407-443: simple_mat_contrast_ratio. *)
Definition simple_mat_contrast_ratio (pow2 : sf -> sf) (mat : ptr) : M sf :=
  assert (nonnull mat) ;;;
  m <- sget mat ;;
  assert (sm_type m =? 1) ;;;
  let rows := sm_rows m in
  let cols := sm_cols m in
  tmp <- (if negb (sm_chan m =? 1) then sm_rgb2gray mat 0 else ret mat) ;;
  t <- sget tmp ;;
  let data := sm_data t in
  res <- forS 0 rows (fun i res =>
    forS 0 cols (fun j res =>
      res <- (if negb (j =? 0) then contrast_pair pow2 data (i * cols + j)%C (i * cols + j - 1)%C res else ret res) ;;
      c1 <- ev (cols - 1)%C ;;
      res <- (if negb (j =? c1) then contrast_pair pow2 data (i * cols + j)%C (i * cols + j + 1)%C res else ret res) ;;
      res <- (if negb (i =? 0) then contrast_pair pow2 data (i * cols + j)%C ((i - 1) * cols + j)%C res else ret res) ;;
      r1 <- ev (rows - 1)%C ;;
      (if negb (i =? r1) then contrast_pair pow2 data (i * cols + j)%C ((i + 1) * cols + j)%C res else ret res)) res)
    (fl_of_Z 0) ;;
  n <- ev (4 * (cols - 2) * (rows - 2) + 3 * 2 * (rows - 2) + 3 * 2 * (cols - 2) + 2 * 4)%C ;;
  ret (fl_div res (fl_of_Z n)).

(** simplemat.c 451-486: simple_mat_entropy; [log_] is log, a library function.
    The local array gray_statist is allocated here and stays (the end of its
    lifetime is not modelled). *)
Definition entropy_term (log_ : sf -> sf) (rows cols : Z) (res : sf) (c : Z) : sf :=
  if c =? 0 then res
  else let temp := fl_div (fl_div (fl_of_Z c) (fl_of_Z rows)) (fl_of_Z cols) in
       fl_of_db (db_sub (db_of_fl res) (db_mul (db_of_fl temp) (db_div (log_ (db_of_fl temp)) (log_ (db_of_Z 2))))).
Definition simple_mat_entropy (log_ : sf -> sf) (mat : ptr) : M sf :=
  assert (nonnull mat) ;;;
  m <- sget mat ;;
  assert (sm_type m =? 1) ;;;
  tmp <- (if negb (sm_chan m =? 1) then sm_rgb2gray mat 0 else ret mat) ;;
  _ <- sget tmp ;;
  gray_statist <- malloc 1024 ;;
  memset gray_statist 0 0 1024 ;;;
  simple_mat_grayscale_statistics mat gray_statist ;;;
  forS 0 256 (fun i res =>
    x <- loadle gray_statist (4 * i) 4 ;;
    ret (entropy_term log_ (sm_rows m) (sm_cols m) res (sgn 32 x))) (fl_of_Z 0).

(** RadiometricCalibration.c 9-32: relative_radiometric_correction. *)
Definition relative_radiometric_correction (bip_mat coefficient : ptr) : M ptr :=
  m <- hget bip_mat ;;
  let samples := hm_samples m in
  let lines := hm_lines m in
  let bands := hm_bands m in
  res <- create_hyper_mat samples lines bands 4 (hm_il m) ;;
  m' <- hget res ;;
  for_ 0 lines (fun i =>
    for_ 0 samples (fun j =>
      for_ 0 bands (fun k =>
        x <- ev (i * samples * bands + j * bands + k)%C ;;
        v <- loadle (hm_data m) (2 * x) 2 ;;
        y <- ev (k * bands + j)%C ;;
        c <- loadf coefficient y ;;
        storef (hm_data m') x (fl_mul (fl_of_Z v) c)))) ;;;
  ret res.

(** RadiometricCalibration.c 41-63: absolute_radiometric_correction. *)
Definition absolute_radiometric_correction (bip_mat coefficient : ptr) : M ptr :=
  m <- hget bip_mat ;;
  let samples := hm_samples m in
  let lines := hm_lines m in
  let bands := hm_bands m in
  res <- create_hyper_mat samples lines bands 4 (hm_il m) ;;
  m' <- hget res ;;
  for_ 0 lines (fun i =>
    for_ 0 samples (fun j =>
      for_ 0 bands (fun k =>
        x <- ev (i * samples * bands + j * bands + k)%C ;;
        v <- loadf (hm_data m) x ;;
        c <- loadf coefficient k ;;
        storef (hm_data m') x (fl_mul v c)))) ;;;
  ret res.
