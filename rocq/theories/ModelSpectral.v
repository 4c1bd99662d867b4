(** * Model: mean values (/repo/modules/process/src/c_src/mathprocess.c 10-120),
    spectra (/repo/modules/process/src/c_src/spectralprocess.c), matrix sum and
    logarithm (/repo/modules/process/src/c_src/imageprocess.c 599-641), linear
    stretching (/repo/modules/algorithm/src/HisEqualization.c 39-93) and edge
    energy (/repo/modules/algorithm/src/EdgeSignalEnergy.c). *)
From Verif Require Import Base ModelFloat ModelDouble ModelCore ModelImage ModelFile ModelFilter.
From Coq Require Import Floats.SpecFloat String.
Open Scope Z_scope.

(** ** Means *)

(** mathprocess.c 15-120: the eight functions have the same text.  [conv] is
    the conversion of the stored word to the type of res, [add] and [div] the
    arithmetic of that type, [of_int] the conversion of len. *)
Definition mean_with (es : Z) (conv : Z -> sf) (add div : sf -> sf -> sf) (of_int : Z -> sf)
    (t : ptr) (len : Z) : M sf :=
  res <- forS 0 len (fun i res =>
    w <- loadle t (i * es) (Z.to_nat es) ;;
    ret (add res (conv w))) (of_int 0) ;;
  ret (div res (of_int len)).
Definition mean_double := mean_with 8 db_of_bits db_add db_div db_of_Z.
Definition mean_uint := mean_with 4 fl_of_Z fl_add fl_div fl_of_Z.
Definition mean_short := mean_with 2 (fun w => fl_of_Z (sgn 16 w)) fl_add fl_div fl_of_Z.
Definition mean_ushort := mean_with 2 fl_of_Z fl_add fl_div fl_of_Z.
Definition mean_float := mean_with 4 fl_of_bits fl_add fl_div fl_of_Z.
Definition mean_uchar := mean_with 1 fl_of_Z fl_add fl_div fl_of_Z.
Definition mean_char := mean_with 1 (fun w => fl_of_Z (sgn 8 w)) fl_add fl_div fl_of_Z.
Definition mean_int := mean_with 4 (fun w => fl_of_Z (sgn 32 w)) fl_add fl_div fl_of_Z.

(** spectralprocess.c 4-10: sp_average of the floats from index off of x on. *)
Definition sp_average (x : ptr) (off length : Z) : M sf :=
  sum <- forS 0 length (fun i sum =>
    v <- loadf x (off + i) ;;
    ret (fl_add sum v)) (fl_of_Z 0) ;;
  ret (fl_div sum (fl_of_Z length)).
(** spectralprocess.c 12-19: sp_variance; [pow2 x] is pow(x, 2). *)
Definition sp_variance (pow2 : sf -> sf) (x : ptr) (length : Z) : M sf :=
  average <- sp_average x 0 length ;;
  sum <- forS 0 length (fun i sum =>
    v <- loadf x i ;;
    ret (fl_of_db (db_add (db_of_fl sum) (pow2 (db_of_fl (fl_sub v average)))))) (fl_of_Z 0) ;;
  ret (fl_div sum (fl_of_Z length)).
(** spectralprocess.c 21-25: sp_standard_deviation. *)
Definition sp_standard_deviation (pow2 : sf -> sf) (x : ptr) (length : Z) : M sf :=
  sd <- sp_variance pow2 x length ;;
  ret (fl_of_db (db_sqrt (db_of_fl sd))).

(** ** Spectral angles *)

(** abs of stdlib.h: the argument is converted to int. *)
Definition int_abs (x : sf) : cint :=
  match int_of_sf x with
  | Some z => chk (Z.abs z)
  | None => None
  end.
(** spectralprocess.c 89-93: the three running sums. *)
Definition sam_step (x y : ptr) (xoff i : Z) (acc : sf * sf * sf) : M (sf * sf * sf) :=
  let '(XY, X, Y) := acc in
  a <- loadf x (xoff + i) ;;
  b <- loadf y i ;;
  k <- ev (int_abs (fl_mul a b)) ;;
  ret (fl_add XY (fl_of_Z k), fl_add X (fl_mul a a), fl_add Y (fl_mul b b)).
(** spectralprocess.c 81-99: spectral_angle_mapper; acos stays a parameter. *)
Definition spectral_angle_mapper (acos_ : sf -> sf) (x y : ptr) (length : Z) : M sf :=
  assert (nonnull x && nonnull y) ;;;
  acc <- forS 0 length (sam_step x y 0) (fl_of_Z 0, fl_of_Z 0, fl_of_Z 0) ;;
  let '(XY, X, Y) := (acc : sf * sf * sf) in
  ret (fl_of_db (acos_ (db_div (db_of_fl XY) (db_sqrt (db_of_fl (fl_mul X Y)))))).

(** spectralprocess.c 39-77: spectrum_SAM_match. *)
Definition spectrum_SAM_match (acos_ : sf -> sf) (bip_mat spectrum : ptr) (threshold : sf) : M ptr :=
  assert (nonnull bip_mat) ;;;
  m <- hget bip_mat ;;
  c <- il_cmp m "bip" ;;
  assert (c =? 1) ;;;
  assert (nonnull spectrum) ;;;
  let samples := hm_samples m in
  let lines := hm_lines m in
  let bands := hm_bands m in
  match_image <- create_simple_mat lines samples 1 1 ;;
  temp <- malloc (4 * bands) ;;
  for_ 0 lines (fun i =>
    for_ 0 samples (fun j =>
      a <- ev (i * samples * bands)%C ;;
      b <- ev (j * bands)%C ;;
      for_ 0 bands (fun k =>
        v <- loadle (hm_data m) (4 * (a + b + k)) 4 ;;
        storele temp (4 * k) 4 v) ;;;
      res <- spectral_angle_mapper acos_ temp spectrum bands ;;
      mi <- sget match_image ;;
      o <- ev (i * samples)%C ;;
      store8 (sm_data mi) (o + j) (if SFleb threshold res then 1 else 0))) ;;;
  free temp ;;;
  ret match_image.

(** spectralprocess.c 137-147: euclidean_distance. *)
Definition euclidean_distance (x y : ptr) (length : Z) : M sf :=
  temp <- forS 0 length (fun i temp =>
    a <- loadf x i ;;
    b <- loadf y i ;;
    ret (fl_add temp (fl_mul (fl_sub a b) (fl_sub a b)))) (fl_of_Z 0) ;;
  ret (fl_of_db (db_sqrt (db_of_fl temp))).

(** ** Spectrum files *)

(** One call of fscanf(fp, "%f", &temp): at the end of the file, input that
    does not match (nothing is stored), or a value. *)
Inductive scan := ScanEnd | ScanFail (rest : list Z) | ScanValue (x : sf) (rest : list Z).
(** spectralprocess.c 115-125: the loop writes temp, matched or not, to the
    next element of the buffer.  [fuel] bounds the number of rounds. *)
Fixpoint spectrum_loop (scanf_ : list Z -> scan) (fuel : nat) (spectrum : ptr) (i : Z) (temp : sf) (t : list Z) : M unit :=
  match fuel with
  | O => fuel_
  | S fuel' =>
      match scanf_ t with
      | ScanEnd => ret tt
      | ScanFail rest => storef spectrum i temp ;;; spectrum_loop scanf_ fuel' spectrum (i + 1) temp rest
      | ScanValue x rest => storef spectrum i x ;;; spectrum_loop scanf_ fuel' spectrum (i + 1) x rest
      end
  end.
(** spectralprocess.c 106-129: read_spectrum_file. *)
Definition read_spectrum_file (scanf_ : list Z -> scan) (fuel : nat) (sp_path : list Z) (length : Z) : M ptr :=
  f <- fopen_r sp_path ;;
  match f with
  | None => exit_
  | Some t =>
      spectrum <- malloc (length * 4) ;;
      spectrum_loop scanf_ fuel spectrum 0 (fl_of_Z 0) t ;;;
      ret spectrum
  end.

(** ** Cubes *)

(** spectralprocess.c 153-176: hyper_mat_mean. *)
Definition hyper_mat_mean (bip_mat dst_mat : ptr) : M unit :=
  assert (nonnull bip_mat) ;;;
  m <- hget bip_mat ;;
  c <- il_cmp m "bip" ;;
  assert (c =? 1) ;;;
  let samples := hm_samples m in
  let lines := hm_lines m in
  let bands := hm_bands m in
  d <- sget dst_mat ;;
  assert ((samples =? sm_cols d) && (lines =? sm_rows d)) ;;;
  assert (sm_type d =? 4) ;;;
  for_ 0 lines (fun i =>
    for_ 0 samples (fun j =>
      a <- ev (i * samples * bands)%C ;;
      b <- ev (j * bands)%C ;;
      v <- sp_average (hm_data m) (a + b) bands ;;
      x <- ev (i * sm_cols d + j)%C ;;
      storef (sm_data d) x v)).

(** spectralprocess.c 183-203: hyper_mat_transport. *)
Definition hyper_mat_transport (dst_mat src_mat : ptr) : M unit :=
  assert (nonnull src_mat) ;;;
  ms <- hget src_mat ;;
  c <- il_cmp ms "bsq" ;;
  assert (c =? 1) ;;;
  md <- hget dst_mat ;;
  let s_samples := hm_samples ms in
  let d_samples := hm_samples md in
  let s_lines := hm_lines ms in
  let d_lines := hm_lines md in
  let bands := hm_bands ms in
  assert ((s_samples =? d_lines) && (s_lines =? d_samples) && (bands =? hm_bands md)) ;;;
  let elemsize := get_elemsize (hm_type ms) in
  for_ 0 bands (fun k =>
    for_ 0 d_lines (fun i =>
      for_ 0 d_samples (fun j =>
        for_ 0 elemsize (fun t =>
          x <- ev (k * s_samples * s_lines * elemsize + j * s_samples * elemsize + i * elemsize + t)%C ;;
          v <- load8 (hm_data ms) x ;;
          y <- ev (k * d_samples * d_lines * elemsize + i * d_samples * elemsize + j * elemsize + t)%C ;;
          store8 (hm_data md) y v)))).

(** ** Sum and logarithm of float matrices *)

(** imageprocess.c 599-627: simple_mat_addition_float. *)
Definition simple_mat_addition_float (mat1 mat2 dst_mat : ptr) : M unit :=
  assert (nonnull mat1 && nonnull mat2 && nonnull dst_mat) ;;;
  m1 <- sget mat1 ;;
  m2 <- sget mat2 ;;
  assert (sm_chan m1 =? sm_chan m2) ;;;
  let channels := sm_chan m1 in
  let rows := if sm_rows m1 >=? sm_rows m2 then sm_rows m2 else sm_rows m1 in
  let cols := if sm_cols m1 >=? sm_cols m2 then sm_cols m2 else sm_cols m1 in
  md <- sget dst_mat ;;
  for_ 0 rows (fun i =>
    for_ 0 cols (fun j =>
      for_ 0 channels (fun k =>
        x <- ev (i * cols * channels + j * channels + k)%C ;;
        a <- loadf (sm_data m1) x ;;
        b <- loadf (sm_data m2) x ;;
        storef (sm_data md) x (fl_add a b)))).

(** imageprocess.c 629-641: simple_mat_log; log stays a parameter. *)
Definition simple_mat_log (log_ : sf -> sf) (src_mat dst_mat : ptr) : M unit :=
  ms <- sget src_mat ;;
  assert (sm_type ms =? 4) ;;;
  md <- sget dst_mat ;;
  assert (sm_type md =? 4) ;;;
  assert ((sm_rows ms =? sm_rows md) && (sm_cols ms =? sm_cols md)) ;;;
  n <- ev (sm_rows ms * sm_cols ms)%C ;;
  for_ 0 n (fun i =>
    v <- loadf (sm_data ms) i ;;
    storef (sm_data md) i (fl_of_db (log_ (db_of_fl v)))).

(** ** Linear stretching *)

(** HisEqualization.c 65-66, 72-75: one sample of the search for the extremes. *)
Definition extremes (acc : sf * sf) (tmp : sf) : sf * sf :=
  let (maxdata, mindata) := acc in
  (if SFltb maxdata tmp then tmp else maxdata, if SFltb tmp mindata then tmp else mindata).
(** HisEqualization.c 83-92: the value stored for one sample. *)
Definition stretched (m n tmp : sf) : cint :=
  match int_of_sf (fl_add (fl_mul tmp m) n) with
  | None => None
  | Some res =>
      Some (if res <=? 0 then (if SFeqb tmp (fl_of_Z 0) then 0 else 1)
            else if res >=? 255 then 255 else res)
  end.
(** HisEqualization.c 39-96: hyper_mat_linear_tension. *)
Definition hyper_mat_linear_tension (bsq_mat dst_mat : ptr) : M unit :=
  ms <- hget bsq_mat ;;
  c <- il_cmp ms "bsq" ;;
  assert (c =? 1) ;;;
  let samples := hm_samples ms in
  let lines := hm_lines ms in
  let bands := hm_bands ms in
  md <- hget dst_mat ;;
  assert ((hm_samples md =? samples) && (hm_lines md =? lines) && (hm_bands md =? bands)) ;;;
  assert (hm_type md =? 1) ;;;
  for_ 0 bands (fun k =>
    acc <- forS 0 lines (fun i acc =>
      forS 0 samples (fun j acc =>
        x <- ev (k * samples * lines + i * samples + j)%C ;;
        tmp <- loadf (hm_data ms) x ;;
        ret (extremes acc tmp)) acc) (fl_of_Z 0, fl_of_Z 1000000000) ;;
    let (maxdata, mindata) := (acc : sf * sf) in
    let m := fl_div (fl_of_Z 255) (fl_sub maxdata mindata) in
    let n := fl_div (fl_mul (SFopp mindata) (fl_of_Z 255)) (fl_sub maxdata mindata) in
    for_ 0 lines (fun i =>
      for_ 0 samples (fun j =>
        x <- ev (k * samples * lines + i * samples + j)%C ;;
        tmp <- loadf (hm_data ms) x ;;
        r <- ev (stretched m n tmp) ;;
        store8 (hm_data md) x r))).

(** ** Edge energy *)

(** EdgeSignalEnergy.c 15-16 and 18-22: the two masks, each divided by 6. *)
Definition energy_mask1 : list Z := [-1; -1; 1; -1; 4; -1; 1; -1; -1].
Definition energy_mask2 : list Z := [1; -1; -1; -1; 4; -1; -1; -1; 1].
Definition energy_weight (l : list Z) (i : Z) : sf := fl_div (fl_of_Z (nth (Z.to_nat i) l 0)) (fl_of_Z 6).
(** EdgeSignalEnergy.c 9-48: cal_edge_signal_energy.  Lines 12 and 13 assign
    inside the assertions.  The local arrays are allocated here and stay (the
    end of their lifetime is not modelled); [pow2 x] is pow(x, 2). *)
Definition cal_edge_signal_energy (pow2 : sf -> sf) (mat : ptr) : M sf :=
  assert (nonnull mat) ;;;
  m0 <- sget mat ;;
  set_header mat (CSM (mkSM (sm_rows m0) (sm_cols m0) 1 1 (sm_esize m0) (sm_data m0))) ;;;
  opt1 <- malloc 36 ;;
  opt2 <- malloc 36 ;;
  for_ 0 9 (fun i => storef opt1 i (energy_weight energy_mask1 i) ;;; storef opt2 i (energy_weight energy_mask2 i)) ;;;
  let rows := sm_rows m0 in
  let cols := sm_cols m0 in
  dst1 <- create_simple_mat rows cols 4 1 ;;
  dst2 <- create_simple_mat rows cols 4 1 ;;
  hypercv_filter2D mat dst1 opt1 3 3 0 ;;;
  hypercv_filter2D mat dst2 opt2 3 3 0 ;;;
  simple_mat_addition_float dst1 dst2 dst1 ;;;
  m1 <- sget dst1 ;;
  r <- forS 0 rows (fun i r =>
    forS 0 cols (fun j r =>
      x <- ev (i * cols + j)%C ;;
      v <- loadf (sm_data m1) x ;;
      ret (fl_of_db (db_add (db_of_fl r) (pow2 (db_of_fl v))))) r) (fl_of_Z 0) ;;
  delete_simple_mat dst1 ;;;
  delete_simple_mat dst2 ;;;
  ret (fl_div (fl_div r (fl_of_Z rows)) (fl_of_Z cols)).
