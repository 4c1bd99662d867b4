(** * Model: image pyramids and rotation
    (/repo/modules/process/src/c_src/GeometricTransformation.c 74-207).
    exp, cos and sin are parameters. *)
From Verif Require Import Base ModelCore ModelFloat ModelDouble ModelConv ModelBorder ModelFilter ModelGauss.
From Verif Require Import ModelImage.
From Coq Require Import Floats.SpecFloat String.
Open Scope Z_scope.

Section Exp.
Variable exp_ : sf -> sf.

(** GeometricTransformation.c 74-103: hypercv_pyramid_down. *)
Definition hypercv_pyramid_down (src dst : ptr) : M unit :=
  assert (nonnull src) ;;;
  ms <- sget src ;;
  let src_rows := sm_rows ms in
  let src_cols := sm_cols ms in
  let channels := sm_chan ms in
  assert ((src_rows >=? 2) && (src_cols >=? 2)) ;;;
  assert (nonnull dst) ;;;
  md <- sget dst ;;
  r2 <- ev ((src_rows + 1) / 2)%C ;;
  c2 <- ev ((src_cols + 1) / 2)%C ;;
  assert ((sm_rows md =? r2) && (sm_cols md =? c2)) ;;;
  assert (sm_type md =? sm_type ms) ;;;
  tmp <- create_simple_mat src_rows src_cols (sm_type ms) channels ;;
  hypercv_gaussian_blur exp_ src tmp 5 5 (db_of_Z 0) (db_of_Z 0) 1 ;;;
  md <- sget dst ;;
  mt <- sget tmp ;;
  let dst_rows := sm_rows md in
  let dst_cols := sm_cols md in
  for_ 0 dst_rows (fun i =>
    for_ 0 dst_cols (fun j =>
      for_ 0 channels (fun m =>
        ms <- sget src ;;
        x <- ev (2 * i * sm_cols ms * channels + 2 * j * channels + m)%C ;;
        v <- load8 (sm_data mt) x ;;
        k <- ev (i * dst_cols * channels + j * channels + m)%C ;;
        store8 (sm_data md) k v))).

(** GeometricTransformation.c 105-151: hypercv_pyramid_up.  Lines 143-148 read
    and write the five weights in place. *)
Definition hypercv_pyramid_up (src dst : ptr) : M unit :=
  assert (nonnull src) ;;;
  ms <- sget src ;;
  let src_rows := sm_rows ms in
  let src_cols := sm_cols ms in
  let channels := sm_chan ms in
  assert ((src_rows >=? 2) && (src_cols >=? 2)) ;;;
  assert (nonnull dst) ;;;
  md <- sget dst ;;
  r2 <- ev (src_rows * 2)%C ;;
  c2 <- ev (src_cols * 2)%C ;;
  assert ((sm_rows md =? r2) && (sm_cols md =? c2)) ;;;
  assert (sm_type md =? sm_type ms) ;;;
  tmp <- simple_mat_copy dst ;;
  md <- sget dst ;;
  let dst_rows := sm_rows md in
  let dst_cols := sm_cols md in
  ms <- sget src ;;
  mt <- sget tmp ;;
  for_ 0 dst_rows (fun i =>
    for_ 0 dst_cols (fun j =>
      if (Z.rem i 2 =? 1) || (Z.rem j 2 =? 1) then
        for_ 0 channels (fun m =>
          k <- ev (i * dst_cols * channels + j * channels + m)%C ;;
          store8 (sm_data mt) k 0)
      else
        for_ 0 channels (fun m =>
          x <- ev (i / 2 * sm_cols ms * channels + j / 2 * channels + m)%C ;;
          v <- load8 (sm_data ms) x ;;
          k <- ev (i * dst_cols * channels + j * channels + m)%C ;;
          store8 (sm_data mt) k v))) ;;;
  kernel <- gaussian_kernel exp_ 5 (db_of_Z 0) 4 ;;
  mk <- sget kernel ;;
  for_ 0 5 (fun i =>
    w <- loadf (sm_data mk) i ;;
    storef (sm_data mk) i (fl_mul w (fl_of_Z 2))) ;;;
  hypercv_gaussian_blur_with_kernel tmp dst kernel kernel 1.
End Exp.

(** ** Rotation *)
(** type.h 226: PI. *)
Definition PI_db : sf := dlit 31415926 10000000.

Section Trig.
Variables cos_ sin_ : sf -> sf.

(** 171-174: fabs of a float difference, back to float. *)
Definition fl_dist (a b : sf) : sf := fl_of_db (SFabs (db_of_fl (fl_sub a b))).

(** GeometricTransformation.c 153-207: hyper_mat_rotate.  The double products
    w * c and so on are db_mul (db_of_Z w) c; x0 .. y3 are floats. *)
Definition hyper_mat_rotate (mat : ptr) (angle : sf) : M ptr :=
  m <- hget mat ;;
  t <- il_cmp m "bip" ;;
  (if t =? 1 then ret tt else convert2bip mat) ;;;
  let theta := db_div (db_mul angle PI_db) (db_of_Z 180) in
  let c := cos_ theta in
  let s := sin_ theta in
  m <- hget mat ;;
  h <- ev ((hm_lines m + 1) / 2)%C ;;
  w <- ev ((hm_samples m + 1) / 2)%C ;;
  nw <- ev (0 - w)%C ;;
  nh <- ev (0 - h)%C ;;
  let wc := db_mul (db_of_Z w) c in
  let ws := db_mul (db_of_Z w) s in
  let hc := db_mul (db_of_Z h) c in
  let hs := db_mul (db_of_Z h) s in
  let nwc := db_mul (db_of_Z nw) c in
  let nhc := db_mul (db_of_Z nh) c in
  let x0 := fl_of_db (db_sub nwc hs) in
  let y0 := fl_of_db (db_add nhc ws) in
  let x1 := fl_of_db (db_sub wc hs) in
  let y1 := fl_of_db (db_sub nhc ws) in
  let x2 := fl_of_db (db_add wc hs) in
  let y2 := fl_of_db (db_sub hc ws) in
  let x3 := fl_of_db (db_add nwc hs) in
  let y3 := fl_of_db (db_add hc ws) in
  let width1 := fl_dist x2 x0 in
  let width2 := fl_dist x3 x1 in
  let height1 := fl_dist y2 y0 in
  let height2 := fl_dist y3 y1 in
  width <- ev (int_of_sf (if SFltb width2 width1 then width1 else width2)) ;;
  height <- ev (int_of_sf (if SFltb height2 height1 then height1 else height2)) ;;
  dst_mat <- create_hyper_mat_with_data width height (hm_bands m) (hm_type m) (hm_il m) None (hm_wave m) ;;
  di <- ev (int_of_sf (fl_add x0 (fl_of_Z (width / 2)))) ;;
  dj <- ev (int_of_sf (fl_add y0 (fl_of_Z (height / 2)))) ;;
  m <- hget mat ;;
  md <- hget dst_mat ;;
  let elem_size := get_elemsize (hm_type m) in
  for_ 0 (hm_lines m) (fun i =>
    for_ 0 (hm_samples m) (fun j =>
      x <- ev (int_of_sf (db_add (db_add (db_mul (db_of_Z i) c) (db_mul (db_of_Z j) s)) (db_of_Z di))) ;;
      y <- ev (int_of_sf (db_add (db_sub (db_mul (db_of_Z j) c) (db_mul (db_of_Z i) s)) (db_of_Z dj))) ;;
      dstOft <- ev ((x * width + y) * hm_bands m * elem_size)%C ;;
      srcOft <- ev ((i * hm_samples m + j) * hm_bands m * elem_size)%C ;;
      n <- ev (hm_bands m * elem_size)%C ;;
      memcpy (hm_data md) dstOft (hm_data m) srcOft n)) ;;;
  ret dst_mat.
End Trig.
