(** * Model: Gaussian smoothing (/repo/modules/process/src/c_src/filter.c 217-454).
    exp is a parameter. *)
From Verif Require Import Base ModelCore ModelFloat ModelDouble ModelConv ModelBorder ModelFilter.
From Coq Require Import Floats.SpecFloat.
Open Scope Z_scope.

(** filter.c 223-226: the tables, in units of 1/128. *)
Definition small_gaussian_tab (h : Z) : list Z :=
  nth (Z.to_nat h)
    [ [128]; [32; 64; 32]; [8; 32; 48; 32; 8]; [4; 14; 28; 36; 28; 14; 4] ] [].
(** The float z/128. *)
Definition fl_128th (z : Z) : sf := fl_div (fl_of_Z z) (fl_of_Z 128).

(** 241, 249: the constants 0.5, 0.3, 0.8, -0.5. *)
Definition db_half : sf := dlit 1 2.
Definition db_03 : sf := dlit 3 10.
Definition db_08 : sf := dlit 8 10.
Definition db_mhalf : sf := dlit (-1) 2.

Section Exp.
Variable exp_ : sf -> sf.

(** filter.c 249-250: x and t for index i; scale2X is the double of line 242. *)
Definition gauss_x (kernel_size i : Z) : sf :=
  db_sub (db_of_Z i) (db_mul (db_of_Z (kernel_size - 1)) db_half).
Definition gauss_t (fixed : bool) (kernel_size : Z) (scale2X : sf) (i : Z) : sf :=
  if fixed then db_of_fl (fl_128th (nth (Z.to_nat i) (small_gaussian_tab (kernel_size / 2)) 0))
  else exp_ (db_mul (db_mul scale2X (gauss_x kernel_size i)) (gauss_x kernel_size i)).
(** 241-242. *)
Definition gauss_scale (kernel_size : Z) (sigma : sf) : sf :=
  let sigmaX := if SFltb (db_of_Z 0) sigma then sigma
    else db_add (db_mul (db_sub (db_mul (db_of_Z (kernel_size - 1)) db_half) (db_of_Z 1)) db_03) db_08 in
  db_div db_mhalf (db_mul sigmaX sigmaX).
(** 235. *)
Definition gauss_fixed (kernel_size : Z) (sigma : sf) : bool :=
  (Z.rem kernel_size 2 =? 1) && (kernel_size <=? 7) && SFleb sigma (db_of_Z 0).

(** filter.c 217-271: gaussian_kernel. *)
Definition gaussian_kernel (kernel_size : Z) (sigma : sf) (ktype : Z) : M ptr :=
  assert (kernel_size >? 0) ;;;
  assert ((ktype =? 4) || (ktype =? 5)) ;;;
  kernel <- create_simple_mat 1 kernel_size ktype 1 ;;
  m <- sget kernel ;;
  let fixed := gauss_fixed kernel_size sigma in
  let scale2X := gauss_scale kernel_size sigma in
  sum <- forS 0 kernel_size (fun i sum =>
    let t := gauss_t fixed kernel_size scale2X i in
    if ktype =? 4 then
      storef (sm_data m) i (fl_of_db t) ;;;
      v <- loadf (sm_data m) i ;;
      ret (db_add sum (db_of_fl v))
    else
      stored_ (sm_data m) i t ;;;
      v <- loadd (sm_data m) i ;;
      ret (db_add sum v)) (db_of_Z 0) ;;
  let sum := db_div (db_of_Z 1) sum in
  for_ 0 kernel_size (fun i =>
    if ktype =? 4 then
      v <- loadf (sm_data m) i ;;
      storef (sm_data m) i (fl_of_db (db_mul (db_of_fl v) sum))
    else
      v <- loadd (sm_data m) i ;;
      stored_ (sm_data m) i (db_mul v sum)) ;;;
  ret kernel.

(** filter.c 388-394, 434-440. *)
Definition clamp_255 (x : sf) : sf :=
  if SFltb x (fl_of_Z 0) then fl_of_Z 0 else if SFltb (fl_of_Z 255) x then fl_of_Z 255 else x.

(** filter.c 322-454: hypercv_gaussian_blur_with_kernel.  The accumulators
    sum[0..2] are a triple; for one channel only the first is used. *)
Definition hypercv_gaussian_blur_with_kernel (src_mat dst_mat kernel_mat_x kernel_mat_y : ptr) (border_type : Z) : M unit :=
  mx <- sget kernel_mat_x ;;
  my <- sget kernel_mat_y ;;
  let ksize_width := sm_cols mx in
  let ksize_height := sm_cols my in
  assert (nonnull src_mat) ;;;
  assert (ksize_width >=? 0) ;;;
  assert (ksize_height >=? 0) ;;;
  assert (border_mode border_type) ;;;
  ms <- sget src_mat ;;
  let cn := sm_chan ms in
  assert ((cn =? 1) || (cn =? 3)) ;;;
  dst_mat <- (if nonnull dst_mat then ret dst_mat
              else create_simple_mat (sm_rows ms) (sm_cols ms) (sm_type ms) cn) ;;
  md <- sget dst_mat ;;
  let src_rows := sm_rows ms in
  let src_cols := sm_cols ms in
  temp_mat <- create_simple_mat src_rows src_cols 4 cn ;;
  mt <- sget temp_mat ;;
  for_ 0 src_rows (fun i =>
    for_ 0 src_cols (fun j =>
      sum <- forS 0 ksize_width (fun k (sum : sf * sf * sf) =>
        let '(s0, s1, s2) := sum in
        a <- ev (j + k - ksize_width / 2)%C ;;
        index <- border_index a src_cols border_type ;;
        w <- loadf (sm_data mx) k ;;
        if cn =? 1 then
          x <- ev (i * src_cols + index)%C ;;
          v <- load8 (sm_data ms) x ;;
          ret (fl_add s0 (fl_mul w (fl_of_Z v)), s1, s2)
        else
          x0 <- ev (i * src_cols * cn + index * cn)%C ;;
          v0 <- load8 (sm_data ms) x0 ;;
          x1 <- ev (i * src_cols * cn + index * cn + 1)%C ;;
          v1 <- load8 (sm_data ms) x1 ;;
          x2 <- ev (i * src_cols * cn + index * cn + 2)%C ;;
          v2 <- load8 (sm_data ms) x2 ;;
          ret (fl_add s0 (fl_mul w (fl_of_Z v0)), fl_add s1 (fl_mul w (fl_of_Z v1)),
               fl_add s2 (fl_mul w (fl_of_Z v2)))) (fl_of_Z 0, fl_of_Z 0, fl_of_Z 0) ;;
      let '(s0, s1, s2) := (sum : sf * sf * sf) in
      if cn =? 1 then
        k <- ev (i * sm_cols mt + j)%C ;;
        storef (sm_data mt) k (clamp_255 s0)
      else
        k0 <- ev (i * sm_cols mt * cn + j * cn + 0)%C ;;
        storef (sm_data mt) k0 (clamp_255 s0) ;;;
        k1 <- ev (i * sm_cols mt * cn + j * cn + 1)%C ;;
        storef (sm_data mt) k1 (clamp_255 s1) ;;;
        k2 <- ev (i * sm_cols mt * cn + j * cn + 2)%C ;;
        storef (sm_data mt) k2 (clamp_255 s2))) ;;;
  for_ 0 src_cols (fun i =>
    for_ 0 src_rows (fun j =>
      sum <- forS 0 ksize_height (fun k (sum : sf * sf * sf) =>
        let '(s0, s1, s2) := sum in
        a <- ev (j + k - ksize_height / 2)%C ;;
        index <- border_index a src_rows border_type ;;
        w <- loadf (sm_data my) k ;;
        if cn =? 1 then
          x <- ev (index * sm_cols mt + i)%C ;;
          v <- loadf (sm_data mt) x ;;
          ret (fl_add s0 (fl_mul w v), s1, s2)
        else
          x0 <- ev (index * sm_cols mt * cn + i * cn)%C ;;
          v0 <- loadf (sm_data mt) x0 ;;
          x1 <- ev (index * sm_cols mt * cn + i * cn + 1)%C ;;
          v1 <- loadf (sm_data mt) x1 ;;
          x2 <- ev (index * sm_cols mt * cn + i * cn + 2)%C ;;
          v2 <- loadf (sm_data mt) x2 ;;
          ret (fl_add s0 (fl_mul w v0), fl_add s1 (fl_mul w v1), fl_add s2 (fl_mul w v2)))
        (fl_of_Z 0, fl_of_Z 0, fl_of_Z 0) ;;
      let '(s0, s1, s2) := (sum : sf * sf * sf) in
      if cn =? 1 then
        k <- ev (j * sm_cols md + i)%C ;;
        store8 (sm_data md) k (saturate_cast_float2uchar (clamp_255 s0))
      else
        k0 <- ev (j * sm_cols md * cn + i * cn)%C ;;
        store8 (sm_data md) k0 (saturate_cast_float2uchar (clamp_255 s0)) ;;;
        k1 <- ev (j * sm_cols md * cn + i * cn + 1)%C ;;
        store8 (sm_data md) k1 (saturate_cast_float2uchar (clamp_255 s1)) ;;;
        k2 <- ev (j * sm_cols md * cn + i * cn + 2)%C ;;
        store8 (sm_data md) k2 (saturate_cast_float2uchar (clamp_255 s2)))).

(** filter.c 282-313: hypercv_gaussian_blur.  Lines 290-296 change nothing, and
    301-304 do not apply to the sizes line 285 lets through. *)
Definition hypercv_gaussian_blur (src_mat dst_mat : ptr) (ksize_width ksize_height : Z) (sigma1 sigma2 : sf) (border_type : Z) : M unit :=
  assert (nonnull src_mat) ;;;
  assert ((ksize_width >? 0) && (Z.rem ksize_width 2 =? 1) && (ksize_height >? 0) && (Z.rem ksize_height 2 =? 1)) ;;;
  assert (border_mode border_type) ;;;
  _ <- sget src_mat ;;
  let sigma2 := if SFleb sigma2 (db_of_Z 0) then sigma1 else sigma2 in
  let sigma1 := if SFltb (db_of_Z 0) sigma1 then sigma1 else db_of_Z 0 in
  let sigma2 := if SFltb (db_of_Z 0) sigma2 then sigma2 else db_of_Z 0 in
  kx <- gaussian_kernel ksize_width sigma1 4 ;;
  ky <- gaussian_kernel ksize_height sigma2 4 ;;
  hypercv_gaussian_blur_with_kernel src_mat dst_mat kx ky border_type.
End Exp.
