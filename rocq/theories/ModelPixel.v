(** * Model: thresholds, mirroring, colour conversion
    (/repo/modules/process/src/c_src/threshold.c, GeometricTransformation.c,
     colortransform.c). *)
From Verif Require Import Base ModelCore ModelFloat.
From Coq Require Import Floats.SpecFloat.
Open Scope Z_scope.

(** ** threshold.c *)

(** threshold.c 74-84 (the same lines open every variant): the checks and the
    two headers. *)
Definition threshold_open (src_mat dst_mat : ptr) : M (smat * smat) :=
  assert (nonnull src_mat && nonnull dst_mat) ;;;
  ms <- sget src_mat ;;
  md <- sget dst_mat ;;
  assert ((sm_rows ms =? sm_rows md) && (sm_cols ms =? sm_cols md) && (sm_chan ms =? sm_chan md)) ;;;
  assert (sm_type ms =? 1) ;;;
  assert (sm_chan ms =? 1) ;;;
  ret (ms, md).

(** threshold.c 72-93: hypercv_threshold_binary. *)
Definition hypercv_threshold_binary (src_mat dst_mat : ptr) (thresh max_value : Z) : M unit :=
  h <- threshold_open src_mat dst_mat ;;
  let (ms, md) := (h : smat * smat) in
  n <- ev (sm_rows ms * sm_cols ms * sm_chan ms)%C ;;
  for_ 0 n (fun i =>
    x <- load8 (sm_data ms) i ;;
    if x >? thresh then store8 (sm_data md) i max_value
    else store8 (sm_data md) i 0).

(** threshold.c 95-116: hypercv_threshold_binary_inv. *)
Definition hypercv_threshold_binary_inv (src_mat dst_mat : ptr) (thresh max_value : Z) : M unit :=
  h <- threshold_open src_mat dst_mat ;;
  let (ms, md) := (h : smat * smat) in
  n <- ev (sm_rows ms * sm_cols ms * sm_chan ms)%C ;;
  for_ 0 n (fun i =>
    x <- load8 (sm_data ms) i ;;
    if x <=? thresh then store8 (sm_data md) i max_value
    else store8 (sm_data md) i 0).

(** threshold.c 118-139: hypercv_threshold_trunc. *)
Definition hypercv_threshold_trunc (src_mat dst_mat : ptr) (thresh max_value : Z) : M unit :=
  h <- threshold_open src_mat dst_mat ;;
  let (ms, md) := (h : smat * smat) in
  n <- ev (sm_rows ms * sm_cols ms * sm_chan ms)%C ;;
  for_ 0 n (fun i =>
    x <- load8 (sm_data ms) i ;;
    if x >? thresh then store8 (sm_data md) i thresh
    else y <- load8 (sm_data ms) i ;; store8 (sm_data md) i y).

(** threshold.c 141-162: hypercv_threshold_tozero. *)
Definition hypercv_threshold_tozero (src_mat dst_mat : ptr) (thresh max_value : Z) : M unit :=
  h <- threshold_open src_mat dst_mat ;;
  let (ms, md) := (h : smat * smat) in
  n <- ev (sm_rows ms * sm_cols ms * sm_chan ms)%C ;;
  for_ 0 n (fun i =>
    x <- load8 (sm_data ms) i ;;
    if x >? thresh then y <- load8 (sm_data ms) i ;; store8 (sm_data md) i y
    else store8 (sm_data md) i 0).

(** threshold.c 164-185: hypercv_threshold_tozero_inv. *)
Definition hypercv_threshold_tozero_inv (src_mat dst_mat : ptr) (thresh max_value : Z) : M unit :=
  h <- threshold_open src_mat dst_mat ;;
  let (ms, md) := (h : smat * smat) in
  n <- ev (sm_rows ms * sm_cols ms * sm_chan ms)%C ;;
  for_ 0 n (fun i =>
    x <- load8 (sm_data ms) i ;;
    if x <=? thresh then y <- load8 (sm_data ms) i ;; store8 (sm_data md) i y
    else store8 (sm_data md) i 0).

(** threshold.c 35-37: the grey value of a pixel as a double, clamped. *)
Definition otsu_grey (a b c : Z) : sf :=
  let temp := db_add (db_add (db_mul (db_of_Z a) (dlit 114 1000))
                             (db_mul (db_of_Z b) (dlit 587 1000)))
                     (db_mul (db_of_Z c) (dlit 299 1000)) in
  let temp := if SFltb temp (db_of_Z 0) then db_of_Z 0 else temp in
  if SFltb (db_of_Z 255) temp then db_of_Z 255 else temp.

(** threshold.c 29-40: the histogram (an array of doubles, here a function). *)
Definition otsu_histogram (ms : smat) (step : Z) : M (Z -> sf) :=
  forS 0 (sm_rows ms) (fun i h =>
    forS 0 (sm_cols ms) (fun j h =>
      x0 <- ev (i * step + j * 3)%C ;;
      a <- load8 (sm_data ms) x0 ;;
      x1 <- ev (i * step + j * 3 + 1)%C ;;
      b <- load8 (sm_data ms) x1 ;;
      x2 <- ev (i * step + j * 3 + 2)%C ;;
      c <- load8 (sm_data ms) x2 ;;
      k <- ev (int_of_sf (otsu_grey a b c)) ;;
      if inb k 256 then
        ret (fun y => if y =? k then db_add (h y) (db_of_Z 1) else h y)
      else ub) h) (fun _ => db_of_Z 0).

(** threshold.c 51-54 and 56-59: sum of j*Histogram[j] over [lo, hi). *)
Fixpoint wsum (n : nat) (j : Z) (h : Z -> sf) (acc : sf) : sf :=
  match n with
  | O => acc
  | S n' => wsum n' (j + 1) h (db_add acc (db_mul (db_of_Z j) (h j)))
  end.

(** threshold.c 44-62: the between-class variance at level i, given N0 (already
    updated), N and the histogram. *)
Definition otsu_g (h : Z -> sf) (N N0 : sf) (i : Z) : sf :=
  let N1 := db_sub N N0 in
  let w0 := db_div N0 N in
  let w1 := db_sub (db_of_Z 1) w0 in
  let u0 := db_div (wsum (Z.to_nat (i + 1)) 0 h (db_of_Z 0)) N0 in
  let u1 := db_div (wsum (Z.to_nat (255 - i)) (i + 1) h (db_of_Z 0)) N1 in
  let d := db_sub u0 u1 in
  db_mul (db_mul (db_mul w0 w1) d) d.

(** threshold.c 42-68: the search loop; (N0, tempg, Threshold) are carried. *)
Fixpoint otsu_search (n : nat) (i : Z) (h : Z -> sf) (N N0 tempg : sf) (T : Z) : Z :=
  match n with
  | O => T
  | S n' =>
      let N0 := db_add N0 (h i) in
      if SFeqb (db_of_Z 0) (db_sub N N0) then T
      else
        let g := otsu_g h N N0 i in
        if SFltb tempg g then otsu_search n' (i + 1) h N N0 g i
        else otsu_search n' (i + 1) h N N0 tempg T
  end.

(** threshold.c 9-70: otsuThreshold. *)
Definition otsuThreshold (img : ptr) : M Z :=
  m <- sget img ;;
  step <- ev (sm_cols m * sm_chan m)%C ;;
  N <- ev (sm_cols m * sm_rows m)%C ;;
  h <- otsu_histogram m step ;;
  ret (otsu_search 256 0 h (db_of_Z N) (db_of_Z 0) (db_of_Z (-1)) 0).

(** threshold.c 189-214: hypercv_threshold_otsu. *)
Definition hypercv_threshold_otsu (src_mat dst_mat : ptr) : M unit :=
  h <- threshold_open src_mat dst_mat ;;
  let (ms, md) := (h : smat * smat) in
  thresh <- otsuThreshold src_mat ;;
  n <- ev (sm_rows ms * sm_cols ms * sm_chan ms)%C ;;
  for_ 0 n (fun i =>
    x <- load8 (sm_data ms) i ;;
    if x <? thresh then store8 (sm_data md) i 0
    else store8 (sm_data md) i 255).

(** threshold.c 218-258: hypercv_threshold (187 and 216: the mask and triangle
    variants are empty). *)
Definition hypercv_threshold (src_mat dst_mat : ptr) (thresh max_value type : Z) : M unit :=
  assert (nonnull src_mat) ;;;
  assert (nonnull dst_mat) ;;;
  assert ((type =? 0) || (type =? 1) || (type =? 2) || (type =? 3) || (type =? 4)
          || (type =? 7) || (type =? 8) || (type =? 16)) ;;;
  if type =? 0 then hypercv_threshold_binary src_mat dst_mat thresh max_value
  else if type =? 1 then hypercv_threshold_binary_inv src_mat dst_mat thresh max_value
  else if type =? 2 then hypercv_threshold_trunc src_mat dst_mat thresh max_value
  else if type =? 3 then hypercv_threshold_tozero src_mat dst_mat thresh max_value
  else if type =? 4 then hypercv_threshold_tozero_inv src_mat dst_mat thresh max_value
  else if type =? 7 then ret tt
  else if type =? 8 then hypercv_threshold_otsu src_mat dst_mat
  else ret tt.

(** ** GeometricTransformation.c *)

(** GeometricTransformation.c 9-25: simple_mat_flip_horizontal. *)
Definition simple_mat_flip_horizontal (src_mat dst_mat : ptr) : M unit :=
  assert (nonnull src_mat && nonnull dst_mat) ;;;
  ms <- sget src_mat ;;
  let rows := sm_rows ms in
  let cols := sm_cols ms in
  let channels := sm_chan ms in
  md <- sget dst_mat ;;
  assert ((rows =? sm_rows md) && (cols =? sm_cols md) && (channels =? sm_chan md)) ;;;
  for_ 0 rows (fun i =>
    for_ 0 cols (fun j =>
      for_ 0 channels (fun k =>
        d <- ev (i * cols * channels + j * channels + k)%C ;;
        x <- ev (i * cols * channels + (cols - 1 - j) * channels + k)%C ;;
        v <- load8 (sm_data ms) x ;;
        store8 (sm_data md) d v))).

(** GeometricTransformation.c 28-44: simple_mat_flip_vertical. *)
Definition simple_mat_flip_vertical (src_mat dst_mat : ptr) : M unit :=
  assert (nonnull src_mat && nonnull dst_mat) ;;;
  ms <- sget src_mat ;;
  let rows := sm_rows ms in
  let cols := sm_cols ms in
  let channels := sm_chan ms in
  md <- sget dst_mat ;;
  assert ((rows =? sm_rows md) && (cols =? sm_cols md) && (channels =? sm_chan md)) ;;;
  for_ 0 rows (fun i =>
    n <- ev (cols * channels)%C ;;
    for_ 0 n (fun j =>
      d <- ev (i * cols * channels + j)%C ;;
      x <- ev ((rows - 1 - i) * cols * channels + j)%C ;;
      v <- load8 (sm_data ms) x ;;
      store8 (sm_data md) d v)).

(** GeometricTransformation.c 46-72: simple_mat_flip. *)
Definition simple_mat_flip (src_mat dst_mat : ptr) (FLIPCODE : Z) : M unit :=
  assert (nonnull src_mat && nonnull dst_mat) ;;;
  ms <- sget src_mat ;;
  md <- sget dst_mat ;;
  assert ((sm_rows ms =? sm_rows md) && (sm_cols ms =? sm_cols md)) ;;;
  if FLIPCODE =? 1 then simple_mat_flip_horizontal src_mat dst_mat
  else if FLIPCODE =? 0 then simple_mat_flip_vertical src_mat dst_mat
  else if FLIPCODE =? -1 then
    temp <- simple_mat_copy src_mat ;;
    simple_mat_flip_horizontal src_mat temp ;;;
    simple_mat_flip_vertical temp dst_mat ;;;
    delete_simple_mat temp
  else simple_mat_flip_horizontal src_mat dst_mat.

(** ** colortransform.c *)

(** colortransform.c 46-65: sm_binary2rgb. *)
Definition sm_binary2rgb (binary_image : ptr) : M ptr :=
  mb <- sget binary_image ;;
  assert (sm_chan mb =? 1) ;;;
  let rows := sm_rows mb in
  let cols := sm_cols mb in
  let channels := 3 in
  rgb_image <- create_simple_mat rows cols 1 channels ;;
  mr <- sget rgb_image ;;
  for_ 0 rows (fun i =>
    for_ 0 cols (fun j =>
      for_ 0 channels (fun k =>
        d <- ev (i * cols * 3 + j * 3 + k)%C ;;
        x <- ev (i * cols + j)%C ;;
        v <- load8 (sm_data mb) x ;;
        store8 (sm_data mr) d (v * 255)))) ;;;
  ret rgb_image.

(** colortransform.c 72-91: sm_gray2rgb. *)
Definition sm_gray2rgb (gray_image : ptr) : M ptr :=
  mg <- sget gray_image ;;
  assert (sm_chan mg =? 1) ;;;
  let rows := sm_rows mg in
  let cols := sm_cols mg in
  let channels := 3 in
  rgb_image <- create_simple_mat rows cols 1 channels ;;
  mr <- sget rgb_image ;;
  for_ 0 rows (fun i =>
    for_ 0 cols (fun j =>
      for_ 0 channels (fun k =>
        d <- ev (i * cols * 3 + j * 3 + k)%C ;;
        x <- ev (i * cols + j)%C ;;
        v <- load8 (sm_data mg) x ;;
        store8 (sm_data mr) d v))) ;;;
  ret rgb_image.

(** colortransform.c 121: one step of the maximum. *)
Definition gray_max_step (tmp : sf) (v : Z) : sf :=
  if SFltb (fl_of_Z v) tmp then tmp else fl_of_Z v.
(** colortransform.c 127: the weighted mean, rounded to float. *)
Definition gray_weighted (r g b : Z) : sf :=
  fl_of_db (db_add (db_add (db_mul (db_of_Z r) (dlit 299 1000))
                           (db_mul (db_of_Z g) (dlit 578 1000)))
                   (db_mul (db_of_Z b) (dlit 114 1000))).
(** colortransform.c 135: tmp/3+0.5 (tmp/3 in float, the sum in double). *)
Definition gray_average (tmp : sf) : sf :=
  db_add (db_of_fl (fl_div tmp (fl_of_Z 3))) (dlit 1 2).

(** colortransform.c 98-142: sm_rgb2gray. *)
Definition sm_rgb2gray (rgb_image : ptr) (method : Z) : M ptr :=
  mr <- sget rgb_image ;;
  assert (sm_chan mr =? 3) ;;;
  let rows := sm_rows mr in
  let cols := sm_cols mr in
  gray_image <- create_simple_mat rows cols 1 1 ;;
  mg <- sget gray_image ;;
  for_ 0 rows (fun i =>
    for_ 0 cols (fun j =>
      if method =? 1 then
        tmp <- forS 0 3 (fun k tmp =>
          x <- ev (i * cols * 3 + j * 3 + k)%C ;;
          v <- load8 (sm_data mr) x ;;
          ret (gray_max_step tmp v)) (fl_of_Z 0) ;;
        d <- ev (i * cols + j)%C ;;
        z <- ev (int_of_sf tmp) ;;
        store8 (sm_data mg) d z
      else if method =? 2 then
        x0 <- ev (i * cols * 3 + j * 3)%C ;;
        r <- load8 (sm_data mr) x0 ;;
        x1 <- ev (i * cols * 3 + j * 3 + 1)%C ;;
        g <- load8 (sm_data mr) x1 ;;
        x2 <- ev (i * cols * 3 + j * 3 + 2)%C ;;
        b <- load8 (sm_data mr) x2 ;;
        d <- ev (i * cols + j)%C ;;
        z <- ev (int_of_sf (gray_weighted r g b)) ;;
        store8 (sm_data mg) d z
      else
        tmp <- forS 0 3 (fun k tmp =>
          x <- ev (i * cols * 3 + j * 3 + k)%C ;;
          v <- load8 (sm_data mr) x ;;
          ret (fl_add tmp (fl_of_Z v))) (fl_of_Z 0) ;;
        d <- ev (i * cols + j)%C ;;
        z <- ev (int_of_sf (gray_average tmp)) ;;
        store8 (sm_data mg) d z)) ;;;
  ret gray_image.

(** colortransform.c 150-176: sm_bgr2rgb. *)
Definition sm_bgr2rgb (src_mat dst_mat : ptr) : M unit :=
  assert (nonnull src_mat && nonnull dst_mat) ;;;
  ms <- sget src_mat ;;
  assert (sm_type ms =? 1) ;;;
  md <- sget dst_mat ;;
  assert ((sm_rows ms =? sm_rows md) && (sm_cols ms =? sm_cols md) && (sm_chan ms =? sm_chan md)) ;;;
  assert (sm_chan ms =? 3) ;;;
  let rows := sm_rows ms in
  let cols := sm_cols ms in
  let channels := sm_chan ms in
  for_ 0 rows (fun i =>
    for_ 0 cols (fun j =>
      for_ 0 channels (fun t =>
        x0 <- ev (i * cols * channels + j * channels)%C ;;
        x1 <- ev (i * cols * channels + j * channels + 1)%C ;;
        x2 <- ev (i * cols * channels + j * channels + 2)%C ;;
        v <- load8 (sm_data ms) x2 ;;
        store8 (sm_data md) x0 v ;;;
        v <- load8 (sm_data ms) x1 ;;
        store8 (sm_data md) x1 v ;;;
        v <- load8 (sm_data ms) x0 ;;
        store8 (sm_data md) x2 v))).
