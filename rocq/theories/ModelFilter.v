(** * Model: filters and gradients
    (/repo/modules/process/src/c_src/filter.c, gradient.c). *)
From Verif Require Import Base ModelCore ModelFloat ModelConv ModelBorder.
From Coq Require Import Floats.SpecFloat.
Open Scope Z_scope.

(** filter.c 109-112, 115-118 and the like: the position itself, or the
    extrapolated one outside 0..len-1. *)
Definition border_index (p len border_type : Z) : M Z :=
  if (p <? 0) || (p >=? len) then hypercv_border_Interpolate p len border_type else ret p.

(** filter.c 21-28: median_member.  The loop condition gap++ tests gap and
    increments it; swap (14-19) exchanges its own copies of the bytes.  [fuel]
    bounds the passes of the outer loop. *)
Fixpoint median_inner (fuel : nat) (array : ptr) (j gap : Z) : M unit :=
  if j >=? 0 then
    a <- load8 array j ;;
    jg <- ev (j + gap)%C ;;
    b <- load8 array jg ;;
    if a >? b then
      match fuel with
      | O => fuel_
      | S fuel' => j' <- ev (j - gap)%C ;; median_inner fuel' array j' gap
      end
    else ret tt
  else ret tt.
Fixpoint median_loop (fuel : nat) (array : ptr) (size gap : Z) : M unit :=
  gap1 <- ev (gap + 1)%C ;;
  if gap =? 0 then ret tt
  else
    match fuel with
    | O => fuel_
    | S fuel' =>
        for_ gap1 size (fun i =>
          j <- ev (i - gap1)%C ;;
          median_inner (Z.to_nat size) array j gap1) ;;;
        gap2 <- ev (gap1 / 2)%C ;;
        median_loop fuel' array size gap2
    end.
Definition median_member (fuel : nat) (array : ptr) (size : Z) : M Z :=
  gap <- ev (size / 2)%C ;;
  median_loop fuel array size gap ;;;
  k <- ev (size / 2)%C ;;
  load8 array k.

(** filter.c 140-168: hypercv_medianblur. *)
Definition hypercv_medianblur (fuel : nat) (src_mat dst_mat : ptr) (size : Z) : M unit :=
  assert (negb (nonnull src_mat)) ;;;
  assert (Z.rem size 2 =? 1) ;;;
  ms <- sget src_mat ;;
  let rows := sm_rows ms in
  let cols := sm_cols ms in
  md <- sget dst_mat ;;
  n <- ev (size * size)%C ;;
  arr <- malloc n ;;
  for_ 0 rows (fun i =>
    for_ 0 cols (fun j =>
      a <- ev (i - size / 2)%C ;;
      b <- ev (i + size / 2)%C ;;
      c <- ev (j - size / 2)%C ;;
      d <- ev (j + size / 2)%C ;;
      if (a >=? 0) && (b <? rows) && (c >=? 0) && (d <? cols) then
        lo <- ev ((0 - size) / 2)%C ;;
        hi <- ev (size / 2)%C ;;
        for_ lo (hi + 1) (fun m =>
          for_ lo (hi + 1) (fun n =>
            x <- ev ((m + size / 2) * size + n + size / 2)%C ;;
            y <- ev ((i + m) * cols + j + n)%C ;;
            v <- load8 (sm_data ms) y ;;
            store8 arr x v)) ;;;
        v <- median_member fuel arr size ;;
        k <- ev (i * cols + j)%C ;;
        store8 (sm_data md) k v
      else
        k <- ev (i * cols + j)%C ;;
        v <- load8 (sm_data ms) k ;;
        store8 (sm_data md) k v)).

(** filter.c 176-208: hypercv_meanblur. *)
Definition hypercv_meanblur (src_mat dst_mat : ptr) (size : Z) : M unit :=
  assert (negb (nonnull src_mat)) ;;;
  ms <- sget src_mat ;;
  let rows := sm_rows ms in
  let cols := sm_cols ms in
  md <- sget dst_mat ;;
  n <- ev (size * size)%C ;;
  arr <- malloc n ;;
  for_ 0 rows (fun i =>
    for_ 0 cols (fun j =>
      lo <- ev ((0 - size) / 2)%C ;;
      hi <- ev (size / 2)%C ;;
      r <- forS lo hi (fun m (acc : Z * Z) =>
        forS lo hi (fun n (acc : Z * Z) =>
          let (sum, num) := acc in
          im <- ev (i + m)%C ;;
          jm <- ev (j + m)%C ;;
          if (im >=? 0) && (im <? rows) && (jm >=? 0) && (jm <? cols) then
            k <- ev ((i + m) * cols + j + m)%C ;;
            v <- load8 (sm_data ms) k ;;
            sum' <- ev (sum + v)%C ;;
            num' <- ev (num + 1)%C ;;
            ret (sum', num')
          else ret (sum, num)) acc) (0, 0) ;;
      let (sum, num) := (r : Z * Z) in
      q <- ev (sum / num)%C ;;
      k <- ev (i * cols + j)%C ;;
      store8 (sm_data md) k q)).

(** filter.c 120-127: dst_data[d] += kernel[k]*src_data[x]. *)
Definition filter_add (dst kernel src : ptr) (d k x : Z) : M unit :=
  a <- loadf dst d ;;
  w <- loadf kernel k ;;
  v <- load8 src x ;;
  storef dst d (fl_add a (fl_mul w (fl_of_Z v))).

(** filter.c 86-132: hypercv_filter2D; line 90 assigns the type inside the
    assertion. *)
Definition hypercv_filter2D (src dst kernel : ptr) (k_rows k_cols border_type : Z) : M unit :=
  assert (nonnull src && nonnull dst) ;;;
  assert (nonnull kernel) ;;;
  m0 <- sget dst ;;
  set_header dst (CSM (mkSM (sm_rows m0) (sm_cols m0) 4 (sm_chan m0) (sm_esize m0) (sm_data m0))) ;;;
  ms <- sget src ;;
  let rows := sm_rows ms in
  let cols := sm_cols ms in
  let cn := sm_chan ms in
  md <- sget dst ;;
  for_ 0 rows (fun i =>
    for_ 0 cols (fun j =>
      for_ 0 k_rows (fun m =>
        a <- ev (i + m - k_rows / 2)%C ;;
        index_i <- border_index a rows border_type ;;
        for_ 0 k_cols (fun n =>
          b <- ev (j + n - k_cols / 2)%C ;;
          index_j <- border_index b cols border_type ;;
          if cn =? 1 then
            d <- ev (i * cols + j)%C ;;
            k <- ev (m * k_cols + n)%C ;;
            x <- ev (index_i * cols + index_j)%C ;;
            filter_add (sm_data md) kernel (sm_data ms) d k x
          else if cn =? 3 then
            for_ 0 3 (fun c =>
              d <- ev (i * cols * cn + j * cn + c)%C ;;
              k <- ev (m * k_cols + n)%C ;;
              x <- ev (index_i * cols * cn + index_j * cn + c)%C ;;
              filter_add (sm_data md) kernel (sm_data ms) d k x)
          else ret tt)))).

(** filter.c 461-491: hypercv_integral. *)
Definition hypercv_integral (src dst : ptr) : M unit :=
  assert (nonnull src) ;;;
  ms <- sget src ;;
  let rows := sm_rows ms in
  let cols := sm_cols ms in
  assert (sm_type ms =? 1) ;;;
  assert (sm_chan ms =? 1) ;;;
  dst <- (if nonnull dst then ret dst else create_simple_mat rows cols 3 1) ;;
  md <- sget dst ;;
  assert ((sm_chan md =? 1) && (sm_type md =? 3)) ;;;
  for_ 0 rows (fun i =>
    for_ 0 cols (fun j =>
      k <- ev (i * cols + j)%C ;;
      if (i =? 0) || (j =? 0) then
        v <- load8 (sm_data ms) k ;;
        storele (sm_data md) (4 * k) 4 v
      else
        ka <- ev ((i - 1) * cols + j)%C ;;
        a <- loadle (sm_data md) (4 * ka) 4 ;;
        kb <- ev (i * cols + j - 1)%C ;;
        b <- loadle (sm_data md) (4 * kb) 4 ;;
        v <- load8 (sm_data ms) k ;;
        kc <- ev ((i - 1) * cols + j - 1)%C ;;
        c <- loadle (sm_data md) (4 * kc) 4 ;;
        r <- ev (sgn 32 a + sgn 32 b + v - sgn 32 c)%C ;;
        storele (sm_data md) (4 * k) 4 r)).

(** gradient.c 24-31: the Laplacian kernel. *)
Definition laplace_kernel (k_size m n : Z) : sf :=
  let k := nth (Z.to_nat (m * 3 + n)) [fl_of_Z 0; fl_of_Z 1; fl_of_Z 0; fl_of_Z 1; fl_of_Z (-4); fl_of_Z 1;
                                       fl_of_Z 0; fl_of_Z 1; fl_of_Z 0] (fl_of_Z 0) in
  if k_size =? 2 then fl_mul k (fl_of_Z 2) else k.

(** gradient.c 16-62: hypercv_laplacian. *)
Definition hypercv_laplacian (src dst : ptr) (k_size border_type : Z) : M unit :=
  assert (nonnull src && nonnull dst) ;;;
  assert (k_size >? 0) ;;;
  ms <- sget src ;;
  let cols := sm_cols ms in
  let rows := sm_rows ms in
  md <- sget dst ;;
  for_ 0 rows (fun i =>
    for_ 0 cols (fun j =>
      sum <- forS 0 3 (fun m sum =>
        forS 0 3 (fun n sum =>
          a <- ev (i + m - 1)%C ;;
          index_m <- border_index a rows border_type ;;
          b <- ev (j + n - 1)%C ;;
          index_n <- border_index b cols border_type ;;
          x <- ev (index_m * cols + index_n)%C ;;
          v <- load8 (sm_data ms) x ;;
          ret (fl_add sum (fl_mul (laplace_kernel k_size m n) (fl_of_Z v)))) sum) (fl_of_Z 0) ;;
      k <- ev (i * cols + j)%C ;;
      store8 (sm_data md) k (saturate_cast_float2uchar sum))).

(** gradient.c 91-92: the two Sobel kernels. *)
Definition sobel_gx (m n : Z) : Z := nth (Z.to_nat (m * 3 + n)) [-1; 0; 1; -2; 0; 2; -1; 0; 1] 0.
Definition sobel_gy (m n : Z) : Z := nth (Z.to_nat (m * 3 + n)) [1; 2; 1; 0; 0; 0; -1; -2; -1] 0.

(** gradient.c 75-130: hypercv_sobel. *)
Definition hypercv_sobel (src dst : ptr) (threshold border_type : Z) : M unit :=
  ms <- sget src ;;
  md <- sget dst ;;
  assert ((sm_rows ms =? sm_rows md) && (sm_cols ms =? sm_cols md)) ;;;
  assert (border_mode border_type) ;;;
  assert (sm_chan ms =? 1) ;;;
  let rows := sm_rows ms in
  let cols := sm_cols ms in
  for_ 0 rows (fun i =>
    for_ 0 cols (fun j =>
      g <- forS 0 3 (fun m (g : Z * Z) =>
        forS 0 3 (fun n (g : Z * Z) =>
          let (gradx, grady) := g in
          a <- ev (i + m - 1)%C ;;
          index_m <- border_index a rows border_type ;;
          b <- ev (j + n - 1)%C ;;
          index_n <- border_index b cols border_type ;;
          x <- ev (index_m * cols + index_n)%C ;;
          v <- load8 (sm_data ms) x ;;
          gradx' <- ev (gradx + sobel_gx m n * v)%C ;;
          grady' <- ev (grady + sobel_gy m n * v)%C ;;
          ret (gradx', grady')) g) (0, 0) ;;
      let (gradx, grady) := (g : Z * Z) in
      let ax := Z.abs gradx in
      let ay := Z.abs grady in
      let pix := if ax >? ay then ax else ay in
      k <- ev (i * cols + j)%C ;;
      store8 (sm_data md) k (if pix >? threshold then 255 else 0))).
