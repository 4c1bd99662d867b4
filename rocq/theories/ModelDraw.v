(** * Model: drawing points and lines (/repo/modules/highgui/src/draw.c). *)
From Verif Require Import Base ModelCore ModelFloat.
From Coq Require Import Floats.SpecFloat.
Open Scope Z_scope.

(** simplemat.h 48-53: RGB_data, three unsigned chars. *)
Record rgb := mkRGB { c_r : Z; c_g : Z; c_b : Z }.

(** draw.c 10-20 and 49-61: the checks and the copy. *)
Definition draw_open (src_mat dst_mat : ptr) : M (smat * smat) :=
  assert (nonnull src_mat && nonnull dst_mat) ;;;
  ms <- sget src_mat ;;
  assert (sm_type ms =? 1) ;;;
  md <- sget dst_mat ;;
  assert ((sm_rows ms =? sm_rows md) && (sm_cols ms =? sm_cols md) && (sm_chan ms =? sm_chan md)) ;;;
  n <- ev (sm_rows ms * sm_cols ms * sm_chan ms)%C ;;
  memcpy (sm_data md) 0 (sm_data ms) 0 n ;;;
  ret (ms, md).

(** draw.c 30-41: one pixel of the square. *)
Definition draw_dot (rows cols channels : Z) (dst : ptr) (color : rgb) (x y i j : Z) : M unit :=
  xi <- ev (x + i)%C ;;
  if (xi >=? 0) && (xi <? cols) then
    yj <- ev (y + j)%C ;;
    if (yj >=? 0) && (yj <? rows) then
      if channels =? 3 then
        k <- ev (yj * cols * channels + xi * channels)%C ;;
        store8 dst k (c_b color) ;;;
        k1 <- ev (yj * cols * channels + xi * channels + 1)%C ;;
        store8 dst k1 (c_g color) ;;;
        k2 <- ev (yj * cols * channels + xi * channels + 2)%C ;;
        store8 dst k2 (c_r color)
      else if channels =? 1 then
        k <- ev (yj * cols + xi)%C ;;
        store8 dst k (c_r color)
      else ret tt
    else ret tt
  else ret tt.

(** draw.c 8-44: draw_POINT; a POINT is two ints (point.h 5-8). *)
Definition draw_POINT (src_mat dst_mat v : ptr) (point_num : Z) (color : rgb) (size : Z) : M unit :=
  h <- draw_open src_mat dst_mat ;;
  let (ms, md) := (h : smat * smat) in
  for_ 0 point_num (fun k =>
    x <- loadle v (8 * k) 4 ;;
    y <- loadle v (8 * k + 4) 4 ;;
    lo <- ev ((0 - size) / 2)%C ;;
    hi <- ev (size / 2)%C ;;
    for_ lo (hi + 1) (fun i =>
      for_ lo (hi + 1) (fun j =>
        draw_dot (sm_rows ms) (sm_cols ms) (sm_chan ms) (sm_data md) color (sgn 32 x) (sgn 32 y) i j))).

(** draw.c 62-63: slope and intercept. *)
Definition line_k (x1 y1 x2 y2 : Z) : M sf :=
  dx <- ev (x2 - x1)%C ;;
  dy <- ev (y2 - y1)%C ;;
  ret (fl_div (fl_of_Z dx) (fl_of_Z dy)).
Definition line_b (x1 y1 : Z) (k : sf) : sf := fl_sub (fl_of_Z y1) (fl_mul k (fl_of_Z x1)).

(** draw.c 69: the row computed for column j, (int)(j*k+b+0.5). *)
Definition line_row (k b : sf) (j : Z) : cint :=
  int_of_sf (db_add (db_of_fl (fl_add (fl_mul (fl_of_Z j) k) b)) (dlit 1 2)).

(** draw.c 71-84: the pixels of one row around column j; line 83 compares
    instead of assigning. *)
Definition line_span (cols channels : Z) (dst : ptr) (color : rgb) (thickness i j : Z) : M unit :=
  lo <- ev ((0 - thickness) / 2)%C ;;
  hi <- ev (thickness / 2)%C ;;
  for_ lo (hi + 1) (fun t =>
    jt <- ev (j + t)%C ;;
    if (jt >=? 0) && (jt <? cols) then
      if channels =? 3 then
        k <- ev (i * cols * channels + jt * channels)%C ;;
        store8 dst k (c_r color) ;;;
        k1 <- ev (i * cols * channels + jt * channels + 1)%C ;;
        store8 dst k1 (c_g color) ;;;
        k2 <- ev (i * cols * channels + jt * channels + 2)%C ;;
        store8 dst k2 (c_b color)
      else if channels =? 1 then
        k <- ev (i * cols + jt)%C ;;
        x <- load8 dst k ;;
        ret tt
      else ret tt
    else ret tt).

(** draw.c 47-88: draw_line. *)
Definition draw_line (src_mat dst_mat : ptr) (x1 y1 x2 y2 : Z) (color : rgb) (thickness : Z) : M unit :=
  h <- draw_open src_mat dst_mat ;;
  let (ms, md) := (h : smat * smat) in
  k <- line_k x1 y1 x2 y2 ;;
  let b := line_b x1 y1 k in
  for_ 0 (sm_rows ms) (fun i =>
    for_ 0 (sm_cols ms) (fun j =>
      r <- ev (line_row k b j) ;;
      if i =? r then line_span (sm_cols ms) (sm_chan ms) (sm_data md) color thickness i j
      else ret tt)).
