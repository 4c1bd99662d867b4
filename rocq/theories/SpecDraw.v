(** * Specifications: drawing (no modelled code). *)
From Verif Require Import Base ModelFloat SpecBase SpecNum SpecMatrix.
From Coq Require Import Floats.SpecFloat.
Open Scope Z_scope.

(** The array v holds the points pts as pairs of 32-bit ints. *)
Definition points_at (s : st) (v : ptr) (pts : list (Z * Z)) : Prop :=
  forall n x y, nth_error pts n = Some (x, y) ->
    int_range x /\ int_range y
    /\ word_at s v (8 * Z.of_nat n) 4 = Some (x mod 4294967296)
    /\ word_at s v (8 * Z.of_nat n + 4) 4 = Some (y mod 4294967296).

(** The pixel in row i and column j is at most h away (in each direction) from
    one of the points (column, row). *)
Definition near_points (pts : list (Z * Z)) (h i j : Z) : Prop :=
  exists x y, In (x, y) pts /\ Z.abs (j - x) <= h /\ Z.abs (i - y) <= h.

(** md holds the picture ms with the pixels in P replaced by the colour col
    (a value per channel); nothing else has changed. *)
Definition drawn (s : st) (ms md : smat) (P : Z -> Z -> Prop) (col : Z -> Z) (s' : st) : Prop :=
  (forall i j k, in_image md i j k ->
     (P i j -> pix s' md i j k = Some (col k)) /\ (~ P i j -> pix s' md i j k = pix s ms i j k))
  /\ only_bytes s (sm_data md) 0 (sm_rows md * sm_cols md * sm_chan md) s'.

(** Colours in an image with ch channels: blue, green, red for three channels
    and the red value as grey value for one channel. *)
Definition bgr (ch r g b k : Z) : Z :=
  if ch =? 3 then (if k =? 0 then b else if k =? 1 then g else r) else r.
(** The opposite channel order. *)
Definition rgb_order (r g b k : Z) : Z := if k =? 0 then r else if k =? 1 then g else b.

(** The pixel (i, j) lies on the segment between two points, rounded to the
    nearest row or column. *)
Definition on_segment (x1 y1 x2 y2 i j : Z) : Prop :=
  let dx := x2 - x1 in let dy := y2 - y1 in
  if Z.abs dy <=? Z.abs dx then
    Z.min x1 x2 <= j <= Z.max x1 x2 /\ 2 * Z.abs ((i - y1) * dx - (j - x1) * dy) <= Z.abs dx
  else Z.min y1 y2 <= i <= Z.max y1 y2 /\ 2 * Z.abs ((i - y1) * dx - (j - x1) * dy) <= Z.abs dy.

(** The row the library computes for column j: y = k x + b with
    k = (x2-x1)/(y2-y1) (the inverse of the slope) and b = y1 - k x1 in float
    arithmetic, plus one half, truncated. *)
Definition library_row (x1 y1 x2 y2 j : Z) : option Z :=
  let k := fl_div (fl_of_Z (x2 - x1)) (fl_of_Z (y2 - y1)) in
  let b := fl_sub (fl_of_Z y1) (fl_mul k (fl_of_Z x1)) in
  sf_trunc (db_add (db_of_fl (fl_add (fl_mul (fl_of_Z j) k) b)) (dlit 1 2)).

(** The pixels at most h columns away from such a row. *)
Definition library_line (x1 y1 x2 y2 cols h i j : Z) : Prop :=
  exists j', 0 <= j' < cols /\ Z.abs (j - j') <= h /\ library_row x1 y1 x2 y2 j' = Some i.

(** Coordinates up to 2^21. *)
Definition small_coords (x1 y1 x2 y2 : Z) : Prop :=
  Z.abs x1 <= 2097152 /\ Z.abs y1 <= 2097152 /\ Z.abs x2 <= 2097152 /\ Z.abs y2 <= 2097152.
