(** * Model: k-means clustering (/repo/modules/algorithm/src/cluster.c). *)
From Verif Require Import Base ModelCore ModelFloat ModelPixel ModelVector.
Open Scope Z_scope.

(** An int in memory. *)
Definition geti (p : ptr) (off : Z) : M Z := w <- loadle p off 4 ;; ret (sgn 32 w).
Definition puti (p : ptr) (off v : Z) : M unit := storele p off 4 (u32 v).

(** cluster.c 10-13: distance; pow is a parameter (its second argument is 2). *)
Definition distance (pow2 : sf -> sf) (x y i j : Z) : cint :=
  match (x - j)%C, (y - i)%C with
  | Some a, Some b => int_of_sf (db_add (pow2 (db_of_Z a)) (pow2 (db_of_Z b)))
  | _, _ => None
  end.

(** cluster.c 66-76: the index of the first nearest centre; the code evaluates
    the distance a second time to store it. *)
Definition km_nearest (pow2 : sf -> sf) (v1 : ptr) (kind rows cols i j : Z) : M (Z * Z) :=
  m <- ev (rows * rows + cols * cols)%C ;;
  forS 0 kind (fun k md =>
    x <- geti v1 (16 + 8 * k) ;;
    y <- geti v1 (16 + 8 * k + 4) ;;
    d <- ev (distance pow2 x y i j) ;;
    if d <? snd md then ret (k, d) else ret md) (0, m).

(** p[off] += d *)
Definition addi (p : ptr) (off d : Z) : M unit :=
  x <- geti p off ;; y <- ev (x + d)%C ;; puti p off y.

(** cluster.c 58-83: assigning the pixels. *)
Definition km_assign (pow2 : sf -> sf) (data v1 v2 num : ptr) (kind rows cols : Z) : M unit :=
  for_ 0 rows (fun i => for_ 0 cols (fun j =>
    x <- ev (i * cols + j)%C ;;
    b <- load8 data x ;;
    if b =? 0 then ret tt else
    md <- km_nearest pow2 v1 kind rows cols i j ;;
    addi v2 (8 * fst md) j ;;;
    addi v2 (8 * fst md + 4) i ;;;
    addi num (4 * fst md) 1)).

(** cluster.c 84-99: the new centres; returns flag. *)
Definition km_move (v1 v2 num : ptr) (kind threshold : Z) : M Z :=
  forS 0 kind (fun k flag =>
    n <- geti num (4 * k) ;;
    (if n =? 0 then ret tt else
     x <- geti v2 (8 * k) ;; qx <- ev (x / n)%C ;; puti v2 (8 * k) qx ;;;
     y <- geti v2 (8 * k + 4) ;; qy <- ev (y / n)%C ;; puti v2 (8 * k + 4) qy) ;;;
    x2 <- geti v2 (8 * k) ;; x1 <- geti v1 (16 + 8 * k) ;;
    dx <- ev (x2 - x1)%C ;;
    up <- (if dx >? threshold then ret true else
           y2 <- geti v2 (8 * k + 4) ;; y1 <- geti v1 (16 + 8 * k + 4) ;;
           dy <- ev (y2 - y1)%C ;; ret (dy >? threshold)) ;;
    a <- geti v2 (8 * k) ;; puti v1 (16 + 8 * k) a ;;;
    b <- geti v2 (8 * k + 4) ;; puti v1 (16 + 8 * k + 4) b ;;;
    puti v2 (8 * k) 0 ;;; puti v2 (8 * k + 4) 0 ;;; puti num (4 * k) 0 ;;;
    ret (if up : bool then 1 else flag)) 0.

(** cluster.c 40-52: random starting points; [rnd] is the sequence of values
    that rand() returns. *)
Definition km_start (rnd : nat -> Z) (v1 v2 num : ptr) (kind rows cols : Z) : M unit :=
  for_ 0 kind (fun i =>
    x <- ev (crem (rnd (Z.to_nat (2 * i))) cols) ;;
    y <- ev (crem (rnd (Z.to_nat (2 * i + 1))) rows) ;;
    puti v1 (16 + 8 * i) x ;;; puti v1 (16 + 8 * i + 4) y ;;;
    puti v2 (8 * i) 0 ;;; puti v2 (8 * i + 4) 0 ;;; puti num (4 * i) 0).

(** cluster.c 24-104: hypercv_k_means.  [fuel] bounds the number of rounds of
    the while loop.  malloc of kind * sizeof never fails for an int kind. *)
Definition hypercv_k_means (pow2 : sf -> sf) (rnd : nat -> Z) (fuel : nat)
    (src v1 : ptr) (kind iter_threshold : Z) : M unit :=
  assert (nonnull src) ;;;
  assert (kind >=? 1) ;;;
  n <- vector_size v1 ;;
  assert (n =? u64 kind) ;;;
  ms <- sget src ;;
  mat <- (if sm_chan ms =? 1 then ret src else sm_rgb2gray src 0) ;;
  let rows := sm_rows ms in
  let cols := sm_cols ms in
  v2 <- malloc (kind * 8) ;;
  num <- malloc (kind * 4) ;;
  km_start rnd v1 v2 num kind rows cols ;;;
  m <- sget mat ;;
  whileF fuel (fun flag => negb (flag =? 0))
    (fun _ => km_assign pow2 (sm_data m) v1 v2 num kind rows cols ;;;
              km_move v1 v2 num kind iter_threshold) 1 ;;;
  free v2 ;;;
  free num.
