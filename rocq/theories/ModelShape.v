(** * Model: shapematch.c (/repo/modules/algorithm/src/shapematch.c).
    pow is a library function and stays a parameter. *)
From Verif Require Import Base ModelFloat ModelDouble ModelCore.
From Coq Require Import Floats.SpecFloat.
Open Scope Z_scope.

(** shapematch.c 8-21: calc_similar_hu. *)
Definition calc_similar_hu (hu1 hu2 : ptr) : M sf :=
  t <- forS 0 7 (fun i t =>
    a <- loadd hu1 i ;;
    b <- loadd hu2 i ;;
    let tmp1 := db_add (fst t) (SFabs (db_sub a b)) in
    a <- loadd hu1 i ;;
    b <- loadd hu2 i ;;
    let tmp2 := db_add (snd t) (SFabs (db_add a b)) in
    ret (tmp1, tmp2)) (db_of_Z 0, db_of_Z 0) ;;
  ret (db_sub (db_of_Z 1) (db_div (fst t) (snd t))).

(** The variables m11, m20, m02, m03, m30, m12, m21 of line 38. *)
Record central : Type := Central {
  m11 : sf; m20 : sf; m02 : sf; m03 : sf; m30 : sf; m12 : sf; m21 : sf }.

Section Pow.
Variable pow_ : sf -> sf -> sf.

(** shapematch.c 24-102: calc_hu_moment.  The block allocated for a NULL hu is
    known to this call only.  The bytes are read at [j*step+i] whatever the
    type. *)
Definition calc_hu_moment (hu mat : ptr) : M unit :=
  hu <- (if nonnull hu then ret hu else malloc (u64 (7 * 8))) ;;
  assert (nonnull mat) ;;;
  m <- sget mat ;;
  let cols := sm_cols m in
  let rows := sm_rows m in
  let elem_size := get_elemsize (sm_type m) in
  step <- ev (sm_cols m * elem_size)%C ;;
  let data := sm_data m in
  s <- forS 0 rows (fun j s =>
    forS 0 cols (fun i s =>
      k <- ev (j * step + i)%C ;;
      v <- load8 data k ;;
      t <- ev (i * v)%C ;;
      let s10 := db_add (fst (fst s)) (db_of_Z t) in
      k <- ev (j * step + i)%C ;;
      v <- load8 data k ;;
      t <- ev (j * v)%C ;;
      let s01 := db_add (snd (fst s)) (db_of_Z t) in
      k <- ev (j * step + i)%C ;;
      v <- load8 data k ;;
      let s00 := db_add (snd s) (db_of_Z v) in
      ret (s10, s01, s00)) s) (db_of_Z 0, db_of_Z 0, db_of_Z 0) ;;
  let s00 := snd s in
  center_x <- ev (int_of_sf (db_add (db_div (fst (fst s)) s00) (dlit 1 2))) ;;
  center_y <- ev (int_of_sf (db_add (db_div (snd (fst s)) s00) (dlit 1 2))) ;;
  let m00 := s00 in
  z <- forS 0 rows (fun j z =>
    forS 0 cols (fun i z =>
      dx <- ev (i - center_x)%C ;;
      dy <- ev (j - center_y)%C ;;
      let x0 := db_of_Z dx in
      let y0 := db_of_Z dy in
      k <- ev (j * step + i)%C ;;
      v <- load8 data k ;;
      let w := db_of_Z v in
      ret (Central (db_add (m11 z) (db_mul (db_mul x0 y0) w))
                   (db_add (m20 z) (db_mul (db_mul x0 x0) w))
                   (db_add (m02 z) (db_mul (db_mul y0 y0) w))
                   (db_add (m03 z) (db_mul (db_mul (db_mul y0 y0) y0) w))
                   (db_add (m30 z) (db_mul (db_mul (db_mul x0 x0) x0) w))
                   (db_add (m12 z) (db_mul (db_mul (db_mul x0 y0) y0) w))
                   (db_add (m21 z) (db_mul (db_mul (db_mul x0 x0) y0) w)))) z)
    (Central (db_of_Z 0) (db_of_Z 0) (db_of_Z 0) (db_of_Z 0) (db_of_Z 0) (db_of_Z 0) (db_of_Z 0)) ;;
  let two := db_of_Z 2 in
  let half5 := dlit 5 2 in
  let three := db_of_Z 3 in
  let four := db_of_Z 4 in
  let u20 := db_div (m20 z) (pow_ m00 two) in
  let u02 := db_div (m02 z) (pow_ m00 two) in
  let u11 := db_div (m11 z) (pow_ m00 two) in
  let u30 := db_div (m30 z) (pow_ m00 half5) in
  let u03 := db_div (m03 z) (pow_ m00 half5) in
  let u12 := db_div (m12 z) (pow_ m00 half5) in
  let u21 := db_div (m21 z) (pow_ m00 half5) in
  let t1 := db_sub u20 u02 in
  let t2 := db_sub u30 (db_mul three u12) in
  let t3 := db_sub (db_mul three u21) u03 in
  let t4 := db_add u30 u12 in
  let t5 := db_add u21 u03 in
  stored_ hu 0 (db_add u20 u02) ;;;
  stored_ hu 1 (db_add (db_mul t1 t1) (db_mul (db_mul four u11) u11)) ;;;
  stored_ hu 2 (db_add (db_mul t2 t2) (db_mul t3 t3)) ;;;
  stored_ hu 3 (db_add (db_mul t4 t4) (db_mul t5 t5)) ;;;
  stored_ hu 4 (db_add
    (db_mul (db_mul t2 t4) (db_sub (db_mul t4 t4) (db_mul (db_mul three t5) t5)))
    (db_mul (db_mul t3 t5) (db_sub (db_mul (db_mul three t4) t4) (db_mul t5 t5)))) ;;;
  stored_ hu 5 (db_add (db_mul t1 (db_sub (db_mul t4 t4) (db_mul t5 t5)))
    (db_mul (db_mul (db_mul four u11) t4) t5)) ;;;
  stored_ hu 6 (db_sub
    (db_mul (db_mul t3 t4) (db_sub (db_mul t4 t4) (db_mul (db_mul three t5) t5)))
    (db_mul (db_mul t2 t5) (db_sub (db_mul (db_mul three t4) t4) (db_mul t5 t5)))).

(** shapematch.c 105-118: hypercv_match_shapes.  hu1 and hu2 are never freed. *)
Definition hypercv_match_shapes (mat1 mat2 : ptr) : M sf :=
  assert (nonnull mat1 && nonnull mat2) ;;;
  hu1 <- malloc (u64 (7 * 8)) ;;
  hu2 <- malloc (u64 (7 * 8)) ;;
  calc_hu_moment hu1 mat1 ;;;
  calc_hu_moment hu2 mat2 ;;;
  calc_similar_hu hu1 hu2.
End Pow.
