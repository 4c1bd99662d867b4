(** * Model: dft.c, the transforms
    (/repo/modules/algorithm/src/dft.c 27-228).  cos and sin are library
    functions and stay parameters; sqrt is the correctly rounded root. *)
From Verif Require Import Base ModelFloat ModelCore ModelConv ModelGeom.
From Coq Require Import Floats.SpecFloat.
Open Scope Z_scope.

(** temp of dft.c 67, 104, 144, 187, 220. *)
Definition dft_temp (rows cols i j x y : Z) : sf :=
  fl_add (fl_div (fl_mul (fl_of_Z i) (fl_of_Z x)) (fl_of_Z rows))
         (fl_div (fl_mul (fl_of_Z j) (fl_of_Z y)) (fl_of_Z cols)).
(** -2*PI*temp and 2*PI*temp. *)
Definition dft_back (temp : sf) : sf := db_mul (db_mul (db_of_Z (-2)) PI_db) (db_of_fl temp).
Definition dft_fwd (temp : sf) : sf := db_mul (db_mul (db_of_Z 2) PI_db) (db_of_fl temp).

Section Trig.
Variables cos_ sin_ : sf -> sf.

(** dft.c 41-113: hypercv_dft_uchar and hypercv_dft_ushort, which differ in the
    type behind src_data only; [rd] reads an element of it. *)
Definition dft_with (rd : ptr -> Z -> M Z) (src re_mat im_mat : ptr) : M unit :=
  assert (nonnull src && nonnull re_mat && nonnull im_mat) ;;;
  ms <- sget src ;;
  mr <- sget re_mat ;;
  mi <- sget im_mat ;;
  assert ((sm_rows ms =? sm_rows mr) && (sm_rows ms =? sm_rows mi)
          && (sm_cols ms =? sm_cols mr) && (sm_cols ms =? sm_cols mi)) ;;;
  assert ((sm_type mr =? 4) && (sm_type mi =? 4)) ;;;
  assert ((sm_chan ms =? sm_chan mr) && (sm_chan ms =? sm_chan mi) && (sm_chan ms =? 1)) ;;;
  let rows := sm_rows ms in
  let cols := sm_cols ms in
  for_ 0 rows (fun i =>
    for_ 0 cols (fun j =>
      z <- forS 0 rows (fun x z =>
        forS 0 cols (fun y z =>
          let temp := dft_temp rows cols i j x y in
          k <- ev (x * cols + y)%C ;;
          v <- rd (sm_data ms) k ;;
          let re := fl_of_db (db_add (db_of_fl (fst z)) (db_mul (db_of_Z v) (cos_ (dft_back temp)))) in
          k <- ev (x * cols + y)%C ;;
          v <- rd (sm_data ms) k ;;
          let im := fl_of_db (db_add (db_of_fl (snd z)) (db_mul (db_of_Z v) (sin_ (dft_back temp)))) in
          ret (re, im)) z) (fl_of_Z 0, fl_of_Z 0) ;;
      k <- ev (i * cols + j)%C ;;
      storef (sm_data mr) k (fst z) ;;;
      k <- ev (i * cols + j)%C ;;
      storef (sm_data mi) k (snd z))).
Definition hypercv_dft_uchar := dft_with load8.
Definition hypercv_dft_ushort := dft_with (fun p k => loadle p (2 * k) 2).

(** dft.c 27-39: hypercv_dft; other types leave everything as it is. *)
Definition hypercv_dft (src re_mat im_mat : ptr) : M unit :=
  assert (nonnull src && nonnull re_mat && nonnull im_mat) ;;;
  ms <- sget src ;;
  mr <- sget re_mat ;;
  mi <- sget im_mat ;;
  assert ((sm_rows ms =? sm_rows mr) && (sm_rows ms =? sm_rows mi)
          && (sm_cols ms =? sm_cols mr) && (sm_cols ms =? sm_cols mi)) ;;;
  assert ((sm_type mr =? 4) && (sm_type mi =? 4)) ;;;
  assert ((sm_chan ms =? sm_chan mr) && (sm_chan ms =? sm_chan mi) && (sm_chan ms =? 1)) ;;;
  if sm_type ms =? 1 then hypercv_dft_uchar src re_mat im_mat
  else if sm_type ms =? 12 then hypercv_dft_ushort src re_mat im_mat
  else ret tt.

(** dft.c 116-155: hypercv_dft_frespectrum.  Neither type nor channels are
    checked: the data are taken as bytes. *)
Definition hypercv_dft_frespectrum (src dst : ptr) : M unit :=
  assert (nonnull src) ;;;
  assert (nonnull dst) ;;;
  ms <- sget src ;;
  md <- sget dst ;;
  assert ((sm_rows ms =? sm_rows md) && (sm_cols ms =? sm_cols md)) ;;;
  let rows := sm_rows ms in
  let cols := sm_cols ms in
  for_ 0 rows (fun i =>
    for_ 0 cols (fun j =>
      z <- forS 0 rows (fun x z =>
        forS 0 cols (fun y z =>
          let temp := dft_temp rows cols i j x y in
          t <- ev (x + y)%C ;;
          let move := if Z.rem t 2 =? 0 then 1 else -1 in
          k <- ev (x * cols + y)%C ;;
          v <- load8 (sm_data ms) k ;;
          let re := fl_of_db (db_add (db_of_fl (fst z))
            (db_mul (db_mul (db_of_Z v) (cos_ (dft_back temp))) (db_of_Z move))) in
          k <- ev (x * cols + y)%C ;;
          v <- load8 (sm_data ms) k ;;
          let im := fl_of_db (db_add (db_of_fl (snd z))
            (db_mul (db_mul (db_of_Z v) (sin_ (dft_back temp))) (db_of_Z move))) in
          ret (re, im)) z) (fl_of_Z 0, fl_of_Z 0) ;;
      n <- ev (rows * cols)%C ;;
      k <- ev (i * cols + j)%C ;;
      store8 (sm_data md) k (saturate_cast_float2uchar (fl_of_db
        (db_div (db_sqrt (db_of_fl (fl_add (fl_mul (fst z) (fst z)) (fl_mul (snd z) (snd z)))))
                (db_sqrt (db_of_Z n))))))).

(** dft.c 165-228: hypercv_idft_uchar (type 1) and hypercv_idft_ushort
    (type 12); both round to a byte. *)
Definition idft_with (ty : Z) (wr : ptr -> Z -> Z -> M unit) (re_mat im_mat dst_mat : ptr) : M unit :=
  mr <- sget re_mat ;;
  mi <- sget im_mat ;;
  md <- sget dst_mat ;;
  assert ((sm_rows mr =? sm_rows mi) && (sm_rows mr =? sm_rows md)
          && (sm_cols mr =? sm_cols mi) && (sm_cols mr =? sm_cols md)) ;;;
  assert ((sm_type mr =? sm_type mi) && (sm_type mr =? 4)) ;;;
  assert (sm_type md =? ty) ;;;
  let rows := sm_rows mr in
  let cols := sm_cols mr in
  for_ 0 rows (fun i =>
    for_ 0 cols (fun j =>
      real <- forS 0 rows (fun x real =>
        forS 0 cols (fun y real =>
          let temp := dft_temp rows cols i j x y in
          k <- ev (x * cols + y)%C ;;
          u <- loadf (sm_data mr) k ;;
          k <- ev (x * cols + y)%C ;;
          v <- loadf (sm_data mi) k ;;
          ret (fl_of_db (db_add (db_of_fl real)
            (db_sub (db_mul (db_of_fl u) (cos_ (dft_fwd temp)))
                    (db_mul (db_of_fl v) (sin_ (dft_fwd temp))))))) real) (fl_of_Z 0) ;;
      n <- ev (rows * cols)%C ;;
      k <- ev (i * cols + j)%C ;;
      wr (sm_data md) k (saturate_cast_float2uchar (fl_of_db
        (db_div (db_of_fl real) (db_sqrt (db_of_Z n))))))).
Definition hypercv_idft_uchar := idft_with 1 store8.
Definition hypercv_idft_ushort := idft_with 12 (fun p k v => storele p (2 * k) 2 v).

(** dft.c 157-163: hypercv_idft; no test for NULL. *)
Definition hypercv_idft (re_mat im_mat dst_mat : ptr) : M unit :=
  md <- sget dst_mat ;;
  if sm_type md =? 1 then hypercv_idft_uchar re_mat im_mat dst_mat
  else if sm_type md =? 12 then hypercv_idft_ushort re_mat im_mat dst_mat
  else ret tt.
End Trig.
