(** * Model: normalisation of matrices (/repo/modules/algorithm/src/normalize.c).
    type.h 90-93: NORM_INF 1, NORM_L1 2, NORM_L2 4, NORM_MINMAX 32. *)
From Verif Require Import Base ModelCore ModelFloat ModelDouble ModelConv.
From Verif Require Import ModelImage.
From Coq Require Import Floats.SpecFloat.
Open Scope Z_scope.

(** The text shared by normalize.c 29-81 (hypercv_normalize_uchar) and 84-136
    (hypercv_normalize_float), which differ in the element type: get is the
    element as an operand of float arithmetic, mag its magnitude, sq its square,
    put the assignment of an unsigned char to an element. *)
Definition normalize_with (get mag sq : ptr -> Z -> M sf) (put : ptr -> Z -> Z -> M unit)
    (src dst : ptr) (alpha beta : sf) (norm_type : Z) : M unit :=
  assert (nonnull src && nonnull dst) ;;;
  ms <- sget src ;;
  md <- sget dst ;;
  assert ((sm_rows md =? sm_rows ms) && (sm_cols md =? sm_cols ms)) ;;;
  let rows := sm_rows ms in
  let cols := sm_cols ms in
  let src_data := sm_data ms in
  let dst_data := sm_data md in
  (if norm_type =? 2 then
     n <- ev (rows * cols)%C ;;
     L1_norm <- forS 0 n (fun i L1_norm => x <- mag src_data i ;; ret (fl_add L1_norm x)) (fl_of_Z 0) ;;
     for_ 0 n (fun i => x <- get src_data i ;;
       put dst_data i (saturate_cast_float2uchar (fl_div (fl_mul x alpha) L1_norm)))
   else ret tt) ;;;
  (if norm_type =? 4 then
     n <- ev (rows * cols)%C ;;
     L2_norm <- forS 0 n (fun i L2_norm => x <- sq src_data i ;; ret (fl_add L2_norm x)) (fl_of_Z 0) ;;
     for_ 0 n (fun i => x <- get src_data i ;;
       put dst_data i (saturate_cast_float2uchar
         (fl_of_db (db_div (db_of_fl (fl_mul x alpha)) (db_sqrt (db_of_fl L2_norm))))))
   else ret tt) ;;;
  (if norm_type =? 1 then
     n <- ev (rows * cols)%C ;;
     INF_norm <- forS 0 n (fun i INF_norm => x <- get src_data i ;;
       ret (if SFltb INF_norm x then x else INF_norm)) (fl_of_Z 0) ;;
     for_ 0 n (fun i => x <- get src_data i ;;
       put dst_data i (saturate_cast_float2uchar (fl_div (fl_mul x alpha) INF_norm)))
   else ret tt) ;;;
  (if norm_type =? 32 then
     n <- ev (rows * cols)%C ;;
     mm <- forS 0 n (fun i mm => x <- get src_data i ;;
       ret (if SFltb x (fst mm) then fst mm else x, if SFltb (snd mm) x then snd mm else x))
       (fl_of_Z (-1000000), fl_of_Z 1000000) ;;
     let b := if SFltb beta alpha then alpha else beta in
     let a := if SFltb beta alpha then beta else alpha in
     for_ 0 n (fun i => x <- get src_data i ;;
       put dst_data i (saturate_cast_float2uchar
         (fl_add (fl_div (fl_mul (fl_sub x (snd mm)) (fl_sub b a)) (fl_sub (fst mm) (snd mm))) a)))
   else ret tt).

(** normalize.c 29-81: hypercv_normalize_uchar. *)
Definition hypercv_normalize_uchar : ptr -> ptr -> sf -> sf -> Z -> M unit :=
  normalize_with
    (fun p i => v <- load8 p i ;; ret (fl_of_Z v))
    (fun p i => v <- load8 p i ;; ret (fl_of_Z (if v >=? 0 then v else - v)))
    (fun p i => v <- load8 p i ;; w <- ev (v * v)%C ;; ret (fl_of_Z w))
    (fun p i v => store8 p i v).

(** normalize.c 84-136: hypercv_normalize_float. *)
Definition hypercv_normalize_float : ptr -> ptr -> sf -> sf -> Z -> M unit :=
  normalize_with
    (fun p i => loadf p i)
    (fun p i => x <- loadf p i ;; ret (if SFleb (fl_of_Z 0) x then x else SFopp x))
    (fun p i => x <- loadf p i ;; ret (fl_mul x x))
    (fun p i v => storef p i (fl_of_Z v)).

(** normalize.c 18-27: hypercv_normalize. *)
Definition hypercv_normalize (src dst : ptr) (alpha beta : sf) (norm_type : Z) : M unit :=
  assert (nonnull src && nonnull dst) ;;;
  ms <- sget src ;;
  md <- sget dst ;;
  assert ((sm_rows md =? sm_rows ms) && (sm_cols md =? sm_cols ms)) ;;;
  if sm_type ms =? 1 then hypercv_normalize_uchar src dst alpha beta norm_type
  else if sm_type ms =? 4 then hypercv_normalize_float src dst alpha beta norm_type
  else ret tt.
