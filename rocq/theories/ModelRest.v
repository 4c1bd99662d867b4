(** * Model: what the library prints about a cube, the release of wavelet
    results, and the entry points whose bodies are unfinished.  A function
    that ends without the return statement its type asks for is a computation
    without a value: the caller has nothing to use. *)
From Verif Require Import Base ModelFloat ModelDouble ModelCore ModelFile ModelBorder ModelWavelet.
From Coq Require Import Floats.SpecFloat String.
Open Scope Z_scope.

(** core/src/c_src/hypermat.c 463-483: hyper_mat_showinfo; the value is the
    text that is printed. *)
Definition hyper_mat_showinfo (mat : ptr) : M (list Z) :=
  if nonnull mat then
    m <- hget mat ;;
    it <- tag3 (hm_il m) ;;
    let head := chars "mat's samples is " ++ print_d (hm_samples m) ++ [10]
      ++ chars "mat's lines is " ++ print_d (hm_lines m) ++ [10]
      ++ chars "mat's bands is " ++ print_d (hm_bands m) ++ [10]
      ++ chars "mat's data type is " ++ print_d (hm_type m) ++ [10]
      ++ chars "mat's interleave is " ++ it ++ [10] in
    if nonnull (hm_wave m) then
      forS 0 (hm_bands m) (fun i out =>
        x <- loadf (hm_wave m) i ;;
        ret (out ++ print_f x ++ chars ",")) (head ++ chars "mat's wavelength is" ++ [10])
    else ret head
  else ret (chars "mat is NULL" ++ [10]).

(** process/include/c_include/dwt.h 21-26: wt_coefset, kept beside its pointer. *)
Record coefset : Type := CoefSet { cs_A_LL : ptr; cs_H_LH : ptr; cs_V_HL : ptr; cs_D_HH : ptr }.
(** process/src/c_src/dwt.c 73-87: wt_coefset_free. *)
Definition wt_coefset_free (cs : ptr) (c : coefset) : M unit :=
  if nonnull cs then
    (if nonnull (cs_A_LL c) then free (cs_A_LL c) else ret tt) ;;;
    (if nonnull (cs_H_LH c) then free (cs_H_LH c) else ret tt) ;;;
    (if nonnull (cs_V_HL c) then free (cs_V_HL c) else ret tt) ;;;
    (if nonnull (cs_D_HH c) then free (cs_D_HH c) else ret tt) ;;;
    free cs
  else ret tt.

(** dwt.h 11-17, dwt.c 106-116: wt_info_free; the pointers of a wt_info. *)
Definition wt_info_free (wt : ptr) (c s : ptr) : M unit :=
  if nonnull wt then
    (if nonnull c then free c else ret tt) ;;;
    (if nonnull s then free s else ret tt) ;;;
    free wt
  else ret tt.

(** dwt.c 38-66: sub_wavedec; no return statement. *)
Definition sub_wavedec (src : ptr) (w : wbase) (border_type : Z) : M unit :=
  res <- calloc 1 32 ;;
  a <- ev (fb_len w - 1)%C ;;
  extmat <- hypercv_copy_make_border src a a a a border_type 0 ;;
  ret tt.

(** dwt.c 145-172: hypercv_wavedec; no return statement.  The number of levels
    becomes an unsigned 64-bit number in the call of calloc. *)
Definition hypercv_wavedec (src : ptr) (wt_level wave_type border_type : Z) : M unit :=
  assert (nonnull src) ;;;
  temp <- simple_mat_copy src ;;
  res <- calloc 1 32 ;;
  (if nonnull res then ret tt else fun _ _ => Exit) ;;;
  storele res 0 4 wave_type ;;;
  storele res 4 4 border_type ;;;
  storele res 8 4 wt_level ;;;
  storele res 16 8 0 ;;;
  storele res 24 8 0 ;;;
  cs <- calloc (wt_level mod 2 ^ 64) 8 ;;
  for_ 0 wt_level (fun i => ret tt).

(** dwt.c 176-182: hypercv_dwt1D_float. *)
Definition hypercv_dwt1D_float (signal res : ptr) (length : Z) : M unit := ret tt.

(** process/src/c_src/hypercvresize.c 9-19: simple_mat_resize; the members are
    read before the pointers are checked. *)
Definition simple_mat_resize (src_mat dst_mat : ptr) (flag : Z) : M unit :=
  ms <- sget src_mat ;;
  md <- sget dst_mat ;;
  assert (nonnull src_mat && nonnull dst_mat) ;;;
  assert (sm_type ms =? sm_type md).

(** algorithm/src/HoughLines.c 10-79: hypercv_hough_trans; all but the
    declarations is a comment. *)
Definition hypercv_hough_trans (points : ptr) (point_num RMax : Z) (lineR lineTheta : ptr) : M unit :=
  n <- ev ((360 + 1) * (RMax + 1))%C ;;
  ret tt.

(** process/src/c_src/colortransform.c 21-39: hypercv_colortransform; the
    switch is empty and there is no return statement.  The constants are those
    of core/include/c_include/type.h 252-257. *)
Definition hypercv_colortransform (src_mat : ptr) (method : Z) : M unit :=
  assert (nonnull src_mat) ;;;
  assert ((method =? 4) || (method =? 4) || (method =? 6) || (method =? 7) || (method =? 8) || (method =? 8)).
