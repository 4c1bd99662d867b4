(** * Model: rounding and data type conversions
    (/repo/modules/core/include/c_include/type.h,
     /repo/modules/process/src/c_src/datatypechange.c). *)
From Verif Require Import Base ModelCore ModelFloat.
From Coq Require Import Floats.SpecFloat.
Open Scope Z_scope.

(** type.h 96-119: HYPERCV_ROUND.  The x86-64/SSE2 branch: cvtsd2si rounds to
    nearest even and returns 0x80000000 when the result is not an int. *)
Definition HYPERCV_ROUND (value : sf) : Z :=
  match sf_rne value with
  | Some z => if in_int z then z else INT_MIN
  | None => INT_MIN
  end.

(** type.h 195-205: saturate_cast_float2uchar. *)
Definition saturate_cast_float2uchar (value : sf) : Z :=
  if SFltb (fl_of_Z 255) value then 255
  else if SFltb value (fl_of_Z 0) then 0
  else u8 (HYPERCV_ROUND (db_of_fl value)).

(** The text shared by the eleven cube conversions: check of the source type,
    creation of the result, element loop, copy of the wavelengths. *)
Definition retype_with (ty ty' : Z) (body : ptr -> ptr -> Z -> M unit) (mat : ptr) : M ptr :=
  m <- hget mat ;;
  assert (hm_type m =? ty) ;;;
  let samples := hm_samples m in
  let lines := hm_lines m in
  let bands := hm_bands m in
  dst <- create_hyper_mat samples lines bands ty' (hm_il m) ;;
  m' <- hget dst ;;
  datasize <- ev (samples * lines * bands)%C ;;
  for_ 0 datasize (fun i => body (hm_data m) (hm_data m') i) ;;;
  (if nonnull (hm_wave m) then memcpy (hm_wave m') 0 (hm_wave m) 0 (bands * 4)
   else ret tt) ;;;
  ret dst.

(** datatypechange.c 14-36: hyper_mat_uchar2short. *)
Definition hyper_mat_uchar2short : ptr -> M ptr :=
  retype_with 1 2 (fun src dst i => x <- load8 src i ;; storele dst (2 * i) 2 x).

(** datatypechange.c 43-65: hyper_mat_uchar2int. *)
Definition hyper_mat_uchar2int : ptr -> M ptr :=
  retype_with 1 3 (fun src dst i => x <- load8 src i ;; storele dst (4 * i) 4 x).

(** datatypechange.c 72-94: hyper_mat_uchar2float (uc_data[i]*1.0 in double). *)
Definition hyper_mat_uchar2float : ptr -> M ptr :=
  retype_with 1 4 (fun src dst i =>
    x <- load8 src i ;; storef dst i (fl_of_db (db_mul (db_of_Z x) (db_of_Z 1)))).

(** datatypechange.c 101-123: hyper_mat_uchar2ushort. *)
Definition hyper_mat_uchar2ushort : ptr -> M ptr :=
  retype_with 1 12 (fun src dst i => x <- load8 src i ;; storele dst (2 * i) 2 x).

(** datatypechange.c 131-152: hyper_mat_float2int. *)
Definition hyper_mat_float2int : ptr -> M ptr :=
  retype_with 4 3 (fun src dst i =>
    x <- loadf src i ;; storele dst (4 * i) 4 (HYPERCV_ROUND (db_of_fl x))).

(** datatypechange.c 159-189: hyper_mat_float2char (128 does not fit in char). *)
Definition hyper_mat_float2char : ptr -> M ptr :=
  retype_with 4 1 (fun src dst i =>
    x <- loadf src i ;;
    let tmp := HYPERCV_ROUND (db_of_fl x) in
    if tmp >? 127 then store8 dst i 128
    else if tmp <? -127 then store8 dst i (-127)
    else store8 dst i tmp).

(** datatypechange.c 196-217: hyper_mat_float2short. *)
Definition hyper_mat_float2short : ptr -> M ptr :=
  retype_with 4 2 (fun src dst i =>
    x <- loadf src i ;; storele dst (2 * i) 2 (HYPERCV_ROUND (db_of_fl x))).

(** datatypechange.c 224-250: hyper_mat_float2ushort. *)
Definition hyper_mat_float2ushort : ptr -> M ptr :=
  retype_with 4 12 (fun src dst i =>
    x <- loadf src i ;;
    let tmp := HYPERCV_ROUND (db_of_fl x) in
    if tmp <? 0 then storele dst (2 * i) 2 0
    else storele dst (2 * i) 2 tmp).

(** datatypechange.c 257-287: hyper_mat_float2uchar. *)
Definition hyper_mat_float2uchar : ptr -> M ptr :=
  retype_with 4 1 (fun src dst i =>
    x <- loadf src i ;;
    let tmp := HYPERCV_ROUND (db_of_fl x) in
    if tmp >? 255 then store8 dst i 255
    else if tmp <? 0 then store8 dst i 0
    else store8 dst i tmp).

(** datatypechange.c 294-324: hyper_mat_float2uint (the int tmp is compared with
    a long constant). *)
Definition hyper_mat_float2uint : ptr -> M ptr :=
  retype_with 4 13 (fun src dst i =>
    x <- loadf src i ;;
    let tmp := HYPERCV_ROUND (db_of_fl x) in
    if tmp >? 4294967295 then storele dst (4 * i) 4 4294967295
    else if tmp <? 0 then storele dst (4 * i) 4 0
    else storele dst (4 * i) 4 tmp).

(** datatypechange.c 332-356: hyper_mat_ushort2float. *)
Definition hyper_mat_ushort2float : ptr -> M ptr :=
  retype_with 12 4 (fun src dst i =>
    x <- loadle src (2 * i) 2 ;; storef dst i (fl_of_db (db_mul (db_of_Z x) (db_of_Z 1)))).

(** datatypechange.c 363-387: simple_mat_float2uchar. *)
Definition simple_mat_float2uchar (src : ptr) : M ptr :=
  assert (nonnull src) ;;;
  m <- sget src ;;
  assert (sm_type m =? 4) ;;;
  dst <- create_simple_mat (sm_rows m) (sm_cols m) 1 (sm_chan m) ;;
  m' <- sget dst ;;
  n <- ev (sm_rows m * sm_cols m * sm_chan m)%C ;;
  for_ 0 n (fun i =>
    x <- loadf (sm_data m) i ;;
    let r := HYPERCV_ROUND (db_of_fl x) in
    store8 (sm_data m') i (if r <=? 255 then r else 255) ;;;
    y <- load8 (sm_data m') i ;;
    store8 (sm_data m') i (if y >=? 0 then y else 0)) ;;;
  ret dst.
