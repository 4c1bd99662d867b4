(** * Model: the filter banks of dwt.c (/repo/modules/process/src/c_src/dwt.c).
    The static tables are never written and appear as lists.  A wavelet_base
    (dwt.h 30-36) is a block of 40 bytes; its members are kept as a record
    beside the pointer to the block. *)
From Verif Require Import Base ModelFloat ModelDouble ModelCore.
From Coq Require Import Floats.SpecFloat.
Open Scope Z_scope.

(** A table of decimal fractions, given in units of 1/10000. *)
Definition table (l : list Z) : list sf := map (fun n => dlit n 10000) l.

(** dwt.c 11-15. *)
Definition LO_D_db3 := table [352; -854; -1350; 4599; 8069; 3327].
Definition HI_D_db3 := table [-3327; 8069; -4599; -1350; 854; 352].
Definition LO_R_db3 := table [3327; 8069; 4599; -1350; -854; 352].
Definition HI_R_db3 := table [352; 854; -1350; -4599; 8069; -3327].
Definition len_db3 : Z := 6.

(** dwt.c 18-22. *)
Definition LO_D_bior3_7 := table [30; -91; -168; 747; 313; -3012; -265; 9516; 9516; -265; -3012; 313; 747; -168; -91; 30].
Definition HI_D_bior3_7 := table [0; 0; 0; 0; 0; 0; -1768; 5303; -5303; 1768; 0; 0; 0; 0; 0; 0].
Definition LO_R_bior3_7 := table [0; 0; 0; 0; 0; 0; 1768; 5303; 5303; 1768; 0; 0; 0; 0; 0; 0].
Definition HI_R_bior3_7 := table [30; 91; -168; -747; 313; 3012; -265; -9516; 9516; 265; -3012; -313; 747; 168; -91; -30].
Definition len_bior3_7 : Z := 16.

(** calloc: malloc and zeros. *)
Definition calloc (n size : Z) : M ptr :=
  p <- malloc (n * size) ;;
  (if nonnull p then memset p 0 0 (n * size) else ret tt) ;;;
  ret p.
(** An element of a static table. *)
Definition static_at (src : list sf) (i : Z) : M sf :=
  match nth_error src (Z.to_nat i) with
  | Some x => if 0 <=? i then ret x else fun _ _ => UB
  | None => fun _ _ => UB
  end.

(** dwt.c 24-36: SerialReverse. *)
Definition SerialReverse (src : list sf) (len : Z) : M ptr :=
  result <- calloc len 8 ;;
  (if nonnull result then ret tt else fun _ _ => Exit) ;;;
  for_ 0 len (fun i =>
    k <- ev (len - i - 1)%C ;;
    x <- static_at src k ;;
    stored_ result i x) ;;;
  ret result.

Record wbase : Type := WBase { fb_len : Z; fb_LO_D : ptr; fb_HI_D : ptr; fb_LO_R : ptr; fb_HI_R : ptr }.

(** dwt.c 119-143: set_wavelet_base. *)
Definition set_wavelet_base (wave_type : Z) : M (ptr * wbase) :=
  assert (negb (wave_type =? 1) || negb (wave_type =? 2)) ;;;
  wb <- calloc 1 40 ;;
  (if nonnull wb then ret tt else fun _ _ => UB) ;;;
  if wave_type =? 1 then
    a <- SerialReverse LO_D_db3 len_db3 ;;
    b <- SerialReverse HI_D_db3 len_db3 ;;
    c <- SerialReverse LO_R_db3 len_db3 ;;
    d <- SerialReverse HI_R_db3 len_db3 ;;
    ret (wb, WBase len_db3 a b c d)
  else if wave_type =? 2 then
    a <- SerialReverse LO_D_bior3_7 len_bior3_7 ;;
    b <- SerialReverse HI_D_bior3_7 len_bior3_7 ;;
    c <- SerialReverse LO_R_bior3_7 len_bior3_7 ;;
    d <- SerialReverse HI_R_bior3_7 len_bior3_7 ;;
    ret (wb, WBase len_bior3_7 a b c d)
  else ret (wb, WBase 0 None None None None).

(** dwt.c 90-104: wavelet_base_free.  Line 100 tests HI_D before releasing HI_R. *)
Definition wavelet_base_free (wb : ptr) (w : wbase) : M unit :=
  if nonnull wb then
    (if nonnull (fb_LO_D w) then free (fb_LO_D w) else ret tt) ;;;
    (if nonnull (fb_HI_D w) then free (fb_HI_D w) else ret tt) ;;;
    (if nonnull (fb_LO_R w) then free (fb_LO_R w) else ret tt) ;;;
    (if nonnull (fb_HI_D w) then free (fb_HI_R w) else ret tt) ;;;
    free wb
  else ret tt.
