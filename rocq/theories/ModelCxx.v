(** * The C++ image class HyMat
    (core/include/cxx_include/hypermat.hpp, core/src/cxx_src/hypermat.cpp).
    A member that has no value yet is [None]; reading it is undefined.  Member
    functions take the object and return it.  The file functions open, save and
    writeHdr are not modelled, except that hmread constructs an object first. *)
From Verif Require Import Base ModelCore.
Open Scope Z_scope.

(** hypermat.hpp 26-41: the members. *)
Record hy := mkHy {
  hy_lines : option Z; hy_samples : option Z; hy_bands : option Z;
  hy_type : option Z; hy_format : option Z; hy_il : option (list Z);
  hy_data : option ptr; hy_wave : option ptr;
  hy_elem : option Z; hy_size : option Z }.

(** Objects without an initialiser: automatic and static storage. *)
Definition hy_auto : hy := mkHy None None None None None None None None None None.
Definition hy_static : hy :=
  mkHy (Some 0) (Some 0) (Some 0) (Some 0) (Some 0) (Some [0; 0; 0]) (Some None) (Some None) (Some 0) (Some 0).

Definition rd {A} (x : option A) : M A := match x with Some v => ret v | None => ub end.

(** type.h 38-43. *)
Definition CV_BSQ := 0.
Definition CV_BIL := 1.
Definition CV_BIP := 2.

(** hypermat.hpp 442-453: release. *)
Definition hy_release (o : hy) : M hy :=
  d <- rd (hy_data o) ;;
  (if nonnull d then free d else ret tt) ;;;
  w <- rd (hy_wave o) ;;
  (if nonnull w then free w else ret tt) ;;;
  ret (mkHy (Some 0) (Some 0) (Some 0) (Some 0) (hy_format o) (hy_il o) (Some None) (Some None)
            (hy_elem o) (hy_size o)).

(** hypermat.hpp 125-134: the data type test. *)
Definition known_type (t : Z) : bool :=
  (t =? 1) || (t =? 2) || (t =? 3) || (t =? 4) || (t =? 5) || (t =? 12) || (t =? 13) || (t =? 14) || (t =? 15).

(** hypermat.hpp 143-160: the tag. *)
Definition tag_for (f : Z) : list Z :=
  if f =? CV_BIL then [98; 105; 108] else if f =? CV_BIP then [98; 105; 112] else [98; 115; 113].

(** hypermat.hpp 121-182: create with seven arguments.  As in the code the tests
    look at the members bands and dataType, not at the arguments; && stops at
    the first false operand; the third assertion is always true. *)
Definition hy_create7 (o : hy) (samples lines bands ty f : Z) (data wave : ptr) : M hy :=
  (if (samples >? 0) && (lines >? 0) then b <- rd (hy_bands o) ;; assert (b >? 0) else exit_) ;;;
  t <- rd (hy_type o) ;;
  assert (known_type t) ;;;
  d <- rd (hy_data o) ;;
  o1 <- (if nonnull d then hy_release o else ret o) ;;
  let es := get_elemsize ty in
  n <- ev (samples * lines * bands * es)%C ;;
  d' <- (if nonnull data then ret data else x <- malloc n ;; memset x 0 0 n ;;; ret x) ;;
  w' <- (if nonnull wave then ret wave else x <- malloc (bands * 4) ;; memset x 0 0 (bands * 4) ;;; ret x) ;;
  ret (mkHy (Some lines) (Some samples) (Some bands) (Some ty) (Some f) (Some (tag_for f))
            (Some d') (Some w') (Some es) (Some n)).

(** hypermat.hpp 110-114: create with five arguments. *)
Definition hy_create (o : hy) (samples lines bands ty f : Z) : M hy :=
  hy_create7 o samples lines bands ty f None None.

(** hypermat.hpp 116-119: create without arguments. *)
Definition hy_create0 (o : hy) : M hy :=
  s <- rd (hy_samples o) ;; l <- rd (hy_lines o) ;; b <- rd (hy_bands o) ;;
  t <- rd (hy_type o) ;; f <- rd (hy_format o) ;;
  hy_create o s l b t f.

(** hypermat.hpp 83-108: the constructors, on the storage [o]. *)
Definition hy_default (o : hy) : M hy := hy_create o 0 0 0 1 CV_BSQ.
Definition hy_sized (o : hy) (samples lines bands ty f : Z) : M hy := hy_create o samples lines bands ty f.
Definition hy_with_data (o : hy) (samples lines bands ty f : Z) (data : ptr) : M hy :=
  hy_create7 o samples lines bands ty f data None.
Definition hy_with_wave (o : hy) (samples lines bands ty f : Z) (data wave : ptr) : M hy :=
  hy_create7 o samples lines bands ty f data wave.

(** hypermat.hpp 198-207: CopyData. *)
Definition hy_copy_data (o : hy) (data : ptr) (size : Z) : M unit :=
  if nonnull data then
    n <- (if size =? 0 then rd (hy_size o) else ret size) ;;
    d <- rd (hy_data o) ;;
    memcpy d 0 data 0 n
  else ret tt.

(** hypermat.hpp 209-218: CopyWaveLength; [off] is the offset of the argument in
    its array. *)
Definition hy_copy_wave (o : hy) (data : ptr) (off bands : Z) : M unit :=
  if nonnull data then
    n <- (if bands =? 0 then rd (hy_bands o) else ret bands) ;;
    w <- rd (hy_wave o) ;;
    memcpy w 0 data off (n * 4)
  else ret tt.

(** hypermat.hpp 220-226: empty. *)
Definition hy_empty (o : hy) : M Z :=
  d <- rd (hy_data o) ;;
  if nonnull d then n <- rd (hy_size o) ;; ret (if n =? 0 then 1 else 0) else ret 1.

(** hypermat.hpp 184-196: copy. *)
Definition hy_copy (o : hy) : M hy :=
  dst <- hy_default hy_auto ;;
  x <- hy_empty o ;;
  if x =? 0 then
    s <- rd (hy_samples o) ;; l <- rd (hy_lines o) ;; b <- rd (hy_bands o) ;;
    t <- rd (hy_type o) ;; f <- rd (hy_format o) ;;
    dst' <- hy_create dst s l b t f ;;
    d <- rd (hy_data o) ;; n <- rd (hy_size o) ;; hy_copy_data dst' d n ;;;
    w <- rd (hy_wave o) ;; hy_copy_wave dst' w 0 b ;;;
    ret dst'
  else ret dst.

(** hypermat.hpp 455-472: both forms of hmread; what follows the construction of
    the object is a parameter. *)
Definition hy_read (open_ : hy -> M hy) : M hy :=
  mat <- hy_default hy_auto ;; open_ mat.

(** hypermat.hpp 376-411: source and destination index of one element; no index
    is assigned if the pair of formats is not among the six. *)
Definition cv_index (S L B es f g i j k : Z) : option (cint * cint) :=
  let bil := ((i * S * B + k * S + j) * es)%C in
  let bip := ((i * S * B + j * B + k) * es)%C in
  let bsq := ((k * S * L + i * S + j) * es)%C in
  if (f =? CV_BIL) && (g =? CV_BIP) then Some (bil, bip)
  else if (f =? CV_BIL) && (g =? CV_BSQ) then Some (bil, bsq)
  else if (f =? CV_BSQ) && (g =? CV_BIL) then Some (bsq, bil)
  else if (f =? CV_BSQ) && (g =? CV_BIP) then Some (bsq, bip)
  else if (f =? CV_BIP) && (g =? CV_BSQ) then Some (bip, bsq)
  else if (f =? CV_BIP) && (g =? CV_BIL) then Some (bip, bil)
  else None.

(** hypermat.hpp 424-439: the tag after a conversion; other formats leave it. *)
Definition retag (f : Z) (old : option (list Z)) : option (list Z) :=
  if (f =? CV_BIL) || (f =? CV_BIP) || (f =? CV_BSQ) then Some (tag_for f) else old.

(** hypermat.hpp 361-440: convertTo. *)
Definition hy_convert (o : hy) (g : Z) : M hy :=
  f <- rd (hy_format o) ;;
  if g =? f then ret o else
  src <- rd (hy_data o) ;;
  n <- rd (hy_size o) ;;
  tmp <- malloc n ;;
  L <- rd (hy_lines o) ;; S <- rd (hy_samples o) ;; B <- rd (hy_bands o) ;;
  es <- rd (hy_elem o) ;;
  for_ 0 L (fun i => for_ 0 S (fun j => for_ 0 B (fun k =>
    xy <- rd (cv_index S L B es f g i j k) ;;
    x <- ev (fst xy) ;;
    y <- ev (snd xy) ;;
    for_ 0 es (fun t => v <- load8 src (x + t) ;; store8 tmp (y + t) v)))) ;;;
  hy_copy_data o tmp n ;;;
  free tmp ;;;
  ret (mkHy (Some L) (Some S) (Some B) (hy_type o) (Some g) (retag g (hy_il o))
            (hy_data o) (hy_wave o) (Some es) (Some n)).

(** hypermat.hpp 475-553: range.  The loops differ in their order only; the
    wavelengths start at wavelength + startBand. *)
Definition hy_range (o : hy) (r0 c0 b0 r1 c1 b1 : Z) : M hy :=
  assert ((c0 <? c1) && (r0 <? r1) && (b0 <? b1)) ;;;
  nS <- ev (c1 - c0)%C ;; nL <- ev (r1 - r0)%C ;; nB <- ev (b1 - b0)%C ;;
  t <- rd (hy_type o) ;; f <- rd (hy_format o) ;;
  dst <- hy_sized hy_auto nS nL nB t f ;;
  src <- rd (hy_data o) ;; d <- rd (hy_data dst) ;;
  S <- rd (hy_samples o) ;; L <- rd (hy_lines o) ;; B <- rd (hy_bands o) ;; es <- rd (hy_elem o) ;;
  let elem cx cy :=
    x <- ev (cx * es)%C ;; y <- ev (cy * es)%C ;;
    for_ 0 es (fun u => v <- load8 src (x + u) ;; store8 d (y + u) v) in
  (if f =? CV_BIL then
     for_ r0 r1 (fun i => for_ b0 b1 (fun k => for_ c0 c1 (fun j =>
       elem (i * S * B + k * S + j)%C ((i - r0) * nS * nB + (k - b0) * nS + j - c0)%C)))
   else if f =? CV_BIP then
     for_ r0 r1 (fun i => for_ c0 c1 (fun j => for_ b0 b1 (fun k =>
       elem (i * S * B + j * B + k)%C ((i - r0) * nS * nB + (j - c0) * nB + k - b0)%C)))
   else if f =? CV_BSQ then
     for_ b0 b1 (fun k => for_ r0 r1 (fun i => for_ c0 c1 (fun j =>
       elem (k * S * L + i * S + j)%C ((k - b0) * nS * nL + (i - r0) * nS + j - c0)%C)))
   else ret tt) ;;;
  w <- rd (hy_wave o) ;;
  hy_copy_wave dst w (b0 * 4) nB ;;;
  ret dst.

(** hypermat.cpp 120-367: the six conversion functions build their result in a
    newly constructed object.  bil2bsq and bil2bip test that the image is not
    empty; the other four return a copy if the image already has the format of
    the result.  [body] stands for the copying loops and CopyWaveLength. *)
Definition hy_conv (first : bool) (from to_ : Z) (body : hy -> hy -> M hy) (o : hy) : M hy :=
  x <- (if first then hy_empty o else ret 0) ;;
  assert (x =? 0) ;;;
  f <- rd (hy_format o) ;;
  if negb first && (f =? to_) then hy_copy o else
  assert (f =? from) ;;;
  s <- rd (hy_samples o) ;; l <- rd (hy_lines o) ;; b <- rd (hy_bands o) ;; t <- rd (hy_type o) ;;
  dst <- hy_sized hy_auto s l b t to_ ;;
  body o dst.
Definition hy_bil2bsq := hy_conv true CV_BIL CV_BSQ.
Definition hy_bil2bip := hy_conv true CV_BIL CV_BIP.
Definition hy_bsq2bil := hy_conv false CV_BSQ CV_BIL.
Definition hy_bsq2bip := hy_conv false CV_BSQ CV_BIP.
Definition hy_bip2bsq := hy_conv false CV_BIP CV_BSQ.
Definition hy_bip2bil := hy_conv false CV_BIP CV_BIL.
