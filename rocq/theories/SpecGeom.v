(** * Specifications: image pyramids and rotation (no modelled code). *)
From Verif Require Import Base ModelFloat SpecBase SpecNum SpecPixel SpecImage2 SpecMatrix.
From Coq Require Import Floats.SpecFloat.
Open Scope Z_scope.

(** ** Pyramids *)
(** The five-tap binomial sum around 0, and its two-dimensional version around
    (i,j), the weights adding up to 256. *)
Definition sum5 (f : Z -> Z) : Z := f (-2) + 4 * f (-1) + 6 * f 0 + 4 * f 1 + f 2.
Definition binomial (P : Z -> Z -> Z) (i j : Z) : Z := sum5 (fun a => sum5 (fun b => P (i + a) (j + b))).

(** The plane P of an R x C image continued by repeating its border. *)
Definition repeated (R C : Z) (P : Z -> Z -> Z) (i j : Z) : Z := P (clamp 0 (R - 1) i) (clamp 0 (C - 1) j).

(** Every second row and column of the smoothed image, rounded to nearest. *)
Definition reduced (s : st) (ms md : smat) (P : Z -> Z -> Z -> Z) (s' : st) : Prop :=
  forall i j c, in_image md i j c -> exists z, pix s' md i j c = Some z
    /\ nearest_even (binomial (repeated (sm_rows ms) (sm_cols ms) (fun i j => P i j c)) (2 * i) (2 * j)) 256 z.

(** The plane P with zeros put between its rows and columns. *)
Definition spread (P : Z -> Z -> Z) (i j : Z) : Z :=
  if Z.even i && Z.even j then P (i / 2) (j / 2) else 0.

(** The binomial sums of the rows, then of the columns, in units of 1/8 and
    1/64, each limited to the value 255. *)
Definition expand (P : Z -> Z -> Z) (i j : Z) : Z :=
  Z.min (255 * 64) (sum5 (fun a => Z.min (255 * 8) (sum5 (fun b => P (i + a) (j + b))))).
Definition expanded (s : st) (ms md : smat) (P : Z -> Z -> Z -> Z) (s' : st) : Prop :=
  forall i j c, in_image md i j c -> exists z, pix s' md i j c = Some z
    /\ nearest_even (expand (repeated (sm_rows md) (sm_cols md) (spread (fun i j => P i j c))) i j) 64 z.

(** Nothing that existed before has changed except the pixels of md. *)
Definition only_pixels (s : st) (md : smat) (s' : st) : Prop :=
  (forall x, ~ 0 <= x < sm_rows md * sm_cols md * sm_chan md -> byte_at s' (sm_data md) x = byte_at s (sm_data md) x)
  /\ unchanged_except [sm_data md] s s' /\ files s' = files s.

(** ** Rotation *)
(** A fresh cube p' with an even number w of samples and h of lines holding the
    BIP cube m in its upper left corner, zeros elsewhere, and its wavelengths. *)
Definition padded_copy (s : st) (m : hmat) (es w h : Z) (p' : ptr) (s' : st) : Prop :=
  exists m', cube s' p' m' BIP es /\ fresh_in s p' /\ fresh_in s (hm_data m')
    /\ hm_samples m' = w /\ hm_lines m' = h /\ hm_bands m' = hm_bands m /\ hm_type m' = hm_type m
    /\ (forall i j k t, in_cube m' i j k -> 0 <= t < es -> sample_byte s' m' BIP es i j k t =
          if (i <? hm_lines m) && (j <? hm_samples m) then sample_byte s m BIP es i j k t else Some 0)
    /\ (forall x, 0 <= x < hm_bands m * 4 -> byte_at s' (hm_wave m') x =
          match hm_wave m with Some _ => byte_at s (hm_wave m) x | None => Some 0 end)
    /\ old_unchanged s s' /\ files s' = files s.

(** The doubles nearest to the cosine and sine of the doubles that 180 and 90
    degrees become with the constant 3.1415926 for pi. *)
Definition cos_180 : sf := S754_finite true 9007199254740979 (-53).
Definition sin_180 : sf := S754_finite false 8098260578886239 (-77).
Definition cos_90 : sf := S754_finite false 8098260578886242 (-78).
Definition sin_90 : sf := S754_finite false 9007199254740989 (-53).
Definition angle_180 : sf := S754_finite false 7074237631354954 (-51).
Definition angle_90 : sf := S754_finite false 7074237631354954 (-52).
