(** * Specifications: separable smoothing (no modelled code). *)
From Verif Require Import Base ModelFloat ModelDouble SpecBase SpecNum SpecMatrix SpecPixel SpecImage2.
From Coq Require Import Floats.SpecFloat.
Open Scope Z_scope.

(** x limited to 0..255. *)
Definition limit (x : sf) : sf :=
  if SFltb x (fl_of_Z 0) then fl_of_Z 0 else if SFltb (fl_of_Z 255) x then fl_of_Z 255 else x.

(** The n weights K (stored floats) applied to the samples around position p of
    a line, added in order in single precision, and limited. *)
Definition smooth (n : Z) (K : Z -> Z) (line : Z -> sf) (p : Z) : sf :=
  limit (foldz n (fun a k => fl_add a (fl_mul (fl_of_bits (K k)) (line (p + k - n / 2)))) (fl_of_Z 0)).

(** Channel c of the image P smoothed along the rows with KX, then along the
    columns with KY; ixr and ixc continue the image beyond its borders. *)
Definition smooth2 (kw kh : Z) (KX KY : Z -> Z) (ixr ixc : Z -> Z) (P : Z -> Z -> Z -> Z) (c i j : Z) : sf :=
  smooth kh KY (fun a => smooth kw KX (fun b => fl_of_Z (P (ixr a) (ixc b) c)) j) i.

(** The byte b is the float x rounded to nearest, ties to even (nothing is said
    when x is not a number). *)
Definition shown_as (x : sf) (b : Z) : Prop :=
  forall n z, sf_num x = Some n -> nearest_even n sf_one z -> b = clamp 0 255 z.

(** The image md has received the smoothed image; nothing that existed before
    has changed otherwise. *)
Definition smoothed (s : st) (md : smat) (V : Z -> Z -> Z -> sf) (s' : st) : Prop :=
  (forall i j c, in_image md i j c -> exists b, pix s' md i j c = Some b /\ shown_as (V c i j) b)
  /\ (forall x, ~ 0 <= x < sm_rows md * sm_cols md * sm_chan md -> byte_at s' (sm_data md) x = byte_at s (sm_data md) x)
  /\ unchanged_except [sm_data md] s s' /\ files s' = files s.

(** ** Kernels *)
(** Minus zero, a negative number or minus infinity. *)
Definition negative (x : sf) : Prop :=
  match x with S754_zero b | S754_infinity b | S754_finite b _ _ => b = true | S754_nan => False end.

(** What is assumed of the library function exp: a double between 0 and 1 for a
    negative argument, and 1 for zero. *)
Record exp_like (f : sf -> sf) : Prop := {
  exp_zero : db_ok (f (S754_zero true)) /\ sf_num (f (S754_zero true)) = Some sf_one;
  exp_neg : forall x, db_ok x -> negative x -> db_ok (f x) /\ exists a, sf_num (f x) = Some a /\ 0 <= a <= sf_one }.

(** A standard deviation that is not positive, or lies between 2^-400 and 2^400. *)
Definition good_sigma (x : sf) : Prop :=
  db_ok x /\ exists a, sf_num x = Some a /\ (a <= 0 \/ 2 ^ 674 <= a <= 2 ^ 1474).

(** The n weights at p (floats for es = 4, doubles for es = 8) as numbers in
    units of 2^-1074. *)
Definition weight_num (s : st) (p : ptr) (es i : Z) : option Z :=
  match word_at s p (i * es) (Z.to_nat es) with
  | Some w => sf_num (if es =? 4 then fl_of_bits w else db_of_bits w)
  | None => None
  end.

(** A sum of weights, if they are all numbers. *)
Definition weight_sum (s : st) (p : ptr) (es n : Z) : option Z :=
  foldz n (fun a i => match a, weight_num s p es i with Some x, Some y => Some (x + y) | _, _ => None end) (Some 0).

(** The same words read forwards and backwards. *)
Definition symmetric_words (s : st) (p : ptr) (es n : Z) : Prop :=
  forall i, 0 <= i < n -> exists w, word_at s p (i * es) (Z.to_nat es) = Some w
    /\ word_at s p ((n - 1 - i) * es) (Z.to_nat es) = Some w.

(** Every channel c of the image md shows the value v c; the rest is as before. *)
Definition kept (s : st) (md : smat) (v : Z -> Z) (s' : st) : Prop :=
  (forall i j c, in_image md i j c -> pix s' md i j c = Some (v c))
  /\ (forall x, ~ 0 <= x < sm_rows md * sm_cols md * sm_chan md -> byte_at s' (sm_data md) x = byte_at s (sm_data md) x)
  /\ unchanged_except [sm_data md] s s' /\ files s' = files s.
