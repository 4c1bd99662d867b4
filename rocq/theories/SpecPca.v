(** * Specification: covariance of the bands. *)
From Verif Require Import Base ModelFloat SpecBase SpecNum SpecMatrix.
From Coq Require Import Floats.SpecFloat.
Open Scope Z_scope.

(** The difference of two stored floats, rounded. *)
Definition float_minus (a b : Z) : sf := fl_sub (fl_of_bits a) (fl_of_bits b).

(** n pixels of b bands in the float image at p. *)
Definition pixels_at (s : st) (p : ptr) (m : smat) (n b : Z) (X : Z -> Z -> Z) : Prop :=
  image s p m 4 /\ sm_type m = 4 /\ sm_chan m = 1 /\ sm_rows m = n /\ sm_cols m = b /\ matrix s (sm_data m) 4 n b X.

(** The covariance of the bands i and j times n squared: zero for bands that
    are constant. *)
Definition true_covariance (n : Z) (X : Z -> Z -> Z) (i j : Z) : Z :=
  n * sumz n (fun t => X t i * X t j) - sumz n (fun t => X t i) * sumz n (fun t => X t j).

(** w plus the sum over n pixels of the products of the bands i and j, each less
    the mean of the pixel; rounded step by step. *)
Definition cov_sum (n : Z) (X : Z -> Z -> Z) (Mn : Z -> Z) (w i j : Z) : sf :=
  foldz n (fun a t => fl_add a (fl_mul (float_minus (X t i) (Mn t)) (float_minus (X t j) (Mn t)))) (fl_of_bits w).
