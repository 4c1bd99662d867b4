(** * Specifications: transform sizes and magnitudes (no modelled code). *)
From Verif Require Import Base ModelFloat SpecBase SpecMatrix.
Open Scope Z_scope.

(** n is a product of twos, threes and fives. *)
Definition smooth (n : Z) : Prop :=
  exists a b c, 0 <= a /\ 0 <= b /\ 0 <= c /\ n = 2 ^ a * 3 ^ b * 5 ^ c.

(** Additionally with fewer than fifteen threes (3^15 = 14348907). *)
Definition few3 (n : Z) : Prop := smooth n /\ ~ (14348907 | n).

(** r is the least number from n on with the property P. *)
Definition least_from (P : Z -> Prop) (n r : Z) : Prop :=
  P r /\ n <= r /\ forall k, P k -> n <= k -> r <= k.

(** The stored float for the real part x and the imaginary part y (stored
    floats), given a squaring function and a square root. *)
Definition magnitude_word (pow2 sqrt_ : sf -> sf) (x y : Z) : Z :=
  bits_of_fl (fl_of_db (sqrt_ (db_add (pow2 (db_of_fl (fl_of_bits x))) (pow2 (db_of_fl (fl_of_bits y))))))
    mod 4294967296.

(** A float matrix with header m and stored elements X. *)
Definition float_image (s : st) (p : ptr) (m : smat) (R C : Z) (X : Z -> Z -> Z) : Prop :=
  sm_at s p = Some m /\ sm_rows m = R /\ sm_cols m = C /\ sm_type m = 4
  /\ 0 < R /\ 0 < C /\ R * C <= 2147483647 /\ matrix s (sm_data m) 4 R C X.
