(** * What is asked of the library function pow(x, 2). *)
From Verif Require Import Base ModelFloat ModelDouble SpecBase SpecNum.
Open Scope Z_scope.

(** On floats below 2^50 pow is right up to 2^-40; values are scaled by 2^1074. *)
Definition squares_closely (pow2 : sf -> sf) : Prop := forall x a, fl_ok x -> sf_num x = Some a -> a * a <= 2 ^ 2255 ->
  db_ok (pow2 (db_of_fl x)) /\ exists q, sf_num (pow2 (db_of_fl x)) = Some q /\ 0 <= q
    /\ Z.abs (q * 2 ^ 1074 - a * a) * 1099511627776 <= a * a.
