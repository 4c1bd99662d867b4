(** * Specifications: the values of stored words (no modelled code). *)
From Verif Require Import Base SpecBase SpecNum SpecMatrix.
Open Scope Z_scope.

(** The value of a raw word of es bytes of a signed or unsigned type. *)
Definition value (sg : bool) (es w : Z) : Z := if sg then signed_word es w else w.
(** The values the type can hold. *)
Definition fits (sg : bool) (es v : Z) : Prop :=
  if sg then - 2 ^ (8 * es - 1) <= v < 2 ^ (8 * es - 1) else 0 <= v < 2 ^ (8 * es).
