(** * Specification: morphology on images with more columns than rows. *)
From Verif Require Import Base SpecBase SpecImage2.
Open Scope Z_scope.

(** The plane seen when R bytes are taken per row: a row holds C bytes, but
    the next one starts R bytes further on. *)
Definition overlapping (s : st) (p : ptr) (R C : Z) (P : Z -> Z -> Z) : Prop :=
  forall i j, 0 <= i < R -> 0 <= j < C -> byte_at s p (i * R + j) = Some (P i j).

(** The row that decides byte x when the rows are stored one after the other. *)
Definition last_row (R x : Z) : Z := Z.min (x / R) (R - 1).

(** The values V have been stored in this manner; the bytes from
    (R - 1) * R + C on keep their values. *)
Definition painted_overlapping (s : st) (p : ptr) (R C : Z) (V : Z -> Z -> Z) (s' : st) : Prop :=
  (forall x, 0 <= x < (R - 1) * R + C -> byte_at s' p x = Some (V (last_row R x) (x - last_row R x * R)))
  /\ (forall x, ~ 0 <= x < (R - 1) * R + C -> byte_at s' p x = byte_at s p x)
  /\ only_written p s s'.
