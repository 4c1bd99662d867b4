(** * Specifications: matrices stored row by row (no modelled code). *)
From Verif Require Import Base ModelFloat ModelDouble SpecBase SpecNum.
From Coq Require Import Floats.SpecFloat.
Open Scope Z_scope.

(** The array at p holds the r x c matrix X of raw words of es bytes. *)
Definition matrix (s : st) (p : ptr) (es r c : Z) (X : Z -> Z -> Z) : Prop :=
  forall i j, 0 <= i < r -> 0 <= j < c -> word_at s p ((i * c + j) * es) (Z.to_nat es) = Some (X i j).

(** f 0 + ... + f (n-1) *)
Fixpoint sum_to (n : nat) (f : Z -> Z) : Z :=
  match n with O => 0 | S n' => sum_to n' f + f (Z.of_nat n') end.
Definition sumz (n : Z) (f : Z -> Z) : Z := sum_to (Z.to_nat n) f.

(** f (... f (f a 0) 1 ...) (n-1) *)
Fixpoint fold_to {T} (n : nat) (f : T -> Z -> T) (a : T) : T :=
  match n with O => a | S n' => f (fold_to n' f a) (Z.of_nat n') end.
Definition foldz {T} (n : Z) (f : T -> Z -> T) (a : T) : T := fold_to (Z.to_nat n) f a.

(** The stored float (double) is the integer z. *)
Definition float_int (raw z : Z) : Prop := sf_num (fl_of_bits raw) = Some (z * sf_one).
Definition double_int (raw z : Z) : Prop := sf_num (db_of_bits raw) = Some (z * sf_one).

(** An int. *)
Definition int_range (z : Z) : Prop := -2147483648 <= z <= 2147483647.

(** ** Matrices over a field, stored row by row in functions *)
Section Field.
  Context {F : Type} (zero one : F) (add mul : F -> F -> F).
  Fixpoint fsum_to (n : nat) (f : Z -> F) : F :=
    match n with O => zero | S n' => add (fsum_to n' f) (f (Z.of_nat n')) end.
  (** Entry (i, j) of the product of the m x m matrices X and Y. *)
  Definition product_at (m : Z) (X Y : Z -> F) (i j : Z) : F :=
    fsum_to (Z.to_nat m) (fun k => mul (X (i * m + k)) (Y (k * m + j))).
  (** X Y = 1 *)
  Definition inverse_of (m : Z) (X Y : Z -> F) : Prop :=
    forall i j, 0 <= i < m -> 0 <= j < m -> product_at m X Y i j = if i =? j then one else zero.
End Field.
