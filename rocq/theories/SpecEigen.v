(** * Specifications: QR factors and eigenvectors (no modelled code). *)
From Verif Require Import Base ModelFloat ModelDouble SpecBase SpecNum SpecMatrix SpecStat SpecSpectral.
From Coq Require Import Floats.SpecFloat.
Open Scope Z_scope.

(** The float number i at p is x. *)
Definition float_at (s : st) (p : ptr) (i : Z) (x : sf) : Prop :=
  exists raw, word_at s p (i * 4) 4 = Some raw /\ fl_of_bits raw = x.

(** The root of the sum of squares of n floats: the sum in single precision,
    the root in double precision. *)
Definition float_norm (n : Z) (v : Z -> sf) : sf := fl_of_db (db_sqrt (db_of_fl (float_dot n v v))).

(** Column j of a matrix of raw floats. *)
Definition column (A : Z -> Z -> Z) (j i : Z) : sf := fl_of_bits (A i j).
(** x - t - ... - t (j times) in single precision. *)
Definition lowered (j : Z) (t x : sf) : sf := foldz j (fun y _ => fl_sub y t) x.

(** ** Eigenvectors over a field *)
Section FieldEigen.
  Context {F : Type} (zero : F) (add mul sub : F -> F -> F).
  (** A u = lam u for the m x m matrix A. *)
  Definition eigenpair (m : Z) (A : Z -> Z -> F) (lam : F) (u : Z -> F) : Prop :=
    forall r, 0 <= r < m -> fsum_to zero add (Z.to_nat m) (fun c => mul (A r c) (u c)) = mul lam (u r).
  (** Only the zero vector is sent to zero by the leading k x k block. *)
  Definition leading_regular (k : Z) (A : Z -> Z -> F) (lam : F) : Prop :=
    forall u, eigenpair k A lam u -> forall c, 0 <= c < k -> u c = zero.
End FieldEigen.
