(** * Specification: the whole of the principal components, step by step in single precision. *)
From Verif Require Import Base ModelFloat ModelDouble ModelEigen SpecBase SpecNum SpecMatrix SpecSpectral SpecEigen SpecPca.
From Coq Require Import Floats.SpecFloat.
Open Scope Z_scope.

(** The word stored as the mean of pixel t over its b bands. *)
Definition pixel_mean (b : Z) (X : Z -> Z -> Z) (t : Z) : Z := bits_of_fl (float_average b (fun k => fl_of_bits (X t k))).

(** Column j lowered by its sum j times; the factors q and r of the library; what
    is added to the matrix in one turn, in place. *)
Definition qr_col (m : Z) (T : Z -> Z -> sf) (j i : Z) : sf := lowered j (float_sum m (fun i => T i j)) (T i j).
Definition qr_q (m : Z) (T : Z -> Z -> sf) (i j : Z) : sf := fl_div (qr_col m T j i) (float_norm m (qr_col m T j)).
Definition qr_r (m : Z) (T : Z -> Z -> sf) (i j : Z) : sf :=
  if i <? j then float_sum m (fun i => T i j) else if i =? j then float_norm m (qr_col m T j) else fl_of_Z 0.
Definition pca_turn (m : Z) (T : Z -> Z -> sf) (i j : Z) : sf :=
  foldz m (fun a t => fl_add a (fl_mul (qr_q m T i t) (qr_r m T t j))) (T i j).
Fixpoint pca_turns (m : Z) (k : nat) (T : Z -> Z -> sf) : Z -> Z -> sf :=
  match k with O => T | S k' => pca_turn m (pca_turns m k' T) end.

(** Entry i of the vector the library computes for the value lam of the matrix C. *)
Definition unit_vector (m : Z) (C : Z -> Z -> sf) (lam : sf) (i : Z) : sf :=
  fl_div (e_vector float_earith m C lam i) (fl_of_db (db_sqrt (db_of_fl (e_length2 float_earith m C lam)))).

(** f 0, ..., f (n-1) *)
Definition listed {T} (n : Z) (f : Z -> T) : list T := map (fun k => f (Z.of_nat k)) (seq 0 (Z.to_nat n)).
