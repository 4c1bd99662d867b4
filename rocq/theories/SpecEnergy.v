(** * Specifications: edge energy (no modelled code). *)
From Verif Require Import Base ModelFloat SpecBase SpecPixel SpecNum SpecMatrix SpecFilter SpecStat.
From Coq Require Import List Floats.SpecFloat.
Import ListNotations.
Open Scope Z_scope.

(** The two edge masks: a sixth of the numbers, as stored floats. *)
Definition sixth (l : list Z) (m n : Z) : Z := bits_of_fl (fl_div (fl_of_Z (nth (Z.to_nat (m * 3 + n)) l 0)) (fl_of_Z 6)).
Definition diagonal : Z -> Z -> Z := sixth [-1; -1; 1; -1; 4; -1; 1; -1; -1].
Definition antidiagonal : Z -> Z -> Z := sixth [1; -1; -1; -1; 4; -1; -1; -1; 1].
(** The sum of the two responses of the plane Q at (i, j). *)
Definition edge_response (Q : Z -> Z -> Z) (i j : Z) : sf :=
  fl_add (weighted 3 3 diagonal Q i j (fl_of_Z 0)) (weighted 3 3 antidiagonal Q i j (fl_of_Z 0)).
(** The squares (computed by pow2) added in double precision, stored as a float,
    divided by the number of rows and that of columns. *)
Definition mean_square (pow2 : sf -> sf) (R C : Z) (v : Z -> Z -> sf) : sf :=
  fl_div (fl_div (foldz R (fun a i => foldz C (fun a j => fl_of_db (db_add (db_of_fl a) (pow2 (db_of_fl (v i j))))) a) (fl_of_Z 0)) (fl_of_Z R)) (fl_of_Z C).
(** The header m with one channel of bytes. *)
Definition as_grey (m : smat) : smat := mkSM (sm_rows m) (sm_cols m) 1 1 (sm_esize m) (sm_data m).
