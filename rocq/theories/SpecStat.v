(** * Specifications: statistics of an image, calibration (no modelled code). *)
From Verif Require Import Base ModelFloat SpecBase SpecImage SpecImage2 SpecPixel SpecNum SpecMatrix SpecFilter.
From Coq Require Import Floats.SpecFloat.
Open Scope Z_scope.

(** The neighbours of (i, j) in an R x C image: left, right, above, below. *)
Definition neighbours (R C i j : Z) : list (Z * Z) :=
  filter (fun p => (0 <=? fst p) && (fst p <? R) && (0 <=? snd p) && (snd p <? C))
    [(i, j - 1); (i, j + 1); (i - 1, j); (i + 1, j)].

(** Number of ordered pairs of neighbouring pixels. *)
Definition pairs (R C : Z) : Z := sumz R (fun i => sumz C (fun j => Z.of_nat (List.length (neighbours R C i j)))).

(** The sum over these pairs of the squared difference, in the integers ... *)
Definition sq_diff (P : Z -> Z -> Z) (i j : Z) (p : Z * Z) : Z := (P i j - P (fst p) (snd p)) * (P i j - P (fst p) (snd p)).
Definition contrast_sum (R C : Z) (P : Z -> Z -> Z) : Z :=
  sumz R (fun i => sumz C (fun j => fold_right Z.add 0 (map (sq_diff P i j) (neighbours R C i j)))).
(** ... and in single precision, each square (computed by pow2) being added in
    double precision and rounded. *)
Definition float_contrast (pow2 : sf -> sf) (R C : Z) (P : Z -> Z -> Z) : sf :=
  foldz R (fun a i => foldz C (fun a j =>
    fold_left (fun a p => fl_of_db (db_add (db_of_fl a) (pow2 (db_of_Z (P i j - P (fst p) (snd p)))))) (neighbours R C i j) a) a)
    (fl_of_Z 0).

(** pow2 squares integers up to B exactly. *)
Definition squares (pow2 : sf -> sf) (B : Z) : Prop :=
  forall d, Z.abs d <= B -> db_ok (pow2 (db_of_Z d)) /\ sf_num (pow2 (db_of_Z d)) = Some (d * d * sf_one).

(** What an element of type ty is read as by the mean: a float, or an unsigned
    number converted to float. *)
Definition unsigned_reading (ty raw : Z) : sf := if ty =? 4 then fl_of_bits raw else fl_of_Z raw.
(** The raw element number i of the matrix at p. *)
Definition elements_of (s : st) (p : ptr) (es n : Z) (W : Z -> Z) : Prop :=
  forall i, 0 <= i < n -> word_at s p (i * es) (Z.to_nat es) = Some (W i).

(** The mean and variance as the library computes them, in single precision. *)
Definition float_mean (R C : Z) (v : Z -> sf) : sf :=
  fl_div (fl_div (foldz (R * C) (fun a i => fl_add a (v i)) (fl_of_Z 0)) (fl_of_Z R)) (fl_of_Z C).
Definition float_variance (pow2 : sf -> sf) (R C : Z) (v : Z -> sf) : sf :=
  fl_div (fl_div (foldz (R * C) (fun a i =>
    fl_of_db (db_add (db_of_fl a) (pow2 (db_of_fl (fl_sub (float_mean R C v) (v i)))))) (fl_of_Z 0)) (fl_of_Z R)) (fl_of_Z C).

(** The float x is the integer z. *)
Definition is_int (x : sf) (z : Z) : Prop := fl_ok x /\ sf_num x = Some (z * sf_one).

(** A new cube of floats of the same shape whose sample at line i, column j and
    band k is the sample of the old one (read as [read]) times the coefficient
    number F j k of the table. *)
Definition calibrated (s : st) (m : hmat) (es : Z) (read : Z -> sf) (table : ptr) (F : Z -> Z -> Z) (s' : st) (p' : ptr) : Prop :=
  exists m', cube s' p' m' BIP 4
    /\ fresh_in s p' /\ fresh_in s (hm_data m')
    /\ hm_samples m' = hm_samples m /\ hm_lines m' = hm_lines m /\ hm_bands m' = hm_bands m /\ hm_type m' = 4
    /\ (forall i j k, in_cube m i j k -> exists x c,
          sample_word s m BIP es i j k = Some x
          /\ word_at s table (4 * F j k) 4 = Some c
          /\ sample_word s' m' BIP 4 i j k = Some (bits_of_fl (fl_mul (read x) (fl_of_bits c))))
    /\ old_unchanged s s' /\ files s' = files s /\ heap_ok s'.

(** The place of the coefficient of column j and band k in a table with one row
    of S columns for each band. *)
Definition own_coefficient (S j k : Z) : Z := k * S + j.
