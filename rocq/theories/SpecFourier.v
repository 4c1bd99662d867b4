(** * Specifications: the Fourier transforms (no modelled code).

    The sums are written once for an arithmetic with a narrow and a wide
    number type; it is instantiated with the machine's floats and doubles and
    with the real numbers. *)
From Verif Require Import Base ModelFloat SpecBase SpecNum SpecMatrix.
From Coq Require Import Floats.SpecFloat Reals.
Open Scope Z_scope.

Record farith (T : Type) : Type := FArith {
  f_int : Z -> T; f_add : T -> T -> T; f_mul : T -> T -> T; f_div : T -> T -> T;
  d_int : Z -> T; d_add : T -> T -> T; d_sub : T -> T -> T; d_mul : T -> T -> T; d_div : T -> T -> T;
  d_root : T -> T; d_pi : T; d_cos : T -> T; d_sin : T -> T;
  widen : T -> T; narrow : T -> T }.
Arguments f_int {T}. Arguments f_add {T}. Arguments f_mul {T}. Arguments f_div {T}.
Arguments d_int {T}. Arguments d_add {T}. Arguments d_sub {T}. Arguments d_mul {T}. Arguments d_div {T}.
Arguments d_root {T}. Arguments d_pi {T}. Arguments d_cos {T}. Arguments d_sin {T}.
Arguments widen {T}. Arguments narrow {T}.

(** The machine, for given cosine and sine functions. *)
Definition machine (cos_ sin_ : sf -> sf) : farith sf :=
  FArith sf fl_of_Z fl_add fl_mul fl_div db_of_Z db_add db_sub db_mul db_div
    db_sqrt (dlit 31415926 10000000) cos_ sin_ db_of_fl fl_of_db.
(** The real numbers. *)
Definition reals : farith R :=
  FArith R IZR Rplus Rmult Rdiv IZR Rplus Rminus Rmult Rdiv sqrt PI cos sin (fun x => x) (fun x => x).

Section Sums.
Context {T : Type} (A : farith T) (R C : Z).

(** The double sum over the cells of an R x C grid, rounded after each step. *)
Definition grid_sum (g : Z -> Z -> T) : T :=
  foldz R (fun a x => foldz C (fun a y => narrow A (d_add A (widen A a) (g x y))) a) (f_int A 0).
(** sign * 2 pi (i x / R + j y / C) *)
Definition angle (sign i j x y : Z) : T :=
  d_mul A (d_mul A (d_int A (sign * 2)) (d_pi A))
    (widen A (f_add A (f_div A (f_mul A (f_int A i) (f_int A x)) (f_int A R))
                      (f_div A (f_mul A (f_int A j) (f_int A y)) (f_int A C)))).

(** Real and imaginary part of the transform of P at (i, j). *)
Definition dft_re (P : Z -> Z -> Z) (i j : Z) : T :=
  grid_sum (fun x y => d_mul A (d_int A (P x y)) (d_cos A (angle (-1) i j x y))).
Definition dft_im (P : Z -> Z -> Z) (i j : Z) : T :=
  grid_sum (fun x y => d_mul A (d_int A (P x y)) (d_sin A (angle (-1) i j x y))).

(** The transform back: real part, divided by the root of the number of cells. *)
Definition dft_inverse (re im : Z -> Z -> T) (i j : Z) : T :=
  narrow A (d_div A (widen A (grid_sum (fun x y =>
      d_sub A (d_mul A (widen A (re x y)) (d_cos A (angle 1 i j x y)))
              (d_mul A (widen A (im x y)) (d_sin A (angle 1 i j x y))))))
    (d_root A (d_int A (R * C)))).

(** The magnitude of the transform of P with alternating signs, divided by the
    root of the number of cells. *)
Definition alternate (x y : Z) : Z := if Z.even (x + y) then 1 else -1.
Definition spectrum_re (P : Z -> Z -> Z) (i j : Z) : T :=
  grid_sum (fun x y => d_mul A (d_mul A (d_int A (P x y)) (d_cos A (angle (-1) i j x y))) (d_int A (alternate x y))).
Definition spectrum_im (P : Z -> Z -> Z) (i j : Z) : T :=
  grid_sum (fun x y => d_mul A (d_mul A (d_int A (P x y)) (d_sin A (angle (-1) i j x y))) (d_int A (alternate x y))).
Definition magnitude_of (re im : T) : T :=
  narrow A (d_div A (d_root A (widen A (f_add A (f_mul A re re) (f_mul A im im)))) (d_root A (d_int A (R * C)))).
End Sums.

(** The float stored for x. *)
Definition float_word (x : sf) : Z := bits_of_fl x mod 4294967296.

(** A header at p with R rows, C columns and type ty, over data of at most
    INT_MAX elements that hold X in words of es bytes. *)
Definition sheet (s : st) (p : ptr) (m : smat) (ty es R C : Z) (X : Z -> Z -> Z) : Prop :=
  sm_at s p = Some m /\ sm_rows m = R /\ sm_cols m = C /\ sm_type m = ty
  /\ 0 < R /\ 0 < C /\ R * C <= 2147483647 /\ matrix s (sm_data m) es R C X.

(** Between s and s' only the first n bytes of p and q differ. *)
Definition only_two (s : st) (p q : ptr) (n : Z) (s' : st) : Prop :=
  files s' = files s /\ List.length (objs s') = List.length (objs s) /\ unchanged_except [p; q] s s'
  /\ (forall r t, r = p \/ r = q -> ~ 0 <= t < n -> byte_at s' r t = byte_at s r t).

(** Cosine and sine functions that are exact at zero and finite at finite
    arguments. *)
Definition trig_like (cos_ sin_ : sf -> sf) : Prop :=
  forall x a, db_ok x -> sf_num x = Some a ->
    db_ok (cos_ x) /\ db_ok (sin_ x) /\ (exists c, sf_num (cos_ x) = Some c) /\ (exists c, sf_num (sin_ x) = Some c)
    /\ (a = 0 -> sf_num (cos_ x) = Some sf_one /\ sf_num (sin_ x) = Some 0).

(** An image that is zero except for its first point. *)
Definition one_point (P : Z -> Z -> Z) (R C v : Z) : Prop :=
  forall x y, 0 <= x < R -> 0 <= y < C -> P x y = if (x =? 0) && (y =? 0) then v else 0.
