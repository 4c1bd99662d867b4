(** * Specifications: moments of a shape and their comparison (no modelled code).

    The seven invariants of Hu are written once for an arithmetic; it is
    instantiated with the machine's doubles and with the real numbers. *)
From Verif Require Import Base ModelFloat ModelDouble SpecBase SpecNum SpecMatrix.
From Coq Require Import Floats.SpecFloat Reals.
Open Scope Z_scope.

Record marith (T : Type) : Type := MArith {
  a_int : Z -> T; a_add : T -> T -> T; a_sub : T -> T -> T; a_mul : T -> T -> T; a_div : T -> T -> T }.
Arguments a_int {T}. Arguments a_add {T}. Arguments a_sub {T}. Arguments a_mul {T}. Arguments a_div {T}.
Definition doubles : marith sf := MArith sf db_of_Z db_add db_sub db_mul db_div.
Definition real_numbers : marith R := MArith R IZR Rplus Rminus Rmult Rdiv.

Section Moments.
Context {T : Type} (A : marith T).
Declare Scope mo. Delimit Scope mo with mo.
Notation "x + y" := (a_add A x y) : mo.
Notation "x - y" := (a_sub A x y) : mo.
Notation "x * y" := (a_mul A x y) : mo.
Notation "'#' n" := (a_int A n) (at level 1) : mo.

(** Hu's invariants of the normalised central moments u p q. *)
Definition hu_values (u : nat -> nat -> T) : list T := (
  let a := u 3%nat 0%nat - #3 * u 1%nat 2%nat in
  let b := #3 * u 2%nat 1%nat - u 0%nat 3%nat in
  let c := u 3%nat 0%nat + u 1%nat 2%nat in
  let d := u 2%nat 1%nat + u 0%nat 3%nat in
  let e := u 2%nat 0%nat - u 0%nat 2%nat in
  [u 2%nat 0%nat + u 0%nat 2%nat;
   e * e + #4 * u 1%nat 1%nat * u 1%nat 1%nat;
   a * a + b * b;
   c * c + d * d;
   a * c * (c * c - #3 * d * d) + b * d * (#3 * c * c - d * d);
   e * (c * c - d * d) + #4 * u 1%nat 1%nat * c * d;
   b * c * (c * c - #3 * d * d) - a * d * (#3 * c * c - d * d)])%mo.

(** The sum over the pixels of an R x C image. *)
Definition image_sum (R C : Z) (g : Z -> Z -> T) : T :=
  foldz R (fun a j => foldz C (fun a i => a_add A a (g j i)) a) (a_int A 0).
(** x^p y^q, multiplied from left to right. *)
Definition monomial (p q : nat) (x y : T) : T :=
  match repeat x p ++ repeat y q with
  | [] => a_int A 1
  | a :: r => fold_left (a_mul A) r a
  end.
(** The moment of the image P about the column cx and row cy. *)
Definition moment (p q : nat) (R C cx cy : Z) (P : Z -> Z -> Z) : T :=
  image_sum R C (fun j i => a_mul A (monomial p q (a_int A (i - cx)) (a_int A (j - cy))) (a_int A (P j i))).
(** The weight of the image and its weight times column, times row. *)
Definition mass (R C : Z) (P : Z -> Z -> Z) : T := image_sum R C (fun j i => a_int A (P j i)).
Definition mass_x (R C : Z) (P : Z -> Z -> Z) : T := image_sum R C (fun j i => a_int A (i * P j i)).
Definition mass_y (R C : Z) (P : Z -> Z -> Z) : T := image_sum R C (fun j i => a_int A (j * P j i)).
End Moments.

(** The moment divided by the power 2 or 2.5 of the weight, by its order. *)
Definition scaled (pow_ : sf -> sf -> sf) (weight : sf) (m : nat -> nat -> sf) (p q : nat) : sf :=
  db_div (m p q) (pow_ weight (if (p + q =? 2)%nat then db_of_Z 2 else dlit 5 2)).
Definition shape_values (pow_ : sf -> sf -> sf) (weight : sf) (m : nat -> nat -> sf) : list sf :=
  hu_values doubles (scaled pow_ weight m).

(** The same in whole numbers. *)
Definition isum (R C : Z) (g : Z -> Z -> Z) : Z := sumz R (fun j => sumz C (g j)).
Definition weight_of (R C : Z) (P : Z -> Z -> Z) : Z := isum R C P.
(** The whole number nearest to the centre of the weights, halves up. *)
Definition centre_x (R C : Z) (P : Z -> Z -> Z) : Z :=
  (2 * isum R C (fun j i => i * P j i) + weight_of R C P) / (2 * weight_of R C P).
Definition centre_y (R C : Z) (P : Z -> Z -> Z) : Z :=
  (2 * isum R C (fun j i => j * P j i) + weight_of R C P) / (2 * weight_of R C P).
Definition imoment (R C cx cy : Z) (P : Z -> Z -> Z) (p q : nat) : Z :=
  isum R C (fun j i => (i - cx) ^ Z.of_nat p * (j - cy) ^ Z.of_nat q * P j i).
(** The invariants of an image whose moments are exact. *)
Definition shape_of (pow_ : sf -> sf -> sf) (R C : Z) (P : Z -> Z -> Z) : list sf :=
  shape_values pow_ (db_of_Z (weight_of R C P))
    (fun p q => db_of_Z (imoment R C (centre_x R C P) (centre_y R C P) P p q)).
(** Small enough for an exact centre, for exact moments. *)
Definition middling_image (R C : Z) : Prop := 255 * (R * C) * Z.max R C <= 2 ^ 49.
Definition small_image (R C : Z) : Prop :=
  255 * (R * C) * (Z.max R C * Z.max R C * Z.max R C) <= 2 ^ 53.

(** The seven doubles at p. *)
Definition double_word (x : sf) : Z := bits_of_db x mod 18446744073709551616.
Definition seven (s : st) (p : ptr) (l : list sf) : Prop :=
  List.length l = 7%nat /\ readable s p 56
  /\ forall k x, nth_error l k = Some x -> word_at s p (8 * Z.of_nat k) 8 = Some (double_word x).

(** An image header at p whose bytes are P, rows of C elements of es bytes. *)
Definition byte_rows (s : st) (p : ptr) (m : smat) (R C es : Z) (P : Z -> Z -> Z) : Prop :=
  sm_at s p = Some m /\ sm_rows m = R /\ sm_cols m = C /\ type_size (sm_type m) = Some es
  /\ 0 < R /\ 0 < C /\ R * (C * es) <= 2147483647 /\ matrix s (sm_data m) 1 R (C * es) P.

(** Q is P moved by dy rows and dx columns, nothing of it lost. *)
Definition moved (P Q : Z -> Z -> Z) (R C R' C' dy dx : Z) : Prop :=
  (forall j i, 0 <= j < R -> 0 <= i < C -> 0 <= j + dy < R' -> 0 <= i + dx < C' -> Q (j + dy) (i + dx) = P j i)
  /\ (forall j i, 0 <= j < R -> 0 <= i < C -> ~ (0 <= j + dy < R' /\ 0 <= i + dx < C') -> P j i = 0)
  /\ (forall j i, 0 <= j < R' -> 0 <= i < C' -> ~ (0 <= j - dy < R /\ 0 <= i - dx < C) -> Q j i = 0).

(** One minus the relative difference of two lists. *)
Definition similarity (a b : list sf) : sf :=
  let sum f := fold_left db_add (map (fun x => SFabs (f (fst x) (snd x))) (combine a b)) (db_of_Z 0) in
  db_sub (db_of_Z 1) (db_div (sum db_sub) (sum db_add)).

(** Neither infinite nor NaN; not zero. *)
Definition is_fin (x : sf) : bool := match x with S754_finite _ _ _ | S754_zero _ => true | _ => false end.
Definition is_nonzero (x : sf) : bool := match x with S754_zero _ => false | _ => true end.


(** Weighted points of the plane: their moments about the origin, and the
    points turned by the angle with cosine c and sine s. *)
Definition cloud_moment (l : list (R * R * R)) (p q : nat) : R :=
  fold_right (fun w a => (fst (fst w) * (snd (fst w)) ^ p * (snd w) ^ q + a)%R) 0%R l.
Definition turn_point (c s : R) (w : R * R * R) : R * R * R :=
  (fst (fst w), c * snd (fst w) - s * snd w, s * snd (fst w) + c * snd w)%R.

(** The sum of the two second moments about the true centre, divided by the
    square of the weight, as a fraction. *)
Definition first_num (R C : Z) (P : Z -> Z -> Z) : Z :=
  weight_of R C P * isum R C (fun j i => (i * i + j * j) * P j i)
  - isum R C (fun j i => i * P j i) * isum R C (fun j i => i * P j i)
  - isum R C (fun j i => j * P j i) * isum R C (fun j i => j * P j i).
Definition first_den (R C : Z) (P : Z -> Z -> Z) : Z := weight_of R C P ^ 3.

(** The state with a block of n bytes more, holding what it happens to hold. *)
Definition one_more (s s' : st) (n : Z) : Prop :=
  files s' = files s /\ List.length (objs s') = S (List.length (objs s)) /\ old_unchanged s s' /\ readable s' (Some (List.length (objs s))) n.
