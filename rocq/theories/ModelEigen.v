(** * Model: matrixprocess.c, the QR and eigenvector code
    (/repo/modules/process/src/c_src/matrixprocess.c 215-298). *)
From Verif Require Import Base ModelFloat ModelDouble.
From Coq Require Import Floats.SpecFloat.
Open Scope Z_scope.

(** 215-222: matrix_norm_float; the root is taken in double. *)
Definition matrix_norm_float (m : ptr) (size : Z) : M sf :=
  ans <- forS 0 size (fun i ans =>
    x <- loadf m i ;;
    ret (fl_add ans (fl_mul x x))) (fl_of_Z 0) ;;
  ret (fl_of_db (db_sqrt (db_of_fl ans))).

(** 224-250: matrix_QR_float.  The two columns are never freed. *)
Definition matrix_QR_float (a q r : ptr) (m : Z) : M unit :=
  col_a <- malloc (u64 (m * 4)) ;;
  col_q <- malloc (u64 (m * 4)) ;;
  for_ 0 m (fun j =>
    for_ 0 m (fun i =>
      k <- ev (i * m + j)%C ;;
      x <- loadf a k ;;
      storef col_a i x ;;;
      y <- loadf a k ;;
      storef col_q i y) ;;;
    for_ 0 j (fun k =>
      t <- ev (k * m + j)%C ;;
      storef r t (fl_of_Z 0) ;;;
      for_ 0 m (fun i1 =>
        x <- loadf r t ;;
        y <- loadf col_a i1 ;;
        storef r t (fl_add x y)) ;;;
      for_ 0 m (fun i2 =>
        x <- loadf col_q i2 ;;
        y <- loadf r t ;;
        storef col_q i2 (fl_sub x y))) ;;;
    tmp <- matrix_norm_float col_q m ;;
    d <- ev (j * m + j)%C ;;
    storef r d tmp ;;;
    for_ 0 m (fun i =>
      k <- ev (i * m + j)%C ;;
      x <- loadf col_q i ;;
      storef q k (fl_div x tmp))).

(** 252-298: cal_eigen_vector_float.  The loop 283-292 runs downwards from
    m - 2: its t-th turn has i2 = m - 2 - t. *)
Definition cal_eigen_vector_float (a eigenvector eigenvalue : ptr) (m n : Z) : M unit :=
  mn <- ev (m * n)%C ;;
  temp <- malloc (u64 (mn * 4)) ;;
  for_ 0 n (fun count =>
    evalue <- loadf eigenvalue count ;;
    mn <- ev (m * n)%C ;;
    memcpy temp 0 a 0 (u64 (mn * 4)) ;;;
    for_ 0 m (fun i =>
      d <- ev (i * n + i)%C ;;
      x <- loadf temp d ;;
      storef temp d (fl_sub x evalue)) ;;;
    for_ 0 (m - 1) (fun i =>
      d <- ev (i * n + i)%C ;;
      coe <- loadf temp d ;;
      for_ 1 n (fun j =>
        k <- ev (i * n + j)%C ;;
        x <- loadf temp k ;;
        storef temp k (fl_div x coe)) ;;;
      for_ (i + 1) m (fun i1 =>
        k <- ev (i1 * n + i)%C ;;
        coe <- loadf temp k ;;
        for_ i n (fun j1 =>
          k1 <- ev (i1 * n + j1)%C ;;
          k2 <- ev (i * n + j1)%C ;;
          x <- loadf temp k1 ;;
          y <- loadf temp k2 ;;
          storef temp k1 (fl_sub x (fl_mul coe y))))) ;;;
    last <- ev ((ci m - 1) * n + count)%C ;;
    storef eigenvector last (fl_of_Z 1) ;;;
    sum1 <- forS 0 (m - 1) (fun t sum1 =>
      let i2 := m - 2 - t in
      sum2 <- forS (i2 + 1) n (fun j2 sum2 =>
        k <- ev (i2 * n + j2)%C ;;
        k2 <- ev (j2 * n + count)%C ;;
        x <- loadf temp k ;;
        y <- loadf eigenvector k2 ;;
        ret (fl_add sum2 (fl_mul x y))) (fl_of_Z 0) ;;
      d <- ev (i2 * n + i2)%C ;;
      x <- loadf temp d ;;
      let sum2 := fl_div (SFopp sum2) x in
      k <- ev (i2 * n + count)%C ;;
      storef eigenvector k sum2 ;;;
      ret (fl_add sum1 (fl_mul sum2 sum2))) (fl_of_Z 1) ;;
    let sum1 := fl_of_db (db_sqrt (db_of_fl sum1)) in
    for_ 0 m (fun i =>
      k <- ev (i * n + count)%C ;;
      x <- loadf eigenvector k ;;
      storef eigenvector k (fl_div x sum1))) ;;;
  free temp.

(** ** The same algorithm over any arithmetic, for square matrices

    Matrices are functions of row and column; used to speak about exact
    arithmetic.  ProofEigen4 shows that the code above computes exactly this
    with the float operations. *)
Record earith (T : Type) := {
  e_zero : T; e_one : T; e_add : T -> T -> T; e_sub : T -> T -> T;
  e_mul : T -> T -> T; e_div : T -> T -> T; e_neg : T -> T }.
Arguments e_zero {T}. Arguments e_one {T}. Arguments e_add {T}. Arguments e_sub {T}.
Arguments e_mul {T}. Arguments e_div {T}. Arguments e_neg {T}.

Section Eigen.
  Context {T : Type} (A : earith T) (m : Z).
  (** 262-263 *)
  Definition e_shift (a : Z -> Z -> T) (lam : T) : Z -> Z -> T :=
    fun i j => if i =? j then e_sub A (a i j) lam else a i j.
  (** 267-270: from column 1 on. *)
  Definition e_divide (i : Z) (d : Z -> Z -> T) : Z -> Z -> T :=
    fun r c => if (r =? i) && (1 <=? c) then e_div A (d r c) (d i i) else d r c.
  (** 272-278 *)
  Definition e_clear (i : Z) (d : Z -> Z -> T) : Z -> Z -> T :=
    fun r c => if (i <? r) && (i <=? c) then e_sub A (d r c) (e_mul A (d r i) (d i c)) else d r c.
  (** 265-279: the first k turns. *)
  Fixpoint e_elim (k : nat) (d : Z -> Z -> T) : Z -> Z -> T :=
    match k with O => d | S k' => e_clear (Z.of_nat k') (e_divide (Z.of_nat k') (e_elim k' d)) end.
  (** 285-287: terms from column j on. *)
  Fixpoint e_row (n : nat) (d : Z -> Z -> T) (v : Z -> T) (i j : Z) : T :=
    match n with O => e_zero A | S n' => e_add A (e_row n' d v i j) (e_mul A (d i (j + Z.of_nat n')) (v (j + Z.of_nat n'))) end.
  (** 282-292: the vector after k turns. *)
  Fixpoint e_back (k : nat) (d : Z -> Z -> T) : Z -> T :=
    match k with
    | O => fun _ => e_one A
    | S k' =>
        let v := e_back k' d in
        let i2 := m - 2 - Z.of_nat k' in
        fun i => if i =? i2 then e_div A (e_neg A (e_row (S k') d v i2 (i2 + 1))) (d i2 i2) else v i
    end.
  (** 281-291: the sum of squares after k turns. *)
  Fixpoint e_squares (k : nat) (d : Z -> Z -> T) : T :=
    match k with
    | O => e_one A
    | S k' =>
        let x := e_back k d (m - 2 - Z.of_nat k') in
        e_add A (e_squares k' d) (e_mul A x x)
    end.
  (** The vector for one value before it is scaled, and the sum of its squares. *)
  Definition e_reduced (a : Z -> Z -> T) (lam : T) : Z -> Z -> T := e_elim (Z.to_nat (m - 1)) (e_shift a lam).
  Definition e_vector (a : Z -> Z -> T) (lam : T) : Z -> T := e_back (Z.to_nat (m - 1)) (e_reduced a lam).
  Definition e_length2 (a : Z -> Z -> T) (lam : T) : T := e_squares (Z.to_nat (m - 1)) (e_reduced a lam).
End Eigen.

Definition float_earith : earith sf := {|
  e_zero := fl_of_Z 0; e_one := fl_of_Z 1; e_add := fl_add; e_sub := fl_sub;
  e_mul := fl_mul; e_div := fl_div; e_neg := SFopp |}.
Definition exact_earith {F : Type} (zero one : F) (add mul sub : F -> F -> F) (opp : F -> F) (div : F -> F -> F) : earith F := {|
  e_zero := zero; e_one := one; e_add := add; e_sub := sub; e_mul := mul; e_div := div; e_neg := opp |}.
