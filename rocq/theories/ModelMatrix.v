(** * Model: /repo/modules/process/src/c_src/matrixprocess.c. *)
From Verif Require Import Base ModelFloat ModelDouble.
From Coq Require Import Floats.SpecFloat.
Open Scope Z_scope.

(** ** Products (4-116)

    The eight functions have the same text; they differ in the element type:
    its size and the meaning of [z += x * y] on stored words (None: undefined). *)
Definition MulMatrix_with (es : Z) (mac : Z -> Z -> Z -> option Z) (x y z : ptr) (m k n : Z) : M unit :=
  for_ 0 m (fun nm =>
    for_ 0 n (fun nn =>
      for_ 0 k (fun nk =>
        zi <- ev (nm * n + nn)%C ;;
        xi <- ev (nm * k + nk)%C ;;
        yi <- ev (nk * n + nn)%C ;;
        a <- loadle x (xi * es) (Z.to_nat es) ;;
        b <- loadle y (yi * es) (Z.to_nat es) ;;
        c <- loadle z (zi * es) (Z.to_nat es) ;;
        r <- ev (mac c a b) ;;
        storele z (zi * es) (Z.to_nat es) r))).

(** Types that are promoted to int: dec reads the stored word. *)
Definition mac_promoted (dec : Z -> Z) (c a b : Z) : option Z :=
  cadd (ci (dec c)) (cmul (ci (dec a)) (ci (dec b))).
Definition mac_uint (c a b : Z) : option Z := Some (u32 (c + u32 (a * b))).
Definition mac_float (c a b : Z) : option Z :=
  Some (bits_of_fl (fl_add (fl_of_bits c) (fl_mul (fl_of_bits a) (fl_of_bits b)))).
Definition mac_double (c a b : Z) : option Z :=
  Some (bits_of_db (db_add (db_of_bits c) (db_mul (db_of_bits a) (db_of_bits b)))).

(** 11-17, 25-31, 39-45, 53-59, 68-74, 82-88, 96-102, 110-116. *)
Definition MulMatrix_char := MulMatrix_with 1 (mac_promoted (sgn 8)).
Definition MulMatrix_uchar := MulMatrix_with 1 (mac_promoted (fun w => w)).
Definition MulMatrix_short := MulMatrix_with 2 (mac_promoted (sgn 16)).
Definition MulMatrix_ushort := MulMatrix_with 2 (mac_promoted (fun w => w)).
Definition MulMatrix_int := MulMatrix_with 4 (mac_promoted (sgn 32)).
Definition MulMatrix_uint := MulMatrix_with 4 mac_uint.
Definition MulMatrix_float := MulMatrix_with 4 mac_float.
Definition MulMatrix_double := MulMatrix_with 8 mac_double.

(** ** Transposes (124-213): moving a value moves its bits. *)
Definition TransMatrix_with (es : Z) (x z : ptr) (m n : Z) : M unit :=
  for_ 0 m (fun nm =>
    for_ 0 n (fun nn =>
      zi <- ev (nn * m + nm)%C ;;
      xi <- ev (nm * n + nn)%C ;;
      a <- loadle x (xi * es) (Z.to_nat es) ;;
      storele z (zi * es) (Z.to_nat es) a)).
Definition TransMatrix_double := TransMatrix_with 8.
Definition TransMatrix_short := TransMatrix_with 2.
Definition TransMatrix_char := TransMatrix_with 1.
Definition TransMatrix_ushort := TransMatrix_with 2.
Definition TransMatrix_uchar := TransMatrix_with 1.
Definition TransMatrix_int := TransMatrix_with 4.
Definition TransMatrix_float := TransMatrix_with 4.
Definition TransMatrix_uint := TransMatrix_with 4.

(** ** Inversion (356-433) *)

(** 356-368: set_identity_matrix_float. *)
Definition set_identity_matrix_float (mat : ptr) (m : Z) : M unit :=
  for_ 0 m (fun i =>
    for_ 0 m (fun j =>
      r <- ev (i * m + j)%C ;;
      storef mat r (if i =? j then fl_of_Z 1 else fl_of_Z 0))).

(** 370-383: swap_rows_float. *)
Definition swap_rows_float (data : ptr) (m n r1 r2 : Z) : M unit :=
  assert ((0 <=? r1) && (r1 <? m) && (0 <=? r2) && (r2 <? m)) ;;;
  assert (negb (r1 =? r2)) ;;;
  tmp <- malloc (u64 (n * 4)) ;;
  d1 <- ev (r1 * n)%C ;;
  d2 <- ev (r2 * n)%C ;;
  memcpy tmp 0 data (4 * d1) (u64 (n * 4)) ;;;
  memcpy data (4 * d1) data (4 * d2) (u64 (n * 4)) ;;;
  memcpy data (4 * d2) tmp 0 (u64 (n * 4)) ;;;
  free tmp.

(** 385-391: matrix_row_multi_scalar_float. *)
Definition matrix_row_multi_scalar_float (mat : ptr) (rows cols r : Z) (scalar : sf) : M unit :=
  assert ((0 <=? r) && (r <? rows)) ;;;
  for_ 0 cols (fun i =>
    k <- ev (r * cols + i)%C ;;
    x <- loadf mat k ;;
    storef mat k (fl_mul x scalar)).

(** 394-399: shear_row. *)
Definition shear_row (mat : ptr) (rows cols r1 r2 : Z) (scalar : sf) : M unit :=
  assert (negb (r1 =? r2) && (0 <=? r1) && (r1 <? rows) && (0 <=? r2) && (r2 <? rows)) ;;;
  for_ 0 cols (fun i =>
    k1 <- ev (r1 * cols + i)%C ;;
    k2 <- ev (r2 * cols + i)%C ;;
    y <- loadf mat k2 ;;
    x <- loadf mat k1 ;;
    storef mat k1 (fl_add x (fl_mul scalar y))).

(** Unary minus changes the sign. *)
Definition sf_opp (x : sf) : sf := SFopp x.
(** [x == 0.0] (the conversion to double does not matter). *)
Definition fl_is_zero (x : sf) : bool := SFeqb x (S754_zero false).
(** [(float)(1.0 / x)]: the division is in double. *)
Definition fl_recip (x : sf) : sf := fl_of_db (db_div (db_of_Z 1) (db_of_fl x)).

(** 402-433: invert_matrix_float.  The loop variable of the outer loop becomes
    [true] when the code returns (415-416); the search 410-414 yields r. *)
Definition invert_matrix_float (res mat : ptr) (m : Z) : M unit :=
  set_identity_matrix_float res m ;;;
  forS 0 m (fun i (returned : bool) =>
    if returned then ret true
    else
      d <- ev (i * m + i)%C ;;
      x <- loadf mat d ;;
      stop <-
        (if fl_is_zero x then
           r <- forS (i + 1) m (fun r (found : option Z) =>
                  match found with
                  | Some _ => ret found
                  | None =>
                      k <- ev (r * m + i)%C ;;
                      y <- loadf mat k ;;
                      ret (if negb (fl_is_zero y) then Some r else None)
                  end) None ;;
           match r with
           | None => ret true
           | Some r =>
               swap_rows_float mat m m i r ;;;
               swap_rows_float res m m i r ;;;
               ret false
           end
         else ret false) ;;
      if (stop : bool) then ret true
      else
        d' <- ev (i * m + i)%C ;;
        y <- loadf mat d' ;;
        let scalar := fl_recip y in
        matrix_row_multi_scalar_float mat m m i scalar ;;;
        matrix_row_multi_scalar_float res m m i scalar ;;;
        for_ 0 m (fun j =>
          if i =? j then ret tt
          else
            k <- ev (j * m + i)%C ;;
            v <- loadf mat k ;;
            let shear_needed := sf_opp v in
            shear_row mat m m j i shear_needed ;;;
            shear_row res m m j i shear_needed) ;;;
        ret false) false ;;;
  ret tt.

(** ** The same algorithm (402-433) over any arithmetic

    Arrays are functions of the index i*m+j, arithmetic is a parameter; used to
    speak about exact arithmetic.  ProofInvert shows that the code above computes
    exactly this with the float operations. *)
Record arith (T : Type) := {
  a_zero : T; a_one : T;
  a_is_zero : T -> bool;
  a_scale : T -> T -> T;         (* x * (1 / p) *)
  a_shear : T -> T -> T -> T     (* x + (-v) * y *) }.
Arguments a_zero {T}. Arguments a_one {T}. Arguments a_is_zero {T}. Arguments a_scale {T}. Arguments a_shear {T}.

Section Gauss.
  Context {T : Type} (A : arith T) (m : Z).
  Definition in_row (r t : Z) : bool := (r * m <=? t) && (t <? r * m + m).
  (** 356-368 *)
  Definition g_identity : Z -> T := fun t => if t / m =? t mod m then a_one A else a_zero A.
  (** 370-383 *)
  Definition g_swap (d : Z -> T) (r1 r2 : Z) : Z -> T := fun t =>
    if in_row r1 t then d (t - r1 * m + r2 * m)
    else if in_row r2 t then d (t - r2 * m + r1 * m)
    else d t.
  (** 385-391 with the scalar 1 / p of 420 *)
  Definition g_scale (d : Z -> T) (r : Z) (p : T) : Z -> T := fun t =>
    if in_row r t then a_scale A (d t) p else d t.
  (** 394-399 with the scalar -v of 428 *)
  Definition g_shear (d : Z -> T) (r1 r2 : Z) (v : T) : Z -> T := fun t =>
    if in_row r1 t then a_shear A (d t) v (d (t - r1 * m + r2 * m)) else d t.

  (** 410-414: the first row from r on with a non-zero entry in column i. *)
  Fixpoint g_find (fuel : nat) (mat : Z -> T) (i r : Z) : option Z :=
    match fuel with
    | O => None
    | S fuel' => if a_is_zero A (mat (r * m + i)) then g_find fuel' mat i (r + 1) else Some r
    end.

  (** 424-431 *)
  Fixpoint g_clear (fuel : nat) (i j : Z) (res mat : Z -> T) : (Z -> T) * (Z -> T) :=
    match fuel with
    | O => (res, mat)
    | S fuel' =>
        if i =? j then g_clear fuel' i (j + 1) res mat
        else
          let v := mat (j * m + i) in
          g_clear fuel' i (j + 1) (g_shear res j i v) (g_shear mat j i v)
    end.

  (** 420-431: one column. *)
  Definition g_step (i : Z) (res mat : Z -> T) : (Z -> T) * (Z -> T) :=
    let p := mat (i * m + i) in
    g_clear (Z.to_nat m) i 0 (g_scale res i p) (g_scale mat i p).

  (** 406-432: the result is (finished, res, mat). *)
  Fixpoint g_loop (fuel : nat) (i : Z) (res mat : Z -> T) : bool * ((Z -> T) * (Z -> T)) :=
    match fuel with
    | O => (true, (res, mat))
    | S fuel' =>
        if a_is_zero A (mat (i * m + i)) then
          match g_find (Z.to_nat (m - i - 1)) mat i (i + 1) with
          | None => (false, (res, mat))
          | Some r =>
              let rm := g_step i (g_swap res i r) (g_swap mat i r) in
              g_loop fuel' (i + 1) (fst rm) (snd rm)
          end
        else
          let rm := g_step i res mat in
          g_loop fuel' (i + 1) (fst rm) (snd rm)
    end.
  Definition gauss_jordan (mat : Z -> T) : bool * ((Z -> T) * (Z -> T)) :=
    g_loop (Z.to_nat m) 0 g_identity mat.
End Gauss.

(** The float arithmetic of the code, on stored 32-bit words. *)
Definition fl_word (x : sf) : Z := bits_of_fl x mod 4294967296.
Definition float_arith : arith Z := {|
  a_zero := fl_word (fl_of_Z 0);
  a_one := fl_word (fl_of_Z 1);
  a_is_zero := fun x => fl_is_zero (fl_of_bits x);
  a_scale := fun x p => fl_word (fl_mul (fl_of_bits x) (fl_recip (fl_of_bits p)));
  a_shear := fun x v y =>
    fl_word (fl_add (fl_of_bits x) (fl_mul (sf_opp (fl_of_bits v)) (fl_of_bits y))) |}.

(** Exact arithmetic: the operations of a field. *)
Definition exact_arith {F : Type} (zero one : F) (add mul : F -> F -> F) (opp inv : F -> F) (isz : F -> bool) : arith F := {|
  a_zero := zero; a_one := one; a_is_zero := isz;
  a_scale := fun x p => mul x (inv p);
  a_shear := fun x v y => add x (mul (opp v) y) |}.
