(** * Floating point: the C types float (binary32) and double (binary64).

    Arithmetic is that of the Coq standard library's [SpecFloat] (IEEE 754,
    round to nearest even, a single NaN); this file only fixes the formats and
    adds conversions.  It describes x86-64 with SSE2: every operation is rounded
    to its own type (FLT_EVAL_METHOD 0, no fused multiply-add). *)
From Verif Require Import Base.
From Coq Require Import Floats.SpecFloat.
Open Scope Z_scope.

Notation sf := spec_float.

(** ** binary32 *)
Definition fl_add := SFadd 24 128.
Definition fl_sub := SFsub 24 128.
Definition fl_mul := SFmul 24 128.
Definition fl_div := SFdiv 24 128.
Definition fl_sqrt := SFsqrt 24 128.
Definition fl_of_Z (z : Z) : sf := binary_normalize 24 128 z 0 false.

(** ** binary64 *)
Definition db_add := SFadd 53 1024.
Definition db_sub := SFsub 53 1024.
Definition db_mul := SFmul 53 1024.
Definition db_div := SFdiv 53 1024.
Definition db_sqrt := SFsqrt 53 1024.
Definition db_of_Z (z : Z) : sf := binary_normalize 53 1024 z 0 false.
(** A decimal literal n/d of type double (n and d exactly representable: the
    correctly rounded quotient is the nearest double). *)
Definition dlit (n d : Z) : sf := db_div (db_of_Z n) (db_of_Z d).

(** ** Conversions between the two *)
Definition renorm (prec emax : Z) (x : sf) : sf :=
  match x with
  | S754_finite s m e => binary_normalize prec emax (cond_Zopp s (Zpos m)) e s
  | _ => x
  end.
Definition fl_of_db : sf -> sf := renorm 24 128.
Definition db_of_fl : sf -> sf := renorm 53 1024.

(** ** To integers *)

(** The value truncated towards zero; None for NaN and the infinities. *)
Definition sf_trunc (x : sf) : option Z :=
  match x with
  | S754_zero _ => Some 0
  | S754_finite s m e =>
      let a := if 0 <=? e then Zpos m * 2 ^ e else Zpos m / 2 ^ (- e) in
      Some (cond_Zopp s a)
  | _ => None
  end.

(** The value rounded to the nearest integer, ties to even. *)
Definition sf_rne (x : sf) : option Z :=
  match x with
  | S754_zero _ => Some 0
  | S754_finite s m e =>
      let a := if 0 <=? e then Zpos m * 2 ^ e
               else let d := 2 ^ (- e) in
                    let q := Zpos m / d in
                    let r := Zpos m mod d in
                    if (2 * r <? d) || ((2 * r =? d) && Z.even q) then q else q + 1 in
      Some (cond_Zopp s a)
  | _ => None
  end.

(** C conversions (int)x: undefined when the truncated value is not an int. *)
Definition int_of_sf (x : sf) : cint :=
  match sf_trunc x with Some z => chk z | None => None end.
(** Conversion to an integer type with the range [lo, hi]. *)
Definition range_of_sf (lo hi : Z) (x : sf) : cint :=
  match sf_trunc x with
  | Some z => if (lo <=? z) && (z <=? hi) then Some z else None
  | None => None
  end.

(** ** Bit patterns *)
Definition fl_of_bits (b : Z) : sf :=
  let s := Z.odd (b / 2 ^ 31) in
  let ex := b / 2 ^ 23 mod 2 ^ 8 in
  let m := b mod 2 ^ 23 in
  if ex =? 255 then (if m =? 0 then S754_infinity s else S754_nan)
  else if ex =? 0 then
    match m with Zpos p => S754_finite s p (-149) | _ => S754_zero s end
  else match m + 2 ^ 23 with Zpos p => S754_finite s p (ex - 150) | _ => S754_nan end.

Definition sbit (s : bool) : Z := if s then 2 ^ 31 else 0.
Definition bits_of_fl (x : sf) : Z :=
  match x with
  | S754_zero s => sbit s
  | S754_infinity s => sbit s + 255 * 2 ^ 23
  | S754_nan => 2143289344                 (* 0x7fc00000 *)
  | S754_finite s m e =>
      if Zpos m <? 2 ^ 23 then sbit s + Zpos m
      else sbit s + (e + 150) * 2 ^ 23 + (Zpos m - 2 ^ 23)
  end.

(** Float element i of a float array. *)
Definition loadf (p : ptr) (i : Z) : M sf :=
  b <- loadle p (4 * i) 4 ;; ret (fl_of_bits b).
Definition storef (p : ptr) (i : Z) (x : sf) : M unit :=
  storele p (4 * i) 4 (bits_of_fl x).
