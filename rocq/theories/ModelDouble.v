(** * Doubles in memory: the bit patterns of binary64. *)
From Verif Require Import Base ModelFloat.
From Coq Require Import Floats.SpecFloat.
Open Scope Z_scope.

Definition db_of_bits (b : Z) : sf :=
  let s := Z.odd (b / 2 ^ 63) in
  let ex := b / 2 ^ 52 mod 2 ^ 11 in
  let m := b mod 2 ^ 52 in
  if ex =? 2047 then (if m =? 0 then S754_infinity s else S754_nan)
  else if ex =? 0 then
    match m with Zpos p => S754_finite s p (-1074) | _ => S754_zero s end
  else match m + 2 ^ 52 with Zpos p => S754_finite s p (ex - 1075) | _ => S754_nan end.

Definition dsbit (s : bool) : Z := if s then 2 ^ 63 else 0.
Definition bits_of_db (x : sf) : Z :=
  match x with
  | S754_zero s => dsbit s
  | S754_infinity s => dsbit s + 2047 * 2 ^ 52
  | S754_nan => 9221120237041090560        (* 0x7ff8000000000000 *)
  | S754_finite s m e =>
      if Zpos m <? 2 ^ 52 then dsbit s + Zpos m
      else dsbit s + (e + 1075) * 2 ^ 52 + (Zpos m - 2 ^ 52)
  end.

(** Element i of an array of doubles. *)
Definition loadd (p : ptr) (i : Z) : M sf :=
  b <- loadle p (8 * i) 8 ;; ret (db_of_bits b).
Definition stored_ (p : ptr) (i : Z) (x : sf) : M unit :=
  storele p (8 * i) 8 (bits_of_db x).
