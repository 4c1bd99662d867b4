(** * Specification vocabulary: dec_value literals. *)
From Verif Require Import Base ModelFloat SpecBase SpecNum.
From Coq Require Import Floats.SpecFloat.
Open Scope Z_scope.

(** The block at p contains the characters l from byte off on. *)
Definition text_at (s : st) (p : ptr) (off : Z) (l : list Z) : Prop :=
  forall i c, nth_error l i = Some c -> byte_at s p (off + Z.of_nat i) = Some c.

(** The block at p contains the C string l. *)
Definition c_string (s : st) (p : ptr) (l : list Z) : Prop := text_at s p 0 (l ++ [0]).

(** Decimal digits, and the number they denote. *)
Definition digits (l : list Z) : Prop := forall d, In d l -> 0 <= d <= 9.
Definition digit_text (l : list Z) : list Z := map (fun d => d + 48) l.
Definition dec_value (l : list Z) : Z := fold_left (fun v d => 10 * v + d) l 0.

(** An optional sign. *)
Definition sign_text (g : option bool) : list Z :=
  match g with None => [] | Some true => [45] | Some false => [43] end.
Definition sign_of (g : option bool) : Z := match g with Some true => -1 | _ => 1 end.

(** An optional exponent: the letter and the digits. *)
Definition exp_text (x : option (bool * list Z)) : list Z :=
  match x with None => [] | Some (b, l) => (if b then 69 else 101) :: digit_text l end.
Definition exp_digits (x : option (bool * list Z)) : list Z :=
  match x with None => [] | Some (_, l) => l end.

(** Blanks, sign, digits. *)
Definition head_text (n : nat) (g : option bool) (l : list Z) : list Z :=
  repeat 32 n ++ sign_text g ++ digit_text l.

(** pw k is exactly the double 10^k. *)
Definition pow_exact (pw : Z -> sf) (k : Z) : Prop :=
  db_ok (pw k) /\ sf_num (pw k) = Some (10 ^ k * sf_one).

(** x denotes the float that the integer z is converted to. *)
Definition denotes (x : sf) (z : Z) : Prop := fl_ok x /\ sf_num x = sf_num (fl_of_Z z).
