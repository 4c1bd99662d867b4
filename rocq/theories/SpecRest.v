(** * Specification: printed descriptions, released blocks. *)
From Verif Require Import Base ModelFloat SpecBase SpecCore SpecNum SpecHdr.
From Coq Require Import Floats.SpecFloat String.
Open Scope Z_scope.

(** l is the number x with six decimals, correctly rounded. *)
Definition six_decimals (l : list Z) (x : sf) : Prop :=
  match x with
  | S754_nan => l = text "nan"
  | S754_infinity s => l = (if s then text "-" else []) ++ text "inf"
  | S754_zero s => l = (if s then text "-" else []) ++ text "0.000000"
  | S754_finite s m e => exists ds fs, l = (if s then text "-" else []) ++ ds ++ text "." ++ fs
      /\ ds <> [] /\ Forall digit ds /\ Forall digit fs /\ List.length fs = 6%nat
      /\ (if 0 <=? e then place_value (ds ++ fs) = Z.pos m * 2 ^ e * 10 ^ 6
          else 2 * Z.abs (place_value (ds ++ fs) * 2 ^ (- e) - Z.pos m * 10 ^ 6) <= 2 ^ (- e))
  end.

(** The description of a cube, with the texts of its numbers and wavelengths. *)
Definition numbers_text (a b c d : list Z) (tag : list Z) : list Z :=
  text "mat's samples is " ++ a ++ [10] ++ text "mat's lines is " ++ b ++ [10] ++ text "mat's bands is " ++ c ++ [10]
  ++ text "mat's data type is " ++ d ++ [10] ++ text "mat's interleave is " ++ tag ++ [10].
Definition waves_text (ws : list (list Z)) : list Z :=
  text "mat's wavelength is" ++ [10] ++ List.concat (List.map (fun w => w ++ text ",") ws).

(** p is a block of its own that has not been released. *)
Definition block (s : st) (p : ptr) : Prop :=
  exists k o, p = Some k /\ nth_error (objs s) k = Some o /\ o_live o = true /\ o_root o = k.
(** NULL or different blocks. *)
Fixpoint own_blocks (s : st) (l : list ptr) : Prop :=
  match l with
  | [] => True
  | p :: r => (p = None \/ block s p /\ ~ In p r) /\ own_blocks s r
  end.

(** k new objects, all of them still there. *)
Definition left_behind (k : nat) (s s' : st) : Prop :=
  List.length (objs s') = (List.length (objs s) + k)%nat
  /\ forall i o, (List.length (objs s) <= i)%nat -> nth_error (objs s') i = Some o -> o_live o = true.
