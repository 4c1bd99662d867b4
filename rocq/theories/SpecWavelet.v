(** * Specification: filter banks of the wavelet transforms. *)
From Verif Require Import Base ModelFloat SpecBase SpecNum SpecMatrix SpecShape.
From Coq Require Import Floats.SpecFloat.
Open Scope Z_scope.

(** The low-pass filters of a wavelet in units of 1/10000: for decomposition
    and for reconstruction. *)
Inductive wavelet := db3 | bior3_7.
Definition wavelet_code (w : wavelet) : Z := match w with db3 => 1 | bior3_7 => 2 end.
Definition low_d (w : wavelet) : list Z :=
  match w with
  | db3 => [3327; 8069; 4599; -1350; -854; 352]
  | bior3_7 => [30; -91; -168; 747; 313; -3012; -265; 9516; 9516; -265; -3012; 313; 747; -168; -91; 30]
  end.
Definition low_r (w : wavelet) : list Z :=
  match w with
  | db3 => [352; -854; -1350; 4599; 8069; 3327]
  | bior3_7 => [0; 0; 0; 0; 0; 0; 1768; 5303; 5303; 1768; 0; 0; 0; 0; 0; 0]
  end.
(** The signs of every second element changed. *)
Fixpoint alternate (l : list Z) : list Z :=
  match l with [] => [] | a :: r => a :: map Z.opp (alternate r) end.
(** The high-pass filters belonging to them. *)
Definition high_d (w : wavelet) : list Z := alternate (low_r w).
Definition high_r (w : wavelet) : list Z := map Z.opp (alternate (low_d w)).

(** The doubles nearest to these fractions, at p. *)
Definition fractions_at (s : st) (p : ptr) (l : list Z) : Prop :=
  readable s p (8 * Z.of_nat (List.length l))
  /\ forall k n, nth_error l k = Some n -> word_at s p (8 * Z.of_nat k) 8 = Some (double_word (dlit n 10000)).

(** The correlation of two filters at the distance d, in units of 10^-8. *)
Definition correlation (a b : list Z) (d : Z) : Z :=
  sumz (Z.of_nat (List.length a)) (fun k => nth (Z.to_nat k) a 0 *
    (if (0 <=? k + d) && (k + d <? Z.of_nat (List.length b)) then nth (Z.to_nat (k + d)) b 0 else 0)).
(** Up to the error x the signal comes back: the low-pass filters correlate to
    1 at distance 0 and to 0 at every other even distance. *)
Definition reconstructs (x : Z) (w : wavelet) : Prop :=
  forall d, Z.abs (correlation (rev (low_d w)) (low_r w) (2 * d) - (if d =? 0 then 100000000 else 0)) <= x.
