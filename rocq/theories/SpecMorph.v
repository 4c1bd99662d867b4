(** * Specifications: morphology, histograms (no modelled code). *)
From Verif Require Import Base SpecBase SpecImage SpecImage2 SpecPixel SpecMatrix SpecFilter.
Open Scope Z_scope.

(** The structuring element at k: w columns and h rows of bytes E, stored at d. *)
Definition element (s : st) (k : ptr) (w h : Z) (d : ptr) (E : Z -> Z -> Z) : Prop :=
  s2_at s k = Some (mkS2 w h d) /\ 0 < w /\ 0 < h
  /\ forall m n, 0 <= m < h -> 0 <= n < w -> byte_at s d (m * w + n) = Some (E m n).

(** The element centred at (i, j) lies inside an image of R x C pixels. *)
Definition fits (R C w h i j : Z) : Prop :=
  0 <= i - h / 2 /\ i + h / 2 < R /\ 0 <= j - w / 2 /\ j + w / 2 < C.

(** All pixels / some pixel / some cleared pixel under the element centred at (i, j). *)
Definition all_set (w h : Z) (E P : Z -> Z -> Z) (i j : Z) : Prop :=
  forall m n, 0 <= m < h -> 0 <= n < w -> E m n = 1 -> P (i - h / 2 + m) (j - w / 2 + n) <> 0.
Definition some_set (w h : Z) (E P : Z -> Z -> Z) (i j : Z) : Prop :=
  exists m n, 0 <= m < h /\ 0 <= n < w /\ E m n = 1 /\ P (i - h / 2 + m) (j - w / 2 + n) <> 0.
Definition some_clear (w h : Z) (E P : Z -> Z -> Z) (i j : Z) : Prop :=
  exists m n, 0 <= m < h /\ 0 <= n < w /\ E m n = 1 /\ P (i - h / 2 + m) (j - w / 2 + n) = 0.

(** V is the erosion, the dilation of P; where the element does not fit,
    pixels keep their values. *)
Definition erosion (R C w h : Z) (E P V : Z -> Z -> Z) : Prop :=
  forall i j, 0 <= i < R -> 0 <= j < C ->
    (fits R C w h i j -> (V i j <> 0 <-> all_set w h E P i j)) /\ (~ fits R C w h i j -> V i j = P i j).
Definition dilation (R C w h : Z) (E P V : Z -> Z -> Z) : Prop :=
  forall i j, 0 <= i < R -> 0 <= j < C ->
    (fits R C w h i j -> (V i j <> 0 <-> some_set w h E P i j)) /\ (~ fits R C w h i j -> V i j = P i j).

(** What the library computes instead. *)
Definition library_erosion (R C w h : Z) (E P V : Z -> Z -> Z) : Prop :=
  forall i j, 0 <= i < R -> 0 <= j < C ->
    (fits R C w h i j -> (V i j <> 0 <-> P i j <> 0 /\ all_set w h E P i j)) /\ (V i j = 0 \/ V i j = P i j)
    /\ (~ fits R C w h i j -> V i j = P i j).
Definition library_dilation (R C w h : Z) (E P V : Z -> Z -> Z) : Prop :=
  forall i j, 0 <= i < R -> 0 <= j < C ->
    (P i j <> 0 -> V i j = P i j)
    /\ (P i j = 0 -> fits R C w h i j -> (V i j = 1 <-> some_clear w h E P i j) /\ (V i j = 0 \/ V i j = 1))
    /\ (~ fits R C w h i j -> V i j = P i j).

(** Number of pixels of an R x C plane that have the value v, and at most v. *)
Definition pixels_of (R C : Z) (P : Z -> Z -> Z) (v : Z) : Z :=
  sumz R (fun i => sumz C (fun j => if P i j =? v then 1 else 0)).
Definition pixels_upto (R C : Z) (P : Z -> Z -> Z) (v : Z) : Z :=
  sumz R (fun i => sumz C (fun j => if P i j <=? v then 1 else 0)).

(** The equalised value of level v. *)
Definition equalised (R C : Z) (P : Z -> Z -> Z) (v : Z) : Z := pixels_upto R C P v * 255 / (R * C).

(** What the library computes instead: level 0 is not scaled, and each level
    is added to the already scaled value of the level before. *)
Fixpoint library_level (R C : Z) (P : Z -> Z -> Z) (v : nat) : Z :=
  match v with
  | O => pixels_of R C P 0
  | S u => (library_level R C P u + pixels_of R C P (Z.of_nat v)) * 255 / (R * C)
  end.
