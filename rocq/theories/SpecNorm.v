(** * Specifications: normalisation (no modelled code). *)
From Verif Require Import Base ModelFloat SpecBase SpecNum SpecMatrix SpecStat.
Open Scope Z_scope.

(** Element t of the data d: a byte, or a float, denoting the integer z. *)
Definition denotes_int (ty : Z) (raw z : Z) : Prop :=
  if ty =? 1 then raw = z else is_int (fl_of_bits raw) z.
Definition elem_size (ty : Z) : Z := if ty =? 1 then 1 else 4.

(** The first n elements at d are bytes (floats) denoting N i / m, rounded to
    nearest and limited to 0..255. *)
Definition rescaled (s' : st) (d : ptr) (ty n : Z) (N : Z -> Z) (m : Z) : Prop :=
  forall i, 0 <= i < n -> exists raw z, word_at s' d (i * elem_size ty) (Z.to_nat (elem_size ty)) = Some raw
    /\ nearest_even (N i) m z /\ denotes_int ty raw (clamp 0 255 z).

(** lo and hi are the smallest and largest of the first n values. *)
Definition extremes (n : Z) (z : Z -> Z) (lo hi : Z) : Prop :=
  (exists i, 0 <= i < n /\ z i = lo) /\ (exists i, 0 <= i < n /\ z i = hi) /\ forall i, 0 <= i < n -> lo <= z i <= hi.

(** The arguments fit: a byte or float source whose first rows * cols elements
    are W, and a destination of the same size with room for them (possibly the
    source itself). *)
Record normalizable (s : st) (src dst : ptr) (ms md : smat) (W : Z -> Z) : Prop := {
  nz_src : sm_at s src = Some ms;
  nz_dst : sm_at s dst = Some md;
  nz_rows : sm_rows md = sm_rows ms;
  nz_cols : sm_cols md = sm_cols ms;
  nz_pos : 0 < sm_rows ms /\ 0 < sm_cols ms;
  nz_type : sm_type ms = 1 \/ sm_type ms = 4;
  nz_size : sm_rows ms * sm_cols ms <= INT_MAX;
  nz_data : elements_of s (sm_data ms) (elem_size (sm_type ms)) (sm_rows ms * sm_cols ms) W;
  nz_room : readable s (sm_data md) (sm_rows ms * sm_cols ms * elem_size (sm_type ms)) }.
