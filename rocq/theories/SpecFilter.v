(** * Specifications: filters, gradients, integral images (no modelled code). *)
From Verif Require Import Base ModelFloat SpecBase SpecImage SpecImage2 SpecPixel SpecNum SpecMatrix.

Open Scope Z_scope.

(** The pixels of the first channel of m are P. *)
Definition grey (s : st) (m : smat) (P : Z -> Z -> Z) : Prop :=
  forall i j, 0 <= i < sm_rows m -> 0 <= j < sm_cols m -> pix s m i j 0 = Some (P i j).

(** The plane P continued beyond the image m. *)
Definition beyond (x : extension) (m : smat) (P : Z -> Z -> Z) (i j : Z) : Z :=
  P (source_index x (sm_rows m) i) (source_index x (sm_cols m) j).

(** What the library's constant border does instead: every position outside
    takes the value at index 1. *)
Definition index_one (len p : Z) : Z := if (0 <=? p) && (p <? len) then p else 1.
Definition beyond_one (m : smat) (P : Z -> Z -> Z) (i j : Z) : Z :=
  P (index_one (sm_rows m) i) (index_one (sm_cols m) j).

(** The one-channel image md has received the values v; nothing else has
    changed. *)
Definition painted (s : st) (md : smat) (v : Z -> Z -> Z) (s' : st) : Prop :=
  (forall i j, 0 <= i < sm_rows md -> 0 <= j < sm_cols md -> pix s' md i j 0 = Some (v i j))
  /\ (forall x, ~ 0 <= x < sm_rows md * sm_cols md -> byte_at s' (sm_data md) x = byte_at s (sm_data md) x)
  /\ only_written (sm_data md) s s'.

(** The two Sobel derivatives of a plane, and the edge decision. *)
Definition derivative_x (P : Z -> Z -> Z) (i j : Z) : Z :=
  P (i - 1) (j + 1) + 2 * P i (j + 1) + P (i + 1) (j + 1)
  - (P (i - 1) (j - 1) + 2 * P i (j - 1) + P (i + 1) (j - 1)).
Definition derivative_y (P : Z -> Z -> Z) (i j : Z) : Z :=
  P (i + 1) (j - 1) + 2 * P (i + 1) j + P (i + 1) (j + 1)
  - (P (i - 1) (j - 1) + 2 * P (i - 1) j + P (i - 1) (j + 1)).
Definition edge (threshold : Z) (P : Z -> Z -> Z) (i j : Z) : Z :=
  if Z.max (Z.abs (derivative_x P i j)) (Z.abs (derivative_y P i j)) >? threshold then 255 else 0.

(** The discrete Laplacian. *)
Definition laplace (P : Z -> Z -> Z) (i j : Z) : Z :=
  P (i - 1) j + P (i + 1) j + P i (j - 1) + P i (j + 1) - 4 * P i j.

(** Sum of P over the rectangle of rows i0..i1-1 and columns j0..j1-1. *)
Definition block_sum (P : Z -> Z -> Z) (i0 i1 j0 j1 : Z) : Z :=
  sumz (i1 - i0) (fun a => sumz (j1 - j0) (fun b => P (i0 + a) (j0 + b))).

(** What the library stores at (i, j) instead of the sum over rows 0..i and
    columns 0..j. *)
Definition library_integral (P : Z -> Z -> Z) (i j : Z) : Z :=
  block_sum P 1 (i + 1) 1 (j + 1) + P i 0 + P 0 j - P 0 0.

(** The pixels of all channels of m are P. *)
Definition colours (s : st) (m : smat) (P : Z -> Z -> Z -> Z) : Prop :=
  forall i j k, in_image m i j k -> pix s m i j k = Some (P i j k).

(** a plus the products of the kernel K (stored floats) with the neighbourhood
    of (i, j) in the plane Q, added in row order in single precision. *)
Definition weighted (kr kc : Z) (K : Z -> Z -> Z) (Q : Z -> Z -> Z) (i j : Z) (a : sf) : sf :=
  foldz kr (fun a m => foldz kc (fun a n =>
    fl_add a (fl_mul (fl_of_bits (K m n)) (fl_of_Z (Q (i + m - kr / 2) (j + n - kc / 2))))) a) a.

(** The same sum in the integers. *)
Definition weighted_sum (kr kc : Z) (k : Z -> Z -> Z) (Q : Z -> Z -> Z) (i j : Z) : Z :=
  sumz kr (fun m => sumz kc (fun n => k m n * Q (i + m - kr / 2) (j + n - kc / 2))).

(** What the library leaves in the float matrix of header md (at dst, holding
    the words W before): its type is set to float and every element receives
    the weighted sum on top of its old value. *)
Definition accumulated (s : st) (dst : ptr) (md : smat) (R C cn kr kc : Z) (K : Z -> Z -> Z)
    (Q : Z -> Z -> Z -> Z) (W : Z -> Z -> Z) (s' : st) : Prop :=
  sm_at s' dst = Some (mkSM (sm_rows md) (sm_cols md) 4 (sm_chan md) (sm_esize md) (sm_data md))
  /\ (exists W', matrix s' (sm_data md) 4 R (C * cn) W'
        /\ forall i j c, 0 <= i < R -> 0 <= j < C -> 0 <= c < cn ->
             fl_of_bits (W' i (j * cn + c)) = weighted kr kc K (Q c) i j (fl_of_bits (W i (j * cn + c))))
  /\ (forall x, ~ 0 <= x < R * (C * cn) * 4 -> byte_at s' (sm_data md) x = byte_at s (sm_data md) x)
  /\ unchanged_except [dst; sm_data md] s s' /\ same_blocks s s'.
