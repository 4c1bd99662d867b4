(** * Specification: pictures of 32-bit pixels. *)
From Verif Require Import Base SpecBase.
Open Scope Z_scope.

(** Byte k of the pixel in row i and column j of a picture of C columns with four bytes per pixel. *)
Definition byte4 (s : st) (b : ptr) (C i j k : Z) : option Z := byte_at s b (4 * (i * C + j) + k).

(** The buffer b of s' shows the image m of s: grey images three times, colour
    images as they are, both followed by 1; four channels as they are. *)
Definition shows (s : st) (m : smat) (s' : st) (b : ptr) : Prop :=
  forall i j, 0 <= i < sm_rows m -> 0 <= j < sm_cols m ->
    (sm_chan m = 1 -> (forall k, 0 <= k < 3 -> byte4 s' b (sm_cols m) i j k = pix s m i j 0) /\ byte4 s' b (sm_cols m) i j 3 = Some 1)
    /\ (sm_chan m = 3 -> (forall k, 0 <= k < 3 -> byte4 s' b (sm_cols m) i j k = pix s m i j k) /\ byte4 s' b (sm_cols m) i j 3 = Some 1)
    /\ (sm_chan m = 4 -> forall k, 0 <= k < 4 -> byte4 s' b (sm_cols m) i j k = pix s m i j k).
