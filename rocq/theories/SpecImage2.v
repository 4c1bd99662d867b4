(** * Specifications for the remaining functions of imageprocess.c and small
    core functions (no modelled code). *)
From Verif Require Import Base SpecBase SpecImage.
Open Scope Z_scope.

(** Only the array p was written: every other object and the shape of the heap
    are as before. *)
Definition only_written (p : ptr) (s s' : st) : Prop :=
  unchanged_except [p] s s' /\ same_blocks s s'.

(** Band number band (counted from 1) of the BSQ cube m has been copied into
    the simple matrix at d (header md before). *)
Definition band_extracted (s : st) (m : hmat) (es : Z) (d : ptr) (md : smat) (band : Z) (s' : st) : Prop :=
  sm_at s' d = Some (mkSM (hm_lines m) (hm_samples m) (hm_type m) (sm_chan md) (sm_esize md) (sm_data md))
  /\ (forall i j t, 0 <= i < hm_lines m -> 0 <= j < hm_samples m -> 0 <= t < es ->
        byte_at s' (sm_data md) ((i * hm_samples m + j) * es + t) = sample_byte s m BSQ es i j (band - 1) t)
  /\ (forall x, hm_samples m * hm_lines m * es <= x ->
        byte_at s' (sm_data md) x = byte_at s (sm_data md) x)
  /\ unchanged_except [d; sm_data md] s s' /\ same_blocks s s'.

(** The array src (rows of samples) has been stored as band number band of the
    BSQ cube m; the other bands are as before. *)
Definition band_inserted (s : st) (m : hmat) (es : Z) (src : ptr) (band : Z) (s' : st) : Prop :=
  (forall i j t, 0 <= i < hm_lines m -> 0 <= j < hm_samples m -> 0 <= t < es ->
     sample_byte s' m BSQ es i j (band - 1) t = byte_at s src ((i * hm_samples m + j) * es + t))
  /\ (forall i j k t, in_cube m i j k -> k <> band - 1 -> 0 <= t < es ->
        sample_byte s' m BSQ es i j k t = sample_byte s m BSQ es i j k t)
  /\ only_written (hm_data m) s s'.

(** The one-channel matrix mr holds the transpose of ms. *)
Definition transposed (s : st) (ms mr : smat) (es : Z) (s' : st) : Prop :=
  forall i j t, 0 <= i < sm_rows mr -> 0 <= j < sm_cols mr -> 0 <= t < es ->
    pixel_byte s' mr es i j 0 t = pixel_byte s ms es j i 0 t.

(** Pixel-wise sum of two 8-bit images (wrapping around), on their common area. *)
Definition summed (s : st) (m1 m2 md : smat) (s' : st) : Prop :=
  forall i j k, 0 <= i < Z.min (sm_rows m1) (sm_rows m2) ->
    0 <= j < Z.min (sm_cols m1) (sm_cols m2) -> 0 <= k < sm_chan md ->
    exists a b, pix s m1 i j k = Some a /\ pix s m2 i j k = Some b
      /\ pix s' md i j k = Some ((a + b) mod 256).

(** All n samples (of es bytes) of src have been written into dst from element
    index start on, the other bytes of dst are as before. *)
Definition spliced (s : st) (dst src : ptr) (es start n : Z) (s' : st) : Prop :=
  (forall i t, 0 <= i < n -> 0 <= t < es ->
     byte_at s' dst ((start + i) * es + t) = byte_at s src (i * es + t))
  /\ (forall x, x < start * es \/ (start + n) * es <= x -> byte_at s' dst x = byte_at s dst x)
  /\ only_written dst s s'.

(** A fresh matrix with one row per pixel and one column per band, holding the
    samples of the BIP cube m. *)
Definition pixels_by_bands (s : st) (m : hmat) (es : Z) (s' : st) (p' : ptr) : Prop :=
  exists m',
    image s' p' m' es
    /\ sm_rows m' = hm_samples m * hm_lines m /\ sm_cols m' = hm_bands m /\ sm_chan m' = 1
    /\ sm_type m' = hm_type m
    /\ (forall i j k t, in_cube m i j k -> 0 <= t < es ->
          pixel_byte s' m' es (i * hm_samples m + j) k 0 t = sample_byte s m BIP es i j k t)
    /\ fresh_in s p' /\ fresh_in s (sm_data m')
    /\ old_unchanged s s' /\ files s' = files s /\ heap_ok s'.

(** A structuring element of the given size, all cells one. *)
Definition all_ones (s : st) (p : ptr) (w h : Z) : Prop :=
  exists m, s2_at s p = Some m /\ s2_width m = w /\ s2_height m = h
    /\ (forall i, 0 <= i < w * h -> byte_at s (s2_data m) i = Some 1).
