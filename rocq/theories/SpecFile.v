(** * Specification vocabulary for the file properties. *)
From Verif Require Import Base SpecBase SpecPixel.
Open Scope Z_scope.

(** ** Bytes of a file *)

Definition file_byte (f : list Z) (i : Z) : option Z :=
  if i <? 0 then None else nth_error f (Z.to_nat i).

(** The n-byte little-endian number at position i is v. *)
Definition file_word (f : list Z) (i : Z) (n : nat) (v : Z) : Prop :=
  forall t, 0 <= t < Z.of_nat n -> file_byte f (i + t) = Some (v / 256 ^ t mod 256).

(** Two states agree on the file system everywhere but at the paths in l. *)
Definition other_files (l : list (list Z)) (s s' : st) : Prop :=
  forall p, ~ In p l -> file_of s' p = file_of s p.

(** ** BMP *)

(** A row of C 24-bit pixels, padded to a multiple of four bytes. *)
Definition bmp_stride (C : Z) : Z := (3 * C + 3) / 4 * 4.

(** The header of an uncompressed 24-bit file of R rows and C columns. *)
Definition bmp_header (f : list Z) (R C : Z) : Prop :=
  Z.of_nat (length f) = 54 + bmp_stride C * R
  /\ file_word f 0 2 19778                       (* "BM" *)
  /\ file_word f 2 4 (54 + bmp_stride C * R)     (* size of the file *)
  /\ file_word f 6 4 0
  /\ file_word f 10 4 54                         (* where the pixels start *)
  /\ file_word f 14 4 40                         (* size of the second header *)
  /\ file_word f 18 4 C
  /\ file_word f 22 4 R
  /\ file_word f 26 2 1
  /\ file_word f 28 2 24                         (* bits per pixel *)
  /\ file_word f 30 4 0                          (* not compressed *)
  /\ file_word f 34 4 (bmp_stride C * R)         (* size of the pixel data *)
  /\ file_word f 46 4 0 /\ file_word f 50 4 0.   (* no colour table *)

(** Component c (0 blue, 1 green, 2 red) of the pixel in row i (0 the top row)
    and column j of the file: the rows are stored from the bottom up. *)
Definition bmp_pixel (f : list Z) (R C i j c : Z) : option Z :=
  file_byte f (54 + (R - 1 - i) * bmp_stride C + 3 * j + c).

(** The file shows the picture v (channel 0 red, 1 green, 2 blue). *)
Definition bmp_shows (f : list Z) (R C : Z) (v : Z -> Z -> Z -> option Z) (i : Z) : Prop :=
  forall j c, 0 <= j < C -> 0 <= c < 3 -> bmp_pixel f R C i j c = v i j (2 - c).

(** Sizes the format and the int arithmetic of the library can represent. *)
Definition bmp_small (R C : Z) : Prop :=
  24 * C <= 2147483647 /\ bmp_stride C * R <= 2147483647 /\ 3 * R * C + 96 <= 2147483647.

(** ** Raw files *)

(** The cube at p' in s' is new, and shows the samples of the cube m of s. *)
Definition reloaded (s : st) (m : hmat) (l : layout) (es : Z) (s2 s' : st) (p' : ptr) : Prop :=
  exists m', cube s' p' m' l es
    /\ hm_samples m' = hm_samples m /\ hm_lines m' = hm_lines m
    /\ hm_bands m' = hm_bands m /\ hm_type m' = hm_type m
    /\ (forall i j k t, in_cube m i j k -> 0 <= t < es ->
          sample_byte s' m' l es i j k t = sample_byte s m l es i j k t)
    /\ fresh_in s2 p' /\ fresh_in s2 (hm_data m')
    /\ old_unchanged s2 s' /\ files s' = files s2 /\ heap_ok s'.
