(** * Specifications: means, spectra, stretching, edge energy (no modelled code). *)
From Verif Require Import Base ModelFloat SpecBase SpecImage SpecImage2 SpecPixel SpecNum SpecMatrix SpecFilter SpecStat.
From Coq Require Import Floats.SpecFloat.
Open Scope Z_scope.

(** ** Integer types of C and the number a stored word denotes *)
Inductive kind := UChar | Char | UShort | Short | UInt | Int.
Definition kind_size (k : kind) : Z := match k with UChar | Char => 1 | UShort | Short => 2 | UInt | Int => 4 end.
Definition kind_value (k : kind) (w : Z) : Z :=
  match k with
  | UChar | UShort | UInt => w
  | Char => if w <? 128 then w else w - 256
  | Short => if w <? 32768 then w else w - 65536
  | Int => if w <? 2147483648 then w else w - 4294967296
  end.

(** v 0 + ... + v (n-1) in single (double) precision, from left to right. *)
Definition float_sum (n : Z) (v : Z -> sf) : sf := foldz n (fun a i => fl_add a (v i)) (fl_of_Z 0).
Definition double_sum (n : Z) (v : Z -> sf) : sf := foldz n (fun a i => db_add a (v i)) (db_of_Z 0).
Definition float_average (n : Z) (v : Z -> sf) : sf := fl_div (float_sum n v) (fl_of_Z n).

(** ** Cubes and matrices *)

(** Each band of md (BSQ) is the transpose of that band of ms. *)
Definition bands_transposed (s : st) (ms md : hmat) (es : Z) (s' : st) : Prop :=
  forall i j k t, in_cube ms i j k -> 0 <= t < es ->
    sample_byte s' md BSQ es j i k t = sample_byte s ms BSQ es i j k t.

(** The float at pixel (i, j) of md is f applied to the spectrum of that pixel
    of the BIP cube m, given as a function of the band. *)
Definition per_pixel (s : st) (m : hmat) (md : smat) (f : (Z -> sf) -> sf) (s' : st) : Prop :=
  forall i j, 0 <= i < hm_lines m -> 0 <= j < hm_samples m ->
    exists W, (forall k, 0 <= k < hm_bands m -> sample_word s m BIP 4 i j k = Some (W k))
      /\ word_at s' (sm_data md) ((i * sm_cols md + j) * 4) 4 = Some (bits_of_fl (f (fun k => fl_of_bits (W k)))).

(** ** Angles and distances *)

(** The sum of |x i * y i| with every product cut to an integer, and the sums of
    squares, in single precision. *)
Definition float_dot (n : Z) (x y : Z -> sf) : sf := float_sum n (fun i => fl_mul (x i) (y i)).
(** The product cut to an integer without its sign; None when that is not an int. *)
Definition cut_product (a b : sf) : option Z :=
  match sf_trunc (fl_mul a b) with
  | Some z => if (INT_MIN <? z) && (z <=? INT_MAX) then Some (Z.abs z) else None
  | None => None
  end.
Definition library_angle (acos_ : sf -> sf) (n : Z) (x y : Z -> sf) (K : Z -> Z) : sf :=
  fl_of_db (acos_ (db_div (db_of_fl (float_sum n (fun i => fl_of_Z (K i))))
                          (db_sqrt (db_of_fl (fl_mul (float_dot n x x) (float_dot n y y)))))).
Definition float_distance (n : Z) (x y : Z -> sf) : sf :=
  fl_of_db (db_sqrt (db_of_fl (float_sum n (fun i => fl_mul (fl_sub (x i) (y i)) (fl_sub (x i) (y i)))))).

(** The first n floats of d are f of the floats of a and b at the same place. *)
Definition combined (s : st) (a b d : ptr) (n : Z) (f : sf -> sf -> sf) (s' : st) : Prop :=
  forall t, 0 <= t < n -> exists x y,
    word_at s a (4 * t) 4 = Some x /\ word_at s b (4 * t) 4 = Some y
    /\ word_at s' d (4 * t) 4 = Some (bits_of_fl (f (fl_of_bits x) (fl_of_bits y))).

(** The variance: every squared deviation (computed by pow2) is added in double
    precision and the sum is stored as a float. *)
Definition spectrum_variance (pow2 : sf -> sf) (n : Z) (v : Z -> sf) : sf :=
  fl_div (foldz n (fun a i => fl_of_db (db_add (db_of_fl a) (pow2 (db_of_fl (fl_sub (v i) (float_average n v)))))) (fl_of_Z 0)) (fl_of_Z n).
Definition spectrum_deviation (pow2 : sf -> sf) (n : Z) (v : Z -> sf) : sf := fl_of_db (db_sqrt (db_of_fl (spectrum_variance pow2 n v))).
(** pow2 squares whole floats exactly. *)
Definition squares_floats (pow2 : sf -> sf) (B : Z) : Prop :=
  forall x d, Z.abs d <= B -> is_int x d -> db_ok (pow2 (db_of_fl x)) /\ sf_num (pow2 (db_of_fl x)) = Some (d * d * sf_one).

(** The pixels of the image at r are 1 where [mark] holds and 0 elsewhere; the
    image is new and nothing else has changed. *)
Definition marked (s : st) (L S : Z) (mark : Z -> Z -> bool) (r : ptr) (s' : st) : Prop :=
  exists md, sm_at s' r = Some md /\ sm_rows md = L /\ sm_cols md = S /\ sm_type md = 1 /\ sm_chan md = 1 /\ fresh_in s r /\ fresh_in s (sm_data md)
    /\ (forall i j, 0 <= i < L -> 0 <= j < S -> byte_at s' (sm_data md) (i * S + j) = Some (if mark i j then 1 else 0))
    /\ old_unchanged s s'.

(** ** Linear stretching *)

(** The largest (smallest) of n rows of c numbers; a maximum below 0 and a
    minimum above 10^9 are replaced by those bounds. *)
Definition band_max (n c : Z) (v : Z -> Z -> sf) : sf :=
  foldz n (fun a i => foldz c (fun a j => if SFltb a (v i j) then v i j else a) a) (fl_of_Z 0).
Definition band_min (n c : Z) (v : Z -> Z -> sf) : sf :=
  foldz n (fun a i => foldz c (fun a j => if SFltb (v i j) a then v i j else a) a) (fl_of_Z 1000000000).
(** x * (255 / (mx - mn)) + (- mn * 255) / (mx - mn), cut to an integer and
    clipped to 0 (for x = 0) or 1 and 255; None when it is not an int. *)
Definition stretch (mx mn x : sf) : option Z :=
  match sf_trunc (fl_add (fl_mul x (fl_div (fl_of_Z 255) (fl_sub mx mn))) (fl_div (fl_mul (SFopp mn) (fl_of_Z 255)) (fl_sub mx mn))) with
  | Some r => if (INT_MIN <=? r) && (r <=? INT_MAX)
              then Some (if r <=? 0 then (if SFeqb x (fl_of_Z 0) then 0 else 1) else Z.min r 255) else None
  | None => None
  end.
