(** * Specifications: the numbers denoted by stored values (no modelled code). *)
From Verif Require Import Base ModelFloat SpecBase.
From Coq Require Import Floats.SpecFloat.
Open Scope Z_scope.

(** ** Floating-point values as integers

    Every finite binary32 or binary64 number is an integer multiple of
    2^-1074; [sf_num] is that integer, so the number denoted by x is
    [sf_num x / sf_one]. *)
Definition sf_one : Z := 2 ^ 1074.
Definition sf_num (x : sf) : option Z :=
  match x with
  | S754_zero _ => Some 0
  | S754_finite s m e => Some (cond_Zopp s (Zpos m) * 2 ^ (e + 1074))
  | _ => None
  end.

(** x is a number of the format with the given precision and largest exponent. *)
Definition fl_ok (x : sf) : Prop := valid_binary 24 128 x = true.
Definition db_ok (x : sf) : Prop := valid_binary 53 1024 x = true.

(** z is the integer nearest to n/d, the even one of two equally near ones. *)
Definition nearest_even (n d z : Z) : Prop :=
  2 * Z.abs (n - z * d) <= d /\ (2 * Z.abs (n - z * d) = d -> Z.even z = true).

Definition clamp (lo hi z : Z) : Z := Z.max lo (Z.min hi z).

(** The ordering of floating-point values, infinities included; NaN is not
    comparable. *)
Definition sf_le (x y : sf) : Prop :=
  match x, y with
  | S754_nan, _ | _, S754_nan => False
  | S754_infinity true, _ => True
  | _, S754_infinity false => True
  | S754_infinity false, _ | _, S754_infinity true => False
  | _, _ => match sf_num x, sf_num y with Some a, Some b => a <= b | _, _ => False end
  end.

(** ** Stored words *)

(** The unsigned little-endian number in the n bytes from byte off of p on. *)
Fixpoint word_at (s : st) (p : ptr) (off : Z) (n : nat) : option Z :=
  match n with
  | O => Some 0
  | S n' =>
      match byte_at s p off, word_at s p (off + 1) n' with
      | Some b, Some r => Some (b + 256 * r)
      | _, _ => None
      end
  end.

(** What a stored element of type ty denotes: an integer, or a float. *)
Definition int_value (ty raw : Z) : option Z :=
  if ty =? 1 then Some raw                                            (* unsigned char *)
  else if ty =? 2 then Some (if raw <? 32768 then raw else raw - 65536)  (* short *)
  else if ty =? 3 then Some (if raw <? 2147483648 then raw else raw - 4294967296) (* int *)
  else if ty =? 12 then Some raw                                      (* unsigned short *)
  else if ty =? 13 then Some raw                                      (* unsigned int *)
  else None.

(** The number denoted by a stored element, times sf_one (None for NaN and the
    infinities). *)
Definition stored_num (ty raw : Z) : option Z :=
  if ty =? 4 then sf_num (fl_of_bits raw)
  else option_map (fun z => z * sf_one) (int_value ty raw).

(** The raw word of the sample at (line i, sample j, band k). *)
Definition sample_word (s : st) (m : hmat) (l : layout) (es i j k : Z) : option Z :=
  word_at s (hm_data m) (offset l (hm_samples m) (hm_lines m) (hm_bands m) i j k * es) (Z.to_nat es).
Definition pixel_word (s : st) (m : smat) (es i j k : Z) : option Z :=
  word_at s (sm_data m) (((i * sm_cols m + j) * sm_chan m + k) * es) (Z.to_nat es).

(** The cube at p' in s' is a fresh cube of element type ty' (size es') with the
    same layout, dimensions and wavelengths as the cube m in s, and each of its
    raw samples is related by R to the raw sample of m at the same position. *)
Definition retyped (s : st) (m : hmat) (l : layout) (es ty' es' : Z) (R : Z -> Z -> Prop)
    (s' : st) (p' : ptr) : Prop :=
  exists m',
    cube s' p' m' l es'
    /\ fresh_in s p' /\ fresh_in s (hm_data m') /\ fresh_in s (hm_wave m')
    /\ hm_samples m' = hm_samples m /\ hm_lines m' = hm_lines m
    /\ hm_bands m' = hm_bands m /\ hm_type m' = ty'
    /\ (forall i j k, in_cube m i j k -> exists x y,
          sample_word s m l es i j k = Some x /\ sample_word s' m' l es' i j k = Some y /\ R x y)
    /\ (forall b, 0 <= b < hm_bands m * 4 ->
          byte_at s' (hm_wave m') b =
          match hm_wave m with None => Some 0 | Some _ => byte_at s (hm_wave m) b end)
    /\ old_unchanged s s' /\ files s' = files s /\ heap_ok s'.

(** The same for a simple matrix. *)
Definition retyped_matrix (s : st) (m : smat) (es ty' es' : Z) (R : Z -> Z -> Prop)
    (s' : st) (p' : ptr) : Prop :=
  exists m',
    image s' p' m' es'
    /\ fresh_in s p' /\ fresh_in s (sm_data m')
    /\ sm_rows m' = sm_rows m /\ sm_cols m' = sm_cols m
    /\ sm_chan m' = sm_chan m /\ sm_type m' = ty'
    /\ (forall i j k, in_image m i j k -> exists x y,
          pixel_word s m es i j k = Some x /\ pixel_word s' m' es' i j k = Some y /\ R x y)
    /\ old_unchanged s s' /\ files s' = files s /\ heap_ok s'.

(** ** Rounding of a stored float *)

(** The float with bit pattern raw is finite and z is the nearest integer. *)
Definition rounds_to (raw z : Z) : Prop :=
  exists n, sf_num (fl_of_bits raw) = Some n /\ nearest_even n sf_one z.

(** The processor's conversion to int: the nearest integer, or INT_MIN when
    there is none among the ints (overflow, infinities, NaN). *)
Definition int_or_indefinite (raw z : Z) : Prop :=
  (rounds_to raw z /\ -2147483648 <= z <= 2147483647)
  \/ (z = -2147483648 /\ forall z', rounds_to raw z' -> ~ -2147483648 <= z' <= 2147483647).

(** A stored word read as a two's complement number of n bytes. *)
Definition signed_word (n raw : Z) : Z :=
  if raw <? 2 ^ (8 * n - 1) then raw else raw - 2 ^ (8 * n).

(** ** Arrays of words *)

(** The raw elements of the n-element array at p. *)
Definition elements (s : st) (p : ptr) (es n : Z) : list (option Z) :=
  map (fun i => word_at s p (Z.of_nat i * es) (Z.to_nat es)) (seq 0 (Z.to_nat n)).

(** The floats of the array at p are in descending order. *)
Definition descending (s : st) (p : ptr) (n : Z) : Prop :=
  forall i j x y, 0 <= i < j -> j < n ->
    word_at s p (i * 4) 4 = Some x -> word_at s p (j * 4) 4 = Some y ->
    sf_le (fl_of_bits y) (fl_of_bits x).
Definition has_nan (l : list (option Z)) : Prop :=
  exists x, In (Some x) l /\ fl_of_bits x = S754_nan.

(** Nothing but bytes lo..hi-1 of p differs between s and s'. *)
Definition only_bytes (s : st) (p : ptr) (lo hi : Z) (s' : st) : Prop :=
  files s' = files s /\ List.length (objs s') = List.length (objs s)
  /\ unchanged_except [p] s s'
  /\ (forall n, readable s p n -> readable s' p n)
  /\ (forall i, ~ lo <= i < hi -> byte_at s' p i = byte_at s p i).

(** n! *)
Fixpoint factorial (n : nat) : Z :=
  match n with O => 1 | S n' => Z.of_nat n * factorial n' end.
