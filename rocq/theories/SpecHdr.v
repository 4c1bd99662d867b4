(** * Specification vocabulary for ENVI headers. *)
From Verif Require Import Base ModelFloat SpecBase SpecNum.
From Coq Require Import Floats.SpecFloat String Ascii.
Open Scope Z_scope.

(** The characters of a string. *)
Fixpoint text (s : string) : list Z :=
  match s with
  | EmptyString => []
  | String c r => Z.of_N (N_of_ascii c) :: text r
  end.

(** ** Decimal numbers *)

Definition digit (c : Z) : Prop := 48 <= c <= 57.

Fixpoint place_value (l : list Z) : Z :=
  match l with
  | [] => 0
  | c :: r => (c - 48) * 10 ^ Z.of_nat (List.length r) + place_value r
  end.

(** l is the number z in decimal, with an optional minus sign. *)
Definition decimal (l : list Z) (z : Z) : Prop :=
  exists ds, ds <> [] /\ Forall digit ds
    /\ ((l = ds /\ z = place_value ds) \/ (l = 45 :: ds /\ z = - place_value ds)).

(** ** Header lines *)

(** What one line of a header says. *)
Inductive hfield :=
| Samples (z : Z) | Lines (z : Z) | Bands (z : Z) | DataType (z : Z)
| Interleave (a b c : Z)
| Unrelated.

(** The two texts differ at some place. *)
Definition differs (a b : list Z) : Prop :=
  exists i x y, nth_error a i = Some x /\ nth_error b i = Some y /\ x <> y.

(** key ... = number ... *)
Definition number_line (key : string) (z : Z) (line : list Z) : Prop :=
  exists more blanks number rest,
    line = text key ++ more ++ [61] ++ blanks ++ number ++ rest ++ [10]
    /\ ~ In 61 more /\ Forall (fun c => c = 32 \/ c = 9) blanks
    /\ decimal number z /\ -2147483648 <= z <= 2147483647
    /\ (forall c r, rest = c :: r -> ~ digit c).

(** The line states the field.  Unrelated lines must not be mistaken for one of
    the fields: the reader compares the text before '=' with the keys, up to the
    length of the shorter one. *)
Definition states (f : hfield) (line : list Z) : Prop :=
  match f with
  | Samples z => number_line "samples" z line
  | Lines z => number_line "lines" z line
  | Bands z => number_line "bands" z line
  | DataType z => number_line "data type" z line
  | Interleave a b c =>
      exists more rest, line = text "interleave" ++ more ++ text "= " ++ [a; b; c] ++ rest ++ [10]
        /\ ~ In 61 more /\ a <> 32 /\ b <> 32 /\ c <> 32
  | Unrelated =>
      exists item rest, line = item ++ rest ++ [10]
        /\ ~ In 61 item /\ (rest = [] \/ exists r, rest = 61 :: r)
        /\ differs item (text "samples") /\ differs item (text "lines") /\ differs item (text "bands")
        /\ differs item (text "data") /\ differs item (text "interleave")
        /\ differs line (text "wavelength = {")
  end.

(** A line: no NUL, a newline at the end and nowhere else, fits the buffer. *)
Definition header_line (line : list Z) : Prop :=
  exists l, line = l ++ [10] /\ ~ In 10 l /\ Forall (fun c => 0 < c < 256) l
    /\ Z.of_nat (List.length line) < 10000.

(** The last statement about something wins. *)
Definition last_stated (get : hfield -> option Z) (l : list hfield) : option Z :=
  fold_left (fun acc f => match get f with Some z => Some z | None => acc end) l None.
Definition get_samples (f : hfield) := match f with Samples z => Some z | _ => None end.
Definition get_lines (f : hfield) := match f with Lines z => Some z | _ => None end.
Definition get_bands (f : hfield) := match f with Bands z => Some z | _ => None end.
Definition get_type (f : hfield) := match f with DataType z => Some z | _ => None end.

Definition is_interleave (f : hfield) : Prop := match f with Interleave _ _ _ => True | _ => False end.

(** ** Wavelength lists *)

Definition blank (c : Z) : Prop := c = 32 \/ c = 9.
Definition word_char (c : Z) : Prop :=
  0 < c < 256 /\ c <> 32 /\ ~ (9 <= c <= 13) /\ c <> 44 /\ c <> 125.

(** A token: a word without blanks, commas, braces or NULs between blanks, short
    enough for the reader's buffer. *)
Record tok := mkTok { t_before : list Z; t_word : list Z; t_after : list Z }.
Definition tok_text (t : tok) : list Z := t_before t ++ t_word t ++ t_after t.
Definition token (t : tok) : Prop :=
  Forall blank (t_before t) /\ Forall word_char (t_word t) /\ t_word t <> []
  /\ Forall blank (t_after t) /\ (List.length (tok_text t) < 20)%nat.

(** The tokens, each followed by a comma. *)
Definition comma_list (l : list tok) : list Z := List.concat (map (fun t => tok_text t ++ [44]) l).

(** The buffer starts with the bytes l. *)
Definition starts_with (s : st) (p : ptr) (l : list Z) : Prop :=
  forall i, (i < List.length l)%nat -> byte_at s p (Z.of_nat i) = Some (nth i l 0).

(** ** Ordinary wavelengths *)

(** Not larger than 10^9. *)
Definition small_float (x : spec_float) : Prop :=
  match x with
  | S754_finite _ m e => if 0 <=? e then Z.pos m * 2 ^ e <= 1000000000 else Z.pos m <= 1000000000 * 2 ^ (- e)
  | _ => True
  end.
(** All the wavelengths are. *)
Definition ordinary_waves (s : st) (wave : ptr) (B : Z) : Prop :=
  forall i w, 0 <= i < B -> word_at s wave (4 * i) 4 = Some w -> small_float (fl_of_bits w).

(** The four bytes of wave[i] are the number of the token, as the library reads it. *)
Definition wave_is (strtod : list Z -> sf) (s : st) (wave : ptr) (i : Z) (t : tok) : Prop :=
  word_at s wave (4 * i) 4 = Some (bits_of_fl (fl_of_db (strtod (t_word t))) mod 4294967296).
