(** * Specifications: borders, thresholds, mirroring, colours (no modelled code). *)
From Verif Require Import Base SpecBase SpecImage SpecImage2.
Open Scope Z_scope.

(** ** Borders *)

(** How an image of length len is continued beyond its ends. *)
Inductive extension := Replicate | Reflect | Reflect101 | Wrap.

(** Mode numbers of the library. *)
Definition mode_of (x : extension) : Z :=
  match x with Replicate => 1 | Reflect => 2 | Wrap => 3 | Reflect101 => 4 end.

(** The index whose value stands at position p.  A line 0 1 .. len-1 is
    repeated as it is (Wrap), forwards and backwards with the end elements
    doubled (Reflect: period 2 len) or not (Reflect101: period 2 len - 2), or
    held constant beyond the ends (Replicate). *)
Definition source_index (x : extension) (len p : Z) : Z :=
  match x with
  | Replicate => Z.max 0 (Z.min p (len - 1))
  | Wrap => p mod len
  | Reflect => let q := p mod (2 * len) in if q <? len then q else 2 * len - 1 - q
  | Reflect101 =>
      if len =? 1 then 0
      else let q := p mod (2 * len - 2) in if q <? len then q else 2 * len - 2 - q
  end.

(** Positions for which the 32-bit arithmetic does not overflow. *)
Definition computable (x : extension) (len p : Z) : Prop :=
  match x with
  | Replicate => INT_MIN <= p <= INT_MAX
  | Reflect | Reflect101 => INT_MIN < p <= INT_MAX
  | Wrap => INT_MIN + len <= p <= INT_MAX
  end.

(** The image at p' is m enlarged by the given margins; src gives the source
    position of a destination position, or None for a position outside the
    image that gets the value v. *)
Definition padded (s : st) (m : smat) (top bottom left right v : Z)
    (src : Z -> Z -> option (Z * Z)) (s' : st) (p' : ptr) : Prop :=
  exists m',
    image s' p' m' 1
    /\ sm_rows m' = sm_rows m + top + bottom /\ sm_cols m' = sm_cols m + left + right
    /\ sm_type m' = sm_type m /\ sm_chan m' = sm_chan m
    /\ (forall i j k, in_image m' i j k ->
          pix s' m' i j k =
          match src i j with Some (i', j') => pix s m i' j' k | None => Some v end)
    /\ fresh_in s p' /\ fresh_in s (sm_data m')
    /\ old_unchanged s s' /\ files s' = files s /\ heap_ok s'.

(** Source positions for an extension, and for a constant border. *)
Definition extended (x : extension) (m : smat) (top left i j : Z) : option (Z * Z) :=
  Some (source_index x (sm_rows m) (i - top), source_index x (sm_cols m) (j - left)).
Definition framed (m : smat) (top left i j : Z) : option (Z * Z) :=
  if (top <=? i) && (i <? top + sm_rows m) && (left <=? j) && (j <? left + sm_cols m)
  then Some (i - top, j - left) else None.

(** ** Thresholds: the pixel functions (values are stored modulo 256). *)
Definition thresh_fun (type thresh maxv x : Z) : option Z :=
  if type =? 0 then Some (if x >? thresh then maxv else 0)            (* binary *)
  else if type =? 1 then Some (if x >? thresh then 0 else maxv)       (* inverted binary *)
  else if type =? 2 then Some (if x >? thresh then thresh else x)     (* truncate *)
  else if type =? 3 then Some (if x >? thresh then x else 0)          (* to zero *)
  else if type =? 4 then Some (if x >? thresh then 0 else x)          (* to zero, inverted *)
  else None.

(** Every pixel of md is g of the pixel of ms at the same place, and only the
    pixels of md have changed. *)
Definition mapped (s : st) (ms md : smat) (g : Z -> Z) (s' : st) : Prop :=
  (forall i j k, in_image md i j k ->
     exists x, pix s ms i j k = Some x /\ pix s' md i j k = Some (g x))
  /\ (forall x, ~ 0 <= x < sm_rows md * sm_cols md * sm_chan md ->
        byte_at s' (sm_data md) x = byte_at s (sm_data md) x)
  /\ only_written (sm_data md) s s'.

(** ** Mirroring *)
Definition mirrored (fi fj : Z -> Z) (s : st) (ms : smat) (s' : st) (md : smat) : Prop :=
  forall i j k, in_image ms i j k -> pix s' md i j k = pix s ms (fi i) (fj j) k.

(** ** Colours *)

(** A fresh 8-bit image of the given size and channels whose pixel (i,j,k) has
    the value v i j k. *)
Definition new_picture (s : st) (R C ch : Z) (v : Z -> Z -> Z -> option Z) (s' : st) (p' : ptr) : Prop :=
  exists m',
    image s' p' m' 1
    /\ sm_rows m' = R /\ sm_cols m' = C /\ sm_type m' = 1 /\ sm_chan m' = ch
    /\ (forall i j k, in_image m' i j k -> pix s' m' i j k = v i j k)
    /\ fresh_in s p' /\ fresh_in s (sm_data m')
    /\ old_unchanged s s' /\ files s' = files s /\ heap_ok s'.

(** md is ms with the first and third channel exchanged. *)
Definition channels_swapped (s : st) (ms : smat) (s' : st) (md : smat) : Prop :=
  forall i j k, in_image ms i j k -> pix s' md i j k = pix s ms i j (2 - k).

(** The integer nearest to n/d (halves upwards). *)
Definition nearest (n d : Z) : Z := (2 * n + d) / (2 * d).

(** The direction codes of mirroring: 0 up-down, -1 both ways, otherwise left-right. *)
Definition flip_row (code R i : Z) : Z := if (code =? 0) || (code =? -1) then R - 1 - i else i.
Definition flip_col (code C j : Z) : Z := if code =? 0 then j else C - 1 - j.

(** md has received the mirror image of ms; nothing else has changed, and
    anything allocated meanwhile has been released. *)
Definition flipped (code : Z) (s : st) (ms md : smat) (s' : st) : Prop :=
  mirrored (flip_row code (sm_rows ms)) (flip_col code (sm_cols ms)) s ms s' md
  /\ (forall x, ~ 0 <= x < sm_rows md * sm_cols md * sm_chan md ->
        byte_at s' (sm_data md) x = byte_at s (sm_data md) x)
  /\ unchanged_except [sm_data md] s s' /\ files s' = files s
  /\ (forall i o, (List.length (objs s) <= i)%nat -> nth_error (objs s') i = Some o -> o_live o = false).
