(** * Specifications for creation, copying and deletion (no modelled code). *)
From Verif Require Import Base SpecBase.
Open Scope Z_scope.

(** The memory block behind a pointer. *)
Definition block (s : st) (p : ptr) : option obj :=
  match p with Some k => nth_error (objs s) k | None => None end.

(** What the caller asked to be the initial contents at byte i. *)
Definition initial (s : st) (init : ptr) (i : Z) : option Z :=
  match init with None => Some 0 | Some _ => byte_at s init i end.

(** A freshly created cube: fields as requested; one allocation containing, in
    this order and without overlap, the header (40 bytes), the sample area and
    the wavelength area, both 64-byte aligned and of exactly the right size;
    contents as requested; nothing else changed. *)
Definition fresh_cube (s : st) (S L B ty es : Z) (tag : list Z) (data wave : ptr)
    (p : ptr) (s' : st) : Prop :=
  exists m h d w,
    hm_at s' p = Some m
    /\ hm_samples m = S /\ hm_lines m = L /\ hm_bands m = B /\ hm_type m = ty
    /\ hm_il m = firstn 3 tag
    /\ block s' p = Some h /\ block s' (hm_data m) = Some d /\ block s' (hm_wave m) = Some w
    /\ o_live h = true /\ o_live d = true /\ o_live w = true
    /\ p = Some (o_root h) /\ o_root d = o_root h /\ o_root w = o_root h
    /\ o_size d = S * L * B * es /\ o_size w = B * 4
    /\ o_addr d mod 64 = 0 /\ o_addr w mod 64 = 0
    /\ o_addr h + 40 <= o_addr d
    /\ o_addr d + o_size d <= o_addr w
    /\ o_addr w + o_size w <= o_addr h + o_size h
    /\ (forall i, 0 <= i < S * L * B * es -> byte_at s' (hm_data m) i = initial s data i)
    /\ (forall i, 0 <= i < B * 4 -> byte_at s' (hm_wave m) i = initial s wave i)
    /\ old_unchanged s s' /\ fresh_in s p /\ files s' = files s /\ heap_ok s'.

(** A freshly created simple matrix with its own data area. *)
Definition fresh_matrix (s : st) (rows cols ty es chan : Z) (p : ptr) (s' : st) : Prop :=
  exists m h d,
    sm_at s' p = Some m
    /\ sm_rows m = rows /\ sm_cols m = cols /\ sm_type m = ty /\ sm_chan m = chan /\ sm_esize m = es
    /\ block s' p = Some h /\ block s' (sm_data m) = Some d
    /\ o_live h = true /\ o_live d = true
    /\ p = Some (o_root h) /\ o_root d = o_root h
    /\ o_size d = rows * cols * es * chan
    /\ o_addr d mod 64 = 0
    /\ o_addr h + 32 <= o_addr d < o_addr h + 32 + 64
    /\ o_addr d + o_size d <= o_addr h + o_size h
    /\ old_unchanged s s' /\ fresh_in s p /\ files s' = files s /\ heap_ok s'.

Definition all_zero (s : st) (p : ptr) (n : Z) : Prop :=
  forall i, 0 <= i < n -> byte_at s p i = Some 0.

(** The matrix at p owns its data: header and data lie in one allocation, the
    data at the first 64-byte boundary after the 32-byte header (the layout
    [fresh_matrix] describes). *)
Definition owns_data (s : st) (p : ptr) (m : smat) : Prop :=
  exists h d,
    sm_at s p = Some m /\ block s p = Some h /\ block s (sm_data m) = Some d
    /\ p = Some (o_root h) /\ o_live h = true /\ o_root d = o_root h
    /\ o_addr d mod 64 = 0 /\ o_addr h + 32 <= o_addr d < o_addr h + 32 + 64.

(** The matrix at p wraps an array that is an allocation of its own. *)
Definition wraps_data (s : st) (p : ptr) (m : smat) : Prop :=
  exists h d,
    sm_at s p = Some m /\ block s p = Some h /\ block s (sm_data m) = Some d
    /\ p = Some (o_root h) /\ o_live h = true
    /\ sm_data m = Some (o_root d) /\ o_live d = true /\ o_root d <> o_root h.

Definition ptr_eq_dec : forall a b : ptr, {a = b} + {a <> b}.
Proof. decide equality. apply Nat.eq_dec. Defined.

(** Exactly the allocations ks were released between s and s' (everything in
    them is dead), all other objects are as before. *)
Definition released (ks : list ptr) (s s' : st) : Prop :=
  List.length (objs s') = List.length (objs s) /\ files s' = files s /\
  forall i o, nth_error (objs s) i = Some o ->
    if in_dec ptr_eq_dec (Some (o_root o)) ks
    then exists o', nth_error (objs s') i = Some o' /\ o_live o' = false
    else nth_error (objs s') i = Some o.

(** A copy of the image m (in s) exists at p' in s', independent of it. *)
Definition copied_matrix (s : st) (m : smat) (es : Z) (p' : ptr) (s' : st) : Prop :=
  exists m',
    image s' p' m' es
    /\ sm_rows m' = sm_rows m /\ sm_cols m' = sm_cols m
    /\ sm_type m' = sm_type m /\ sm_chan m' = sm_chan m
    /\ (forall i j k t, in_image m i j k -> 0 <= t < es ->
          pixel_byte s' m' es i j k t = pixel_byte s m es i j k t)
    /\ fresh_in s p' /\ fresh_in s (sm_data m')
    /\ old_unchanged s s' /\ files s' = files s /\ heap_ok s'.
