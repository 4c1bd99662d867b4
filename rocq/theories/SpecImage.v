(** * Specifications for the image-processing functions (no modelled code). *)
From Verif Require Import Base SpecBase.
Open Scope Z_scope.

(** The cube at p' in s' is a fresh cube in layout l' holding the same samples
    and wavelengths as the cube m (layout l, in s); nothing that existed before
    was changed, no file was touched. *)
Definition converted_to (s : st) (m : hmat) (l : layout) (es : Z)
    (s' : st) (p' : ptr) (l' : layout) : Prop :=
  exists m',
    cube s' p' m' l' es
    /\ fresh_in s p' /\ fresh_in s (hm_data m') /\ fresh_in s (hm_wave m')
    /\ hm_samples m' = hm_samples m /\ hm_lines m' = hm_lines m
    /\ hm_bands m' = hm_bands m /\ hm_type m' = hm_type m
    /\ (forall i j k t, in_cube m i j k -> 0 <= t < es ->
          sample_byte s' m' l' es i j k t = sample_byte s m l es i j k t)
    /\ (forall b, 0 <= b < hm_bands m * 4 ->
          byte_at s' (hm_wave m') b =
          match hm_wave m with None => Some 0 | Some _ => byte_at s (hm_wave m) b end)
    /\ old_unchanged s s' /\ files s' = files s /\ heap_ok s'.

(** The cube at p (header m, layout l in s) has been rearranged in place into
    layout l': same header apart from the tag, every sample kept, wavelengths
    kept; only the cube itself was written, temporaries are gone. *)
Definition rearranged (s : st) (p : ptr) (m : hmat) (l : layout) (es : Z) (s' : st) (l' : layout) : Prop :=
  exists m',
    cube s' p m' l' es
    /\ hm_samples m' = hm_samples m /\ hm_lines m' = hm_lines m
    /\ hm_bands m' = hm_bands m /\ hm_type m' = hm_type m
    /\ hm_data m' = hm_data m /\ hm_wave m' = hm_wave m
    /\ (forall i j k t, in_cube m i j k -> 0 <= t < es ->
          sample_byte s' m' l' es i j k t = sample_byte s m l es i j k t)
    /\ (forall b, 0 <= b < hm_bands m * 4 -> byte_at s' (hm_wave m) b = byte_at s (hm_wave m) b)
    /\ unchanged_except [p; hm_data m; hm_wave m] s s'
    /\ (forall i o, (List.length (objs s) <= i)%nat -> nth_error (objs s') i = Some o -> o_live o = false)
    /\ files s' = files s /\ heap_ok s'.

(** Following a path of layouts by successive conversions. *)
Fixpoint is_path (l : layout) (ls : list layout) : Prop :=
  match ls with [] => True | l' :: r => l <> l' /\ is_path l' r end.

(** Same heap blocks: no allocation, no release, nothing moved. *)
Definition block_of (o : obj) : Z * Z * nat * bool := (o_addr o, o_size o, o_root o, o_live o).
Definition same_blocks (s s' : st) : Prop :=
  map block_of (objs s') = map block_of (objs s) /\ files s' = files s.

(** The cube with header m has been copied into the cube m' at q. *)
Definition copied_into (s : st) (m : hmat) (q : ptr) (m' : hmat) (es : Z) (s' : st) : Prop :=
  hm_at s' q = Some (mkHM (hm_samples m') (hm_lines m') (hm_bands m') (hm_type m')
                          (hm_il m) (hm_pad m') (hm_data m') (hm_wave m'))
  /\ (forall x, byte_at s' (hm_data m') x =
        if (0 <=? x) && (x <? hm_samples m * hm_lines m * hm_bands m * es)
        then byte_at s (hm_data m) x else byte_at s (hm_data m') x)
  /\ (hm_wave m <> None -> forall b, byte_at s' (hm_wave m') b =
        if (0 <=? b) && (b <? hm_bands m * 4)
        then byte_at s (hm_wave m) b else byte_at s (hm_wave m') b)
  /\ unchanged_except (q :: hm_data m' :: match hm_wave m with None => [] | Some _ => [hm_wave m'] end) s s'
  /\ same_blocks s s'.

(** The arrays of the two cubes are separate. *)
Definition separate (m m' : hmat) : Prop :=
  hm_data m <> hm_data m'
  /\ (hm_wave m <> None ->
      hm_wave m' <> None /\ hm_wave m <> hm_wave m' /\ hm_data m' <> hm_wave m
      /\ hm_data m <> hm_wave m' /\ hm_data m' <> hm_wave m').

(** The cube at p' is the sub-cube [r0,r1) x [c0,c1) x [b0,b1) (lines, samples,
    bands) of the cube m, in the same layout, freshly allocated. *)
Definition sub_cube (s : st) (m : hmat) (l : layout) (es r0 c0 b0 r1 c1 b1 : Z)
    (s' : st) (p' : ptr) : Prop :=
  exists m',
    cube s' p' m' l es
    /\ fresh_in s p' /\ fresh_in s (hm_data m') /\ fresh_in s (hm_wave m')
    /\ hm_samples m' = c1 - c0 /\ hm_lines m' = r1 - r0
    /\ hm_bands m' = b1 - b0 /\ hm_type m' = hm_type m
    /\ (forall i j k t, in_cube m' i j k -> 0 <= t < es ->
          sample_byte s' m' l es i j k t = sample_byte s m l es (i + r0) (j + c0) (k + b0) t)
    /\ (forall b, 0 <= b < (b1 - b0) * 4 ->
          byte_at s' (hm_wave m') b =
          match hm_wave m with None => Some 0 | Some _ => byte_at s (hm_wave m) (b0 * 4 + b) end)
    /\ old_unchanged s s' /\ files s' = files s /\ heap_ok s'.
