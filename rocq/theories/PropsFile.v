(** * Properties C11 to C17, C69, C70: files. *)
From Verif Require Import Base ModelFloat ModelCore ModelFile SpecBase SpecCore SpecPixel SpecNum SpecFile SpecHdr
  Fixtures Fixtures2 ProofEx ProofEx3 ProofEx6 ProofFile ProofHdr2 ProofSave ProofSave2 ProofSave3 ProofSave4 ProofRaw ProofEx11.
From Coq Require Import Floats.SpecFloat String.
Open Scope Z_scope.

(** C11.  The file may be read in any later state and environment. *)
Theorem C11_save_load : forall can e s p m l es path, cube s p m l es -> heap_ok s -> can path = true -> can (path ++ chars ".hdr") = true ->
  exists s', hmsave can (Some path) p e s = Ret tt s' /\ objs s' = objs s /\ other_files [path; path ++ chars ".hdr"] s s'
    /\ forall e2 s2 r, env_ok e2 -> heap_ok s2 -> file_of s2 path = file_of s' path ->
         exists p' s3, hmread_with_size (Some path) (hm_samples m) (hm_lines m) (hm_bands m) (hm_type m) (tag_of l ++ r) e2 s2 = Ret p' s3
           /\ reloaded s m l es s2 s3 p'.
Proof. exact size_round_trip. Qed.
Print Assumptions C11_save_load.
Example C11_hypotheses : heap_ok st_plain /\ cube st_plain (Some 0%nat) (cube_hdr None) BIL 1 /\ env_ok ex_env.
Proof. split; [apply st_plain_ok|]. split; [apply st_plain_ok|exact ex_env_ok]. Qed.
Example C11_run : match hmsave all_files (Some name1) (Some 0%nat) ex_env st_plain with
  | Ret _ s => match hmread_with_size (Some name1) 2 1 1 1 (tag_of BIL) ex_env s with
               | Ret (Some k) s' => map (byte_at s' (Some (k + 1)%nat)) [0; 1; 2] | _ => [] end | _ => [] end = [Some 200; Some 9; None].
Proof. vm_compute. reflexivity. Qed.

(** C12, cubes without wavelengths: the whole image comes back through its header.  Missing: wavelengths in fresh memory without zeros. *)
Theorem C12_header_partial : forall strtod can e s p m l es path, cube s p m l es -> heap_ok s -> can path = true -> can (path ++ chars ".hdr") = true ->
  hm_wave m = None ->
  exists s', hmsave can (Some path) p e s = Ret tt s' /\ objs s' = objs s /\ other_files [path; path ++ chars ".hdr"] s s'
    /\ forall e2 s2, env_ok e2 -> heap_ok s2 -> file_of s2 path = file_of s' path -> file_of s2 (path ++ chars ".hdr") = file_of s' (path ++ chars ".hdr") ->
         exists p' s3, hmread_with_hdr strtod (Some path) (Some (path ++ chars ".hdr")) e2 s2 = Ret p' s3
           /\ reloaded s m l es s2 s3 p'.
Proof. exact hdr_round_trip. Qed.
Print Assumptions C12_header_partial.
(** With wavelengths up to 10^9 and zeroed memory. *)
Theorem C12_waves_partial : forall strtod can e s p m l es path, cube s p m l es -> heap_ok s -> can path = true -> can (path ++ chars ".hdr") = true ->
  hm_wave m <> None -> hm_bands m * 20 <= 2147483647 -> ordinary_waves s (hm_wave m) (hm_bands m) ->
  exists s', hmsave can (Some path) p e s = Ret tt s' /\ objs s' = objs s /\ other_files [path; path ++ chars ".hdr"] s s'
    /\ forall e2 s2, env_ok e2 -> heap_ok s2 -> (forall k i, e_junk e2 k i = 0) ->
         file_of s2 path = file_of s' path -> file_of s2 (path ++ chars ".hdr") = file_of s' (path ++ chars ".hdr") ->
         exists p' s3, hmread_with_hdr strtod (Some path) (Some (path ++ chars ".hdr")) e2 s2 = Ret p' s3
           /\ reloaded s m l es s2 s3 p'.
Proof. exact hdr_round_trip_waves. Qed.
Print Assumptions C12_waves_partial.
(** With wavelengths, if fresh memory contains no zero byte, the header just written is read out of bounds: the list is never terminated. *)
Theorem C12_refuted : forall strtod can e s p m l es path s', cube s p m l es -> heap_ok s -> can path = true -> can (path ++ chars ".hdr") = true ->
  hm_wave m <> None -> hm_bands m * 20 <= 2147483647 -> ordinary_waves s (hm_wave m) (hm_bands m) ->
  hmsave can (Some path) p e s = Ret tt s' ->
  forall e2 s2, env_ok e2 -> heap_ok s2 -> (forall k i, e_junk e2 k i mod 256 <> 0) ->
    file_of s2 path = file_of s' path -> file_of s2 (path ++ chars ".hdr") = file_of s' (path ++ chars ".hdr") ->
    hmread_with_hdr strtod (Some path) (Some (path ++ chars ".hdr")) e2 s2 = UB.
Proof. exact hdr_round_trip_refuted. Qed.
Print Assumptions C12_refuted.
Example C12_hypotheses : heap_ok st_plain /\ cube st_plain (Some 0%nat) (cube_hdr None) BIL 1.
Proof. exact st_plain_ok. Qed.
Example C12_waves_hypotheses : heap_ok st_waves /\ cube st_waves (Some 0%nat) (cube_hdr (Some 2%nat)) BIL 1 /\ ordinary_waves st_waves (Some 2%nat) 1.
Proof. exact st_waves_ok. Qed.
Example C12_environments : env_ok env0 /\ (forall k i, e_junk env0 k i = 0) /\ env_ok env1 /\ (forall k i, e_junk env1 k i mod 256 <> 0).
Proof. exact env01_ok. Qed.
Example C12_text : match hmsave all_files (Some name1) (Some 0%nat) ex_env st_waves with
  | Ret _ s => file_of s (name1 ++ text ".hdr") | _ => None end
  = Some (text "ENVI" ++ [10] ++ text "samples = 2" ++ [10] ++ text "lines = 1" ++ [10] ++ text "bands = 1" ++ [10] ++ text "data type = 1" ++ [10]
          ++ text "interleave = bil" ++ [10] ++ text "wavelength = { " ++ [10] ++ text "650.000000}").
Proof. vm_compute. reflexivity. Qed.

(** C13.  Headers whose other lines cannot be mistaken for a field: each field has the value stated last.  Missing: "data ...", and no blank before the tag. *)
Theorem C13_header_partial : forall strtod e s q n0 fs1 a b c fs2 lines1 line lines2,   Forall2 states fs1 lines1 -> states (Interleave a b c) line -> Forall2 states fs2 lines2 ->
  Forall header_line (lines1 ++ line :: lines2) ->
  Forall (fun f => ~ is_interleave f) fs1 -> Forall (fun f => ~ is_interleave f) fs2 ->
  readable s (Some q) n0 -> 3 <= n0 ->
  exists h s', readhdr strtod (List.concat (lines1 ++ line :: lines2)) (Some q) e s = Ret h s'
    /\ h_samples h = last_stated get_samples (fs1 ++ fs2)
    /\ h_lines h = last_stated get_lines (fs1 ++ fs2)
    /\ h_bands h = last_stated get_bands (fs1 ++ fs2)
    /\ h_type h = last_stated get_type (fs1 ++ fs2)
    /\ h_wave h = None
    /\ byte_at s' (Some q) 0 = Some a /\ byte_at s' (Some q) 1 = Some b /\ byte_at s' (Some q) 2 = Some c
    /\ unchanged_except [Some q] s s'
    /\ (forall x, 3 <= x -> byte_at s' (Some q) x = byte_at s (Some q) x)
    /\ files s' = files s.
Proof. exact readhdr_fields. Qed.
Print Assumptions C13_header_partial.
(** A data ignore value is taken for the data type ... *)
Theorem C13_data_refuted : forall strtod e s q n0 fs1 a b c fs2 lines1 line lines2 z ign,   Forall2 states fs1 lines1 -> states (Interleave a b c) line -> Forall2 states fs2 lines2 ->
  number_line "data ignore value" z ign ->
  Forall header_line (lines1 ++ line :: lines2) -> header_line ign ->
  Forall (fun f => ~ is_interleave f) fs1 -> Forall (fun f => ~ is_interleave f) fs2 ->
  readable s (Some q) n0 -> 3 <= n0 ->
  exists h s', readhdr strtod (List.concat (lines1 ++ line :: lines2) ++ ign) (Some q) e s = Ret h s' /\ h_type h = Some z.
Proof. exact data_ignore. Qed.
Print Assumptions C13_data_refuted.
(** ... and without a blank before the tag the newline is written behind the tag buffer. *)
Theorem C13_blank_refuted : forall strtod e s q d fs1 a b c lines1 more rest,   Forall2 states fs1 lines1 -> Forall header_line lines1 -> Forall (fun f => ~ is_interleave f) fs1 ->
  header_line (text "interleave" ++ more ++ [61; a; b; c; 10]) -> ~ In 61 more ->
  a <> 32 -> b <> 32 -> c <> 32 -> bytes_at s (Some q) = Some (q, 3, d) ->
  readhdr strtod (List.concat lines1 ++ (text "interleave" ++ more ++ [61; a; b; c; 10]) ++ rest) (Some q) e s = UB.
Proof. exact no_blank. Qed.
Print Assumptions C13_blank_refuted.
Example C13_hypotheses : Forall2 states fields_a lines_a /\ Forall (fun f => ~ is_interleave f) fields_a /\ Forall header_line lines_a
  /\ states (Interleave 98 105 108) line_b /\ header_line line_b /\ states Unrelated line_c /\ header_line line_c
  /\ number_line "data ignore value" 0 line_ign /\ header_line line_ign.
Proof. exact fields_a_ok. Qed.
Example C13_blank_hypotheses : header_line (text "interleave" ++ [] ++ [61; 98; 105; 108; 10]) /\ bytes_at st_tag (Some 0%nat) = Some (0%nat, 3, fun _ => 7).
Proof.
  split; [|reflexivity]. exists (text "interleave=bil"). split; [reflexivity|]. split; [cbn; intuition discriminate|]. split; [|reflexivity].
  repeat constructor.
Qed.

(** C14.  Lists closed by a brace, or by a comma after the last band.  Missing: the brace-free list of the property ... *)
Theorem C14_closed_partial : forall strtod e s qw qv bands l tk c, heap_ok s -> Forall token (l ++ [tk]) -> qw <> qv ->
  Z.of_nat (List.length (l ++ [tk])) <= bands -> readable s (Some qv) (4 * Z.of_nat (List.length (l ++ [tk]))) ->
  c = 125 \/ (c = 44 /\ Z.of_nat (List.length (l ++ [tk])) = bands) ->
  starts_with s (Some qw) (comma_list l ++ tok_text tk ++ [c]) ->
  (exists z, Z.of_nat (List.length (comma_list l ++ tok_text tk ++ [c])) <= z /\ byte_at s (Some qw) z = Some 0) ->
  exists s', read_wavelength strtod (Some qw) (Some qv) bands e s = Ret tt s'
    /\ (forall i t, nth_error (l ++ [tk]) i = Some t -> wave_is strtod s' (Some qv) (Z.of_nat i) t)
    /\ (forall j, 4 * Z.of_nat (List.length (l ++ [tk])) <= j -> byte_at s' (Some qv) j = byte_at s (Some qv) j)
    /\ unchanged_except [Some qv] s s' /\ files s' = files s.
Proof. exact wave_list_closed. Qed.
Print Assumptions C14_closed_partial.
(** ... of which the last value is never stored. *)
Theorem C14_open_refuted : forall strtod e s qw qv bands l tk, heap_ok s -> Forall token (l ++ [tk]) -> qw <> qv ->
  Z.of_nat (List.length (l ++ [tk])) <= bands -> readable s (Some qv) (4 * Z.of_nat (List.length (l ++ [tk]))) ->
  starts_with s (Some qw) (comma_list l ++ tok_text tk ++ [0]) ->
  exists s', read_wavelength strtod (Some qw) (Some qv) bands e s = Ret tt s'
    /\ (forall i t, nth_error l i = Some t -> wave_is strtod s' (Some qv) (Z.of_nat i) t)
    /\ word_at s' (Some qv) (4 * Z.of_nat (List.length l)) 4 = word_at s (Some qv) (4 * Z.of_nat (List.length l)) 4
    /\ unchanged_except [Some qv] s s' /\ files s' = files s.
Proof. exact wave_list_open. Qed.
Print Assumptions C14_open_refuted.
Example C14_hypotheses : Forall token ([tok_a] ++ [tok_b])
  /\ (heap_ok (st_list 125) /\ readable (st_list 125) (Some 1%nat) 8 /\ byte_at (st_list 125) (Some 0%nat) 20 = Some 0)
  /\ starts_with (st_list 125) (Some 0%nat) (comma_list [tok_a] ++ tok_text tok_b ++ [125])
  /\ heap_ok (st_list 0) /\ readable (st_list 0) (Some 1%nat) 8 /\ starts_with (st_list 0) (Some 0%nat) (comma_list [tok_a] ++ tok_text tok_b ++ [0]).
Proof.
  split; [exact toks_ok2|]. split; [apply st_list_ok|]. split; [apply st_list_starts; split; [discriminate|reflexivity]|].
  split; [apply st_list_ok|]. split; [apply st_list_ok|]. apply st_list_starts. split; [discriminate|reflexivity].
Qed.

(** C15.  The file may be read in any later state and environment. *)
Theorem C15_round_trip : forall e s p m name can, heap_ok s -> image s p m 1 -> sm_chan m = 3 ->
  bmp_small (sm_rows m) (sm_cols m) -> can name = true ->
  exists s', smwrite_bmp can (Some name) p e s = Ret tt s'
    /\ forall e2 s2, env_ok e2 -> heap_ok s2 -> file_of s2 name = file_of s' name ->
         exists p' s3, smread_bmp (Some name) e2 s2 = Ret p' s3
           /\ new_picture s2 (sm_rows m) (sm_cols m) 3 (pix s m) s3 p'.
Proof. exact bmp_round_trip. Qed.
Print Assumptions C15_round_trip.
(** C16.  What happens to the pixels of a colour picture: rows upside down, channels exchanged, except in the middle row ... *)
Theorem C16_effect : forall e s p m name can, heap_ok s -> image s p m 1 -> sm_chan m = 3 ->
  bmp_small (sm_rows m) (sm_cols m) -> can name = true ->
  exists s', smwrite_bmp can (Some name) p e s = Ret tt s' /\ image s' p m 1
    /\ unchanged_except [sm_data m] s s'
    /\ forall i j k, in_image m i j k ->
         pix s' m i j k = if 2 * i + 1 =? sm_rows m then pix s m i j k else pix s m (sm_rows m - 1 - i) j (2 - k).
Proof. exact write_effect. Qed.
Print Assumptions C16_effect.
(** ... so that only a picture of one row stays as it was.  Missing: all others. *)
Theorem C16_one_row_partial : forall e s p m name can, heap_ok s -> image s p m 1 -> sm_chan m = 3 -> sm_rows m = 1 ->
  bmp_small (sm_rows m) (sm_cols m) -> can name = true ->
  exists s', smwrite_bmp can (Some name) p e s = Ret tt s' /\ image s' p m 1
    /\ (forall x, byte_at s' (sm_data m) x = byte_at s (sm_data m) x)
    /\ unchanged_except [sm_data m] s s'.
Proof. exact write_one_row. Qed.
Print Assumptions C16_one_row_partial.
(** Grey pictures stay as they were (and C17 for them). *)
Theorem C16_grey_partial : forall e s p m name can, env_ok e -> heap_ok s -> image s p m 1 -> sm_chan m = 1 ->
  bmp_small (sm_rows m) (sm_cols m) -> can name = true ->
  exists s' f, smwrite_bmp can (Some name) p e s = Ret tt s' /\ file_of s' name = Some f
    /\ other_files [name] s s' /\ old_unchanged s s'
    /\ bmp_header f (sm_rows m) (sm_cols m)
    /\ forall i, 0 <= i < sm_rows m -> bmp_shows f (sm_rows m) (sm_cols m) (fun i j _ => pix s m i j 0) i.
Proof. exact write_shows_gray. Qed.
Print Assumptions C16_grey_partial.
Theorem C16_refuted : exists e s p m name can s' i j k, heap_ok s /\ image s p m 1 /\ in_image m i j k
  /\ smwrite_bmp can (Some name) p e s = Ret tt s' /\ pix s' m i j k <> pix s m i j k.
Proof. exact write_changes. Qed.
Print Assumptions C16_refuted.
(** C17.  Header, and every row but the middle one.  Missing: the middle row of an odd number of rows ... *)
Theorem C17_rows_partial : forall e s p m name can, heap_ok s -> image s p m 1 -> sm_chan m = 3 ->
  bmp_small (sm_rows m) (sm_cols m) -> can name = true ->
  exists s' f, smwrite_bmp can (Some name) p e s = Ret tt s' /\ file_of s' name = Some f
    /\ other_files [name] s s'
    /\ bmp_header f (sm_rows m) (sm_cols m)
    /\ forall i, 0 <= i < sm_rows m -> 2 * i + 1 <> sm_rows m -> bmp_shows f (sm_rows m) (sm_cols m) (pix s m) i.
Proof. exact write_shows. Qed.
Print Assumptions C17_rows_partial.
(** ... which is written red first. *)
Theorem C17_middle : forall e s p m name can, heap_ok s -> image s p m 1 -> sm_chan m = 3 ->
  bmp_small (sm_rows m) (sm_cols m) -> can name = true ->
  exists s' f, smwrite_bmp can (Some name) p e s = Ret tt s' /\ file_of s' name = Some f
    /\ forall i j c, 0 <= i < sm_rows m -> 2 * i + 1 = sm_rows m -> 0 <= j < sm_cols m -> 0 <= c < 3 ->
         bmp_pixel f (sm_rows m) (sm_cols m) i j c = pix s m i j c.
Proof. exact write_middle. Qed.
Print Assumptions C17_middle.
Theorem C17_refuted : exists e s p m name can s' f, heap_ok s /\ image s p m 1 /\ sm_chan m = 3 /\ bmp_small (sm_rows m) (sm_cols m)
  /\ smwrite_bmp can (Some name) p e s = Ret tt s' /\ file_of s' name = Some f
  /\ ~ bmp_shows f (sm_rows m) (sm_cols m) (pix s m) 0.
Proof. exact write_middle_wrong. Qed.
Print Assumptions C17_refuted.
Example C15_C16_C17_hypotheses : heap_ok st_two /\ image st_two (Some 0%nat) (im_hdr 0 2 1 1 3 1) 1 /\ bmp_small 2 1.
Proof. exact st_two_ok. Qed.
Example C16_one_row_hypotheses : heap_ok st_dot /\ image st_dot (Some 0%nat) (im_hdr 0 1 1 1 3 1) 1 /\ bmp_small 1 1.
Proof. exact st_dot_ok. Qed.
Example C16_grey_hypotheses : heap_ok st_grey2 /\ image st_grey2 (Some 0%nat) (im_hdr 0 2 1 1 1 1) 1 /\ bmp_small 2 1.
Proof. exact st_grey2_ok. Qed.

(** C69.  Any file of the format: the middle row of an odd number of rows comes back blue first, the others red first. *)
Theorem C69_exact : forall e s path f R C, env_ok e -> heap_ok s -> file_of s path = Some f ->
  bmp_header f R C -> 0 < R -> 0 < C -> bmp_small R C -> (forall x, In x f -> 0 <= x < 256) ->
  exists p' s', smread_bmp (Some path) e s = Ret p' s'
    /\ new_picture s R C 3 (fun i j k => if 2 * i + 1 =? R then bmp_pixel f R C i j k else bmp_pixel f R C i j (2 - k)) s' p'.
Proof. exact bmp_read_standard. Qed.
Print Assumptions C69_exact.
Theorem C69_refuted : exists e s path f R C p' s', env_ok e /\ heap_ok s /\ file_of s path = Some f /\ bmp_header f R C
  /\ smread_bmp (Some path) e s = Ret p' s'
  /\ ~ new_picture s R C 3 (fun i j k => bmp_pixel f R C i j (2 - k)) s' p'.
Proof. exact read_middle_wrong. Qed.
Print Assumptions C69_refuted.
Example C69_hypotheses : exists s f, file_of s name1 = Some f /\ bmp_header f 2 1 /\ bmp_small 2 1.
Proof.
  destruct st_two_ok as (A & B & C).
  destruct (write_shows ex_env st_two (Some 0%nat) _ name1 all_files A B eq_refl C eq_refl) as (s & f & _ & H & _ & H2 & _).
  exists s, f. split; [exact H|]. split; [exact H2|exact C].
Qed.

(** C70.  One channel: the bytes of the file ... *)
Theorem C70_single : forall e s path f R C ty es, env_ok e -> heap_ok s -> file_of s path = Some f -> type_size ty = Some es ->
  0 < R -> 0 < C -> R * C * es + 96 <= 2147483647 -> R * C * es <= Z.of_nat (List.length f) -> (forall x, In x f -> 0 <= x < 256) ->
  exists p' s' m', smread (Some path) R C ty 1 e s = Ret p' s' /\ image s' p' m' es
    /\ sm_rows m' = R /\ sm_cols m' = C /\ sm_type m' = ty /\ sm_chan m' = 1
    /\ (forall i j t, 0 <= i < R -> 0 <= j < C -> 0 <= t < es -> pixel_byte s' m' es i j 0 t = nth_error f (Z.to_nat ((i * C + j) * es + t)))
    /\ fresh_in s p' /\ fresh_in s (sm_data m') /\ old_unchanged s s' /\ files s' = files s /\ heap_ok s'.
Proof. exact smread_single. Qed.
Print Assumptions C70_single.
(** ... more channels: the last pixel is outside the buffer. *)
Theorem C70_channels_refuted : forall e s path f R C ty ch es, env_ok e -> heap_ok s -> file_of s path = Some f -> type_size ty = Some es ->
  0 < R -> 0 < C -> 1 < ch -> R * C * es <= 2147483647 -> R * C * es * ch <= Z.of_nat (List.length f) -> (forall x, In x f -> 0 <= x < 256) ->
  exists p' s' m', smread (Some path) R C ty ch e s = Ret p' s' /\ sm_at s' p' = Some m'
    /\ sm_rows m' = R /\ sm_cols m' = C /\ sm_chan m' = ch
    /\ ~ readable s' (sm_data m') (R * C * es * ch)
    /\ (forall t, 0 <= t < es -> pixel_byte s' m' es (R - 1) (C - 1) (ch - 1) t = None).
Proof. exact smread_channels. Qed.
Print Assumptions C70_channels_refuted.
Example C70_hypotheses : heap_ok st_raw /\ file_of st_raw name1 = Some [200; 9] /\ (forall x, In x [200; 9] -> 0 <= x < 256).
Proof. exact st_raw_ok. Qed.
Example C70_run : match smread (Some name1) 1 2 1 1 ex_env st_raw with
  | Ret (Some k) s' => match sm_at s' (Some k) with Some m => map (fun j => pix s' m 0 j 0) [0; 1] | None => [] end | _ => [] end = [Some 200; Some 9].
Proof. vm_compute. reflexivity. Qed.
