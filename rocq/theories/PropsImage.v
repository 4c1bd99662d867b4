(** * Properties C18-C23, C61, C62, C64, C65: sub-cubes, bands, transposition,
    addition, splicing, element sizes, tags, reshaping, structuring elements. *)
From Verif Require Import Base ModelCore ModelImage SpecBase SpecCore SpecImage SpecImage2 Fixtures Fixtures2 ProofEx.
From Verif Require Import ProofImage2 ProofRange ProofImage3 ProofImage4 ProofEx2.
From Coq Require Import String.
Open Scope Z_scope.

(** C18: sub-cube extraction. *)
Theorem C18_get_range : forall e s p m l es r0 c0 b0 r1 c1 b1,
  env_ok e -> heap_ok s -> cube s p m l es ->
  0 <= r0 < r1 -> r1 <= hm_lines m -> 0 <= c0 < c1 -> c1 <= hm_samples m ->
  0 <= b0 < b1 -> b1 <= hm_bands m ->
  exists p' s', hyper_mat_get_range p r0 c0 b0 r1 c1 b1 e s = Ret p' s'
    /\ sub_cube s m l es r0 c0 b0 r1 c1 b1 s' p'.
Proof. exact get_range_run. Qed.
Print Assumptions C18_get_range.
Theorem C18_compose : forall e s p m l es r0 c0 b0 r1 c1 b1 r0' c0' b0' r1' c1' b1',
  env_ok e -> heap_ok s -> cube s p m l es ->
  0 <= r0 < r1 -> r1 <= hm_lines m -> 0 <= c0 < c1 -> c1 <= hm_samples m ->
  0 <= b0 < b1 -> b1 <= hm_bands m ->
  0 <= r0' < r1' -> r1' <= r1 - r0 -> 0 <= c0' < c1' -> c1' <= c1 - c0 ->
  0 <= b0' < b1' -> b1' <= b1 - b0 ->
  exists p1 s1 p2 s2,
    hyper_mat_get_range p r0 c0 b0 r1 c1 b1 e s = Ret p1 s1
    /\ hyper_mat_get_range p1 r0' c0' b0' r1' c1' b1' e s1 = Ret p2 s2
    /\ sub_cube s m l es (r0 + r0') (c0 + c0') (b0 + b0') (r0 + r1') (c0 + c1') (b0 + b1') s2 p2.
Proof. exact get_range_compose. Qed.
Print Assumptions C18_compose.
Example C18_hypotheses : forall l, env_ok ex_env /\ heap_ok (ex_cube l) /\ cube (ex_cube l) (Some 0%nat) (ex_hdr l) l 2.
Proof. intros l. split; [apply ex_env_ok|split; [apply ex_cube_heap|apply ex_cube_cube]]. Qed.
(** second sample, last two bands of the 2-sample 3-band BIL cube *)
Example C18_run :
  match hyper_mat_get_range (Some 0%nat) 0 1 1 1 2 3 ex_env (ex_cube BIL) with
  | Ret p' s' => match hm_at s' p' with
                 | Some m' => Some (hm_samples m', hm_lines m', hm_bands m', dump s' (hm_data m') 5, dump s' (hm_wave m') 4)
                 | None => None end
  | _ => None
  end = Some (1, 1, 2, [Some 6; Some 7; Some 10; Some 11; None], [Some 104; Some 105; Some 106; Some 107]).
Proof. vm_compute. reflexivity. Qed.

(** C19: extracting a band. *)
Theorem C19_extract : forall e s p m es d md band,
  cube s p m BSQ es -> sm_at s d = Some md ->
  readable s (sm_data md) (hm_samples m * hm_lines m * es) -> sm_data md <> hm_data m ->
  1 <= band <= hm_bands m ->
  exists s', hyper_mat_2_simple_mat p d band e s = Ret tt s' /\ band_extracted s m es d md band s'.
Proof. exact extract_band_run. Qed.
Print Assumptions C19_extract.
(** The band number is not checked: anything outside 1..bands reads outside the cube. *)
Theorem C19_unchecked_band : forall e s p m es d md band q f,
  cube s p m BSQ es -> sm_at s d = Some md ->
  bytes_at s (hm_data m) = Some (q, hm_samples m * hm_lines m * hm_bands m * es, f) ->
  band < 1 \/ hm_bands m < band ->
  hyper_mat_2_simple_mat p d band e s = UB.
Proof. exact extract_band_oob. Qed.
Print Assumptions C19_unchecked_band.
Example C19_hypotheses : cube st_ins (Some 0%nat) (hc_hdr 0 2 1 2 2 BSQ) BSQ 2
  /\ sm_at st_ins (Some 3%nat) = Some (im_hdr 3 1 2 2 1 2)
  /\ readable st_ins (sm_data (im_hdr 3 1 2 2 1 2)) 4
  /\ bytes_at st_ins (hm_data (hc_hdr 0 2 1 2 2 BSQ)) = Some (1%nat, 8, fun i => i).
Proof.
  split; [apply st_ins_ok|split; [reflexivity|split; [|reflexivity]]].
  do 3 eexists. split; [reflexivity|]. split; [reflexivity|cbn; lia].
Qed.
Example C19_run :
  match hyper_mat_2_simple_mat (Some 0%nat) (Some 3%nat) 2 ex_env st_ins with
  | Ret _ s' => dump s' (Some 4%nat) 4
  | _ => []
  end = map Some [4; 5; 6; 7].
Proof. vm_compute. reflexivity. Qed.

(** C20: inserting a band.  Right for 8-bit cubes, wrong for wider samples. *)
Theorem C20_insert_partial : forall e s p m d ms band,
  cube s p m BSQ 1 -> sm_at s d = Some ms ->
  sm_rows ms = hm_lines m -> sm_cols ms = hm_samples m ->
  readable s (sm_data ms) (hm_samples m * hm_lines m) -> sm_data ms <> hm_data m ->
  1 <= band <= hm_bands m ->
  exists s', simple_mat_2_hyper_mat p d band e s = Ret tt s'
    /\ band_inserted s m 1 (sm_data ms) band s'.
Proof. exact insert_band_bytes. Qed.
Print Assumptions C20_insert_partial.
(** What is stored for any element size: samples*lines bytes at byte offset
    samples*lines*(band-1). *)
Theorem C20_exact : forall e s p m es d ms band,
  cube s p m BSQ es -> sm_at s d = Some ms ->
  sm_rows ms = hm_lines m -> sm_cols ms = hm_samples m ->
  readable s (sm_data ms) (hm_samples m * hm_lines m) -> sm_data ms <> hm_data m ->
  1 <= band <= hm_bands m ->
  exists s', simple_mat_2_hyper_mat p d band e s = Ret tt s'
    /\ (forall x, byte_at s' (hm_data m) x =
          if (hm_samples m * hm_lines m * (band - 1) <=? x) && (x <? hm_samples m * hm_lines m * band)
          then byte_at s (sm_data ms) (x - hm_samples m * hm_lines m * (band - 1))
          else byte_at s (hm_data m) x)
    /\ only_written (hm_data m) s s'.
Proof. exact insert_band_run. Qed.
Print Assumptions C20_exact.
Theorem C20_refuted : exists e s p m es d ms band s',
  env_ok e /\ cube s p m BSQ es /\ image s d ms es
  /\ sm_rows ms = hm_lines m /\ sm_cols ms = hm_samples m /\ sm_type ms = hm_type m
  /\ sm_data ms <> hm_data m /\ 1 <= band <= hm_bands m
  /\ simple_mat_2_hyper_mat p d band e s = Ret tt s'
  /\ ~ band_inserted s m es (sm_data ms) band s'.
Proof. exact insert_refuted. Qed.
Print Assumptions C20_refuted.
(** Other shapes, band numbers and layouts are rejected before anything is written. *)
Theorem C20_rejected : forall e s p m l es d ms band, cube s p m l es -> sm_at s d = Some ms ->
  sm_rows ms <> hm_lines m \/ sm_cols ms <> hm_samples m \/ band < 1 \/ hm_bands m < band \/ l <> BSQ ->
  simple_mat_2_hyper_mat p d band e s = Exit.
Proof. exact insert_rejected. Qed.
Print Assumptions C20_rejected.
Example C20_hypotheses :
  let s := mkSt (hc_objs 0 2 2 2 1 1 BSQ (fun i => i) (fun _ => 0) ++ im_objs 3 2 2 1 1 1 (fun i => 50 + i)) [] in
  cube s (Some 0%nat) (hc_hdr 0 2 2 2 1 BSQ) BSQ 1 /\ sm_at s (Some 3%nat) = Some (im_hdr 3 2 2 1 1 1)
  /\ readable s (sm_data (im_hdr 3 2 2 1 1 1)) 4.
Proof.
  cbv zeta. split; [ex_cube_tac|split; [reflexivity|]].
  do 3 eexists. split; [reflexivity|]. split; [reflexivity|cbn; lia].
Qed.

(** C21: transposition, for every element size. *)
Theorem C21_transport : forall e s r mr p ms es,
  image s r mr es -> image s p ms es -> sm_chan mr = 1 -> sm_chan ms = 1 ->
  sm_rows mr = sm_cols ms -> sm_cols mr = sm_rows ms -> sm_type mr = sm_type ms ->
  sm_data mr <> sm_data ms ->
  exists s', simple_mat_transport r p e s = Ret tt s' /\ transposed s ms mr es s'
    /\ only_written (sm_data mr) s s'.
Proof. exact transport_ok. Qed.
Print Assumptions C21_transport.
Theorem C21_twice : forall e s r mr p ms b mb es,
  image s r mr es -> image s p ms es -> image s b mb es ->
  sm_chan mr = 1 -> sm_chan ms = 1 -> sm_chan mb = 1 ->
  sm_rows mr = sm_cols ms -> sm_cols mr = sm_rows ms ->
  sm_rows mb = sm_rows ms -> sm_cols mb = sm_cols ms ->
  sm_type mr = sm_type ms -> sm_type mb = sm_type ms ->
  sm_data mr <> sm_data ms -> sm_data mr <> sm_data mb ->
  exists s1 s2, simple_mat_transport r p e s = Ret tt s1 /\ simple_mat_transport b r e s1 = Ret tt s2
    /\ forall i j t, 0 <= i < sm_rows ms -> 0 <= j < sm_cols ms -> 0 <= t < es ->
         pixel_byte s2 mb es i j 0 t = pixel_byte s ms es i j 0 t.
Proof. exact transport_twice. Qed.
Print Assumptions C21_twice.
Example C21_hypotheses : image st_tr (Some 0%nat) (im_hdr 0 2 3 2 1 2) 2 /\ image st_tr (Some 2%nat) (im_hdr 2 3 2 2 1 2) 2
  /\ image st_tr (Some 4%nat) (im_hdr 4 2 3 2 1 2) 2.
Proof. exact st_tr_ok. Qed.
Example C21_run :
  match simple_mat_transport (Some 2%nat) (Some 0%nat) ex_env st_tr with
  | Ret _ s' => dump s' (Some 3%nat) 12
  | _ => []
  end = map Some [0; 1; 6; 7; 2; 3; 8; 9; 4; 5; 10; 11].
Proof. vm_compute. reflexivity. Qed.

(** C22: addition.  Right (modulo 256) when the widths agree, also when the
    destination is one of the operands. *)
Theorem C22_addition_partial : forall e s p1 m1 p2 m2 d md,
  image s p1 m1 1 -> image s p2 m2 1 -> image s d md 1 ->
  sm_cols m1 = sm_cols md -> sm_cols m2 = sm_cols md ->
  sm_chan m1 = sm_chan md -> sm_chan m2 = sm_chan md ->
  Z.min (sm_rows m1) (sm_rows m2) <= sm_rows md ->
  exists s', simple_mat_addition_uchar p1 p2 d e s = Ret tt s' /\ summed s m1 m2 md s'
    /\ (forall x, Z.min (sm_rows m1) (sm_rows m2) * sm_cols md * sm_chan md <= x ->
          byte_at s' (sm_data md) x = byte_at s (sm_data md) x)
    /\ only_written (sm_data md) s s'.
Proof. exact addition_ok. Qed.
Print Assumptions C22_addition_partial.
(** With different widths the rows are misaligned. *)
Theorem C22_refuted : exists e s p1 m1 p2 m2 d md s',
  env_ok e /\ image s p1 m1 1 /\ image s p2 m2 1 /\ image s d md 1
  /\ sm_chan m1 = sm_chan md /\ sm_chan m2 = sm_chan md
  /\ sm_rows md = Z.min (sm_rows m1) (sm_rows m2) /\ sm_cols md = Z.min (sm_cols m1) (sm_cols m2)
  /\ simple_mat_addition_uchar p1 p2 d e s = Ret tt s'
  /\ ~ summed s m1 m2 md s'.
Proof. exact add_refuted. Qed.
Print Assumptions C22_refuted.
Example C22_hypotheses : image st_add2 (Some 0%nat) (im_hdr 0 2 3 1 1 1) 1 /\ image st_add2 (Some 2%nat) (im_hdr 2 3 3 1 1 1) 1.
Proof. exact st_add2_ok. Qed.
(** in place, with wrap-around: 103 + 180 = 283 = 27 mod 256 *)
Example C22_run :
  match simple_mat_addition_uchar (Some 0%nat) (Some 2%nat) (Some 0%nat) ex_env st_add2 with
  | Ret _ s' => dump s' (Some 1%nat) 6
  | _ => []
  end = map Some [100; 161; 222; 27; 88; 149].
Proof. vm_compute. reflexivity. Qed.

(** C23: splicing.  Right when the part fits; there is no check, so a start
    index that does not fit writes outside the cube. *)
Theorem C23_splice_partial : forall e s p m l r mp l' es start,
  cube s p m l es -> cube s r mp l' es -> hm_type m = hm_type mp -> hm_data mp <> hm_data m ->
  0 <= start ->
  start + hm_samples mp * hm_lines mp * hm_bands mp <= hm_samples m * hm_lines m * hm_bands m ->
  exists s', hyper_mat_splicing p r start e s = Ret tt s'
    /\ spliced s (hm_data m) (hm_data mp) es start (hm_samples mp * hm_lines mp * hm_bands mp) s'.
Proof. exact splicing_run. Qed.
Print Assumptions C23_splice_partial.
Theorem C23_overrun : forall e s p m l r mp l' es start q f,
  cube s p m l es -> cube s r mp l' es -> hm_type m = hm_type mp ->
  bytes_at s (hm_data m) = Some (q, hm_samples m * hm_lines m * hm_bands m * es, f) ->
  start < 0 \/ hm_samples m * hm_lines m * hm_bands m < start + hm_samples mp * hm_lines mp * hm_bands mp ->
  hyper_mat_splicing p r start e s = UB.
Proof. exact splicing_overrun. Qed.
Print Assumptions C23_overrun.
Theorem C23_refuted : exists e s p m l r mp l' es start,
  env_ok e /\ heap_ok s /\ cube s p m l es /\ cube s r mp l' es /\ hm_type m = hm_type mp
  /\ hm_data mp <> hm_data m /\ 0 <= start < hm_samples m * hm_lines m * hm_bands m
  /\ hyper_mat_splicing p r start e s = UB.
Proof. exact splice_refuted. Qed.
Print Assumptions C23_refuted.
Example C23_hypotheses : cube st_spl (Some 0%nat) (hc_hdr 0 2 2 2 1 BIP) BIP 1 /\ cube st_spl (Some 3%nat) (hc_hdr 3 2 1 1 1 BIP) BIP 1.
Proof. exact st_spl_ok. Qed.
Example C23_run :
  match hyper_mat_splicing (Some 0%nat) (Some 3%nat) 3 ex_env st_spl with
  | Ret _ s' => dump s' (Some 1%nat) 8
  | _ => []
  end = map Some [0; 1; 2; 90; 91; 5; 6; 7].
Proof. vm_compute. reflexivity. Qed.

(** C61: element sizes. *)
Theorem C61_elemsize : forall ty, get_elemsize ty = match type_size ty with Some n => n | None => -1 end.
Proof. exact elemsize_spec. Qed.
Print Assumptions C61_elemsize.
Example C61_run : map get_elemsize [1; 2; 3; 4; 5; 12; 13; 14; 15; 0; 6; -4; 100] = [1; 2; 4; 4; 8; 2; 4; 8; 8; -1; -1; -1; -1].
Proof. reflexivity. Qed.

(** C62: comparing a tag with a layout name, whatever follows the tag. *)
Theorem C62_tag : forall m l l' e s, hm_il m = tag_of l -> In 0 (hm_pad m) ->
  il_cmp m (layout_name l') e s = Ret (if match l, l' with BSQ, BSQ | BIL, BIL | BIP, BIP => true | _, _ => false end then 1 else 0) s.
Proof. exact il_cmp_spec. Qed.
Print Assumptions C62_tag.
(** What the comparison means for arbitrary C strings. *)
Theorem C62_prefix : forall a b r r' e s, ~ In 0 a -> ~ In 0 b ->
  exists v, cmpstr (a ++ 0 :: r) (b ++ 0 :: r') e s = Ret v s
    /\ (v = 1 \/ v = 0)
    /\ (v = 1 <-> (exists t, b = a ++ t) \/ (exists t, a = b ++ t)).
Proof. exact cmpstr_prefix. Qed.
Print Assumptions C62_prefix.
Example C62_hypotheses : hm_il (ex_hdr BIP) = tag_of BIP /\ In 0 (hm_pad (ex_hdr BIP)).
Proof. split; [reflexivity|cbn; auto]. Qed.
(** the tag bytes "bil" followed by 7 and the empty rest *)
Example C62_run : cmpstr (tag_of BIL ++ [7; 0]) (str "bil") ex_env ex_image = Ret 1 ex_image
  /\ cmpstr (tag_of BIL ++ [7; 0]) (str "bip") ex_env ex_image = Ret 0 ex_image
  /\ cmpstr (str "data") (str "data ignore value") ex_env ex_image = Ret 1 ex_image.
Proof. repeat split. Qed.

(** C64: reshaping a BIP cube. *)
Theorem C64_reshape : forall e s p m es, env_ok e -> heap_ok s ->
  cube s p m BIP es ->
  hm_samples m * hm_lines m * hm_bands m * es + 96 <= 2147483647 ->
  exists p' s', reshape_hypermat_2_simplemat p (hm_samples m * hm_lines m) (hm_bands m) e s = Ret p' s'
    /\ pixels_by_bands s m es s' p'.
Proof. exact reshape_run. Qed.
Print Assumptions C64_reshape.
Example C64_hypotheses : env_ok ex_env /\ heap_ok (ex_cube BIP) /\ cube (ex_cube BIP) (Some 0%nat) (ex_hdr BIP) BIP 2.
Proof. split; [apply ex_env_ok|split; [apply ex_cube_heap|apply ex_cube_cube]]. Qed.

(** C65: structuring elements: creation is right, deletion leaks the cells. *)
Theorem C65_create : forall e s w h, 1 <= w -> 1 <= h -> w * h <= 2147483647 ->
  exists p s', create_2D_struct w h e s = Ret p s' /\ all_ones s' p w h
    /\ fresh_in s p /\ old_unchanged s s' /\ files s' = files s.
Proof. exact create_2D_ok. Qed.
Print Assumptions C65_create.
Theorem C65_bad_size : forall e s w h, w < 1 \/ h < 1 -> create_2D_struct w h e s = Exit.
Proof. exact create_2D_bad. Qed.
Print Assumptions C65_bad_size.
Theorem C65_delete_leaks : forall e s w h, 1 <= w -> 1 <= h -> w * h <= 2147483647 -> heap_ok s ->
  exists p s1 m s2 o, create_2D_struct w h e s = Ret p s1 /\ s2_at s1 p = Some m
    /\ delete_S_2D p e s1 = Ret tt s2 /\ released [p] s1 s2
    /\ block s2 (s2_data m) = Some o /\ o_live o = true /\ fresh_in s (s2_data m).
Proof. exact delete_2D_leaks. Qed.
Print Assumptions C65_delete_leaks.
Theorem C65_refuted : exists e s w h p s1 m s2 o, env_ok e /\ heap_ok s
  /\ create_2D_struct w h e s = Ret p s1 /\ s2_at s1 p = Some m
  /\ delete_S_2D p e s1 = Ret tt s2
  /\ fresh_in s (s2_data m) /\ block s2 (s2_data m) = Some o /\ o_live o = true.
Proof. exact leak_refuted. Qed.
Print Assumptions C65_refuted.
