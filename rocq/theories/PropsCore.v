(** * Properties C01-C10: interleave conversions, copying, creation, deletion. *)
From Verif Require Import Base ModelCore ModelImage SpecBase SpecCore SpecImage Fixtures ProofEx.
From Verif Require Import ProofCopy ProofImage2 ProofCore2 ProofCore3.
From Coq Require Import String.
Open Scope Z_scope.

(** C01: each of the six conversions returns a fresh cube in the target layout
    with every sample and wavelength preserved; nothing else changes; no
    undefined behaviour. *)
Theorem C01_conversion : forall l l' e s p m es, l <> l' ->
  env_ok e -> heap_ok s -> cube s p m l es ->
  exists f, conversion (layout_name l) (layout_name l') = Some f /\
  exists p' s', f p e s = Ret p' s' /\ converted_to s m l es s' p' l'.
Proof. exact conversion_ok. Qed.
Print Assumptions C01_conversion.

Example C01_hypotheses : env_ok ex_env /\ heap_ok (ex_cube BIL) /\ cube (ex_cube BIL) (Some 0%nat) (ex_hdr BIL) BIL 2.
Proof. split; [apply ex_env_ok|split; [apply ex_cube_heap|apply ex_cube_cube]]. Qed.
(** two samples, three bands, 16 bit: band-interleaved rows become pixel-interleaved *)
Example C01_run :
  match bil2bip (Some 0%nat) ex_env (ex_cube BIL) with
  | Ret p' s' => match hm_at s' p' with
                 | Some m' => Some (dump s' (hm_data m') 12, dump s' (hm_wave m') 2)
                 | None => None end
  | _ => None
  end = Some (map Some [0;1;4;5;8;9;2;3;6;7;10;11], [Some 100; Some 101]).
Proof. vm_compute. reflexivity. Qed.
Example C01_family : conversion "bil" "bsq" = Some bil2bsq /\ conversion "bil" "bip" = Some bil2bip
  /\ conversion "bsq" "bil" = Some bsq2bil /\ conversion "bsq" "bip" = Some bsq2bip
  /\ conversion "bip" "bsq" = Some bip2bsq /\ conversion "bip" "bil" = Some bip2bil.
Proof. repeat split. Qed.

(** C02: converting along any non-empty path of layouts that ends where it
    started gives back all the data bytes, in a fresh cube. *)
Theorem C02_round_trip : forall e s p m l es ls,
  env_ok e -> heap_ok s -> cube s p m l es -> ls <> [] -> is_path l ls -> last ls l = l ->
  exists p' s' m', convert_along (layout_name l) (map layout_name ls) p e s = Ret p' s'
    /\ cube s' p' m' l es
    /\ hm_samples m' = hm_samples m /\ hm_lines m' = hm_lines m
    /\ hm_bands m' = hm_bands m /\ hm_type m' = hm_type m
    /\ (forall x, 0 <= x < hm_samples m * hm_lines m * hm_bands m * es ->
         byte_at s' (hm_data m') x = byte_at s (hm_data m) x)
    /\ fresh_in s (hm_data m') /\ old_unchanged s s'.
Proof. exact round_trip_ok. Qed.
Print Assumptions C02_round_trip.
(** ... and along any path the samples are preserved. *)
Theorem C02_path : forall e, env_ok e -> forall ls l s p m es, ls <> [] -> is_path l ls -> heap_ok s -> cube s p m l es ->
  exists p' s', convert_along (layout_name l) (map layout_name ls) p e s = Ret p' s'
    /\ converted_to s m l es s' p' (last ls l).
Proof. exact convert_along_ok. Qed.
Print Assumptions C02_path.
Example C02_hypotheses : is_path BIL [BSQ; BIL] /\ is_path BIL [BSQ; BIP; BIL] /\ last [BSQ; BIP; BIL] BIL = BIL.
Proof. repeat split; discriminate. Qed.

(** C03: convert2bsq/bil/bip on an image in another layout rearranges the
    caller's own image in place; on an image already in the layout it does
    nothing. *)
Theorem C03_normalise : forall l' e s p m l es,
  env_ok e -> heap_ok s -> cube s p m l es -> l <> l' -> hm_data m <> hm_wave m -> hm_wave m <> None ->
  exists f, normalise (layout_name l') = Some f /\
  exists s', f p e s = Ret tt s' /\ rearranged s p m l es s' l'.
Proof. exact normalise_ok. Qed.
Print Assumptions C03_normalise.
Theorem C03_already : forall l e s p m es, cube s p m l es ->
  exists f, normalise (layout_name l) = Some f /\ f p e s = Ret tt s.
Proof. exact normalise_same. Qed.
Print Assumptions C03_already.
Example C03_run :
  match convert2bip (Some 0%nat) ex_env (ex_cube BIL) with
  | Ret _ s' => match hm_at s' (Some 0%nat) with
                 | Some m' => Some (hm_il m', dump s' (hm_data m') 12, map o_live (objs s'))
                 | None => None end
  | _ => None
  end = Some (tag_of BIP, map Some [0;1;4;5;8;9;2;3;6;7;10;11], [true; true; true; false; false; false]).
Proof. vm_compute. reflexivity. Qed.

(** C04 is false: asking any conversion function for the layout the image
    already has returns NULL, for every image. *)
Theorem C04_refuted :
  exists e s p m l l0 es f, env_ok e /\ heap_ok s /\ cube s p m l es /\
    conversion (layout_name l0) (layout_name l) = Some f /\
    ~ exists p' s', f p e s = Ret p' s' /\ converted_to s m l es s' p' l.
Proof. exact same_layout_refuted. Qed.
Print Assumptions C04_refuted.
Theorem C04_always_null : forall e s p m l l0 es f, cube s p m l es ->
  conversion (layout_name l0) (layout_name l) = Some f -> f p e s = Ret None s.
Proof. exact conversion_same. Qed.
Print Assumptions C04_always_null.

(** C05 is false: hyper_mat_copy returns NULL for every non-null image and
    dereferences NULL for the null pointer. *)
Theorem C05_refuted :
  exists e s p m l es, env_ok e /\ heap_ok s /\ cube s p m l es /\
    ~ exists p' s', hyper_mat_copy p e s = Ret p' s' /\ converted_to s m l es s' p' l.
Proof. exact copy_refuted. Qed.
Print Assumptions C05_refuted.
Theorem C05_every_call : forall e s p,
  hyper_mat_copy p e s = match p with Some _ => Ret None s | None => UB end.
Proof. exact hyper_mat_copy_never. Qed.
Print Assumptions C05_every_call.

(** C06: hyper_mat_copy_to between images of equal shape whose arrays are
    separate; a shape mismatch ends the program without writing. *)
Theorem C06_copy_to : forall e s p m q m' l l' es,
  cube s p m l es -> cube s q m' l' es ->
  hm_samples m' = hm_samples m -> hm_lines m' = hm_lines m ->
  hm_bands m' = hm_bands m -> hm_type m' = hm_type m ->
  separate m m' ->
  exists s', hyper_mat_copy_to p q e s = Ret tt s' /\ copied_into s m q m' es s'.
Proof. exact copy_to_run. Qed.
Print Assumptions C06_copy_to.
Theorem C06_mismatch : forall e s p m q m',
  hm_at s p = Some m -> hm_at s q = Some m' ->
  (hm_samples m <> hm_samples m' \/ hm_lines m <> hm_lines m'
   \/ hm_bands m <> hm_bands m' \/ hm_type m <> hm_type m') ->
  hyper_mat_copy_to p q e s = Exit.
Proof. exact copy_to_mismatch. Qed.
Print Assumptions C06_mismatch.
(** two separate cubes in one state *)
Definition ex_two : st :=
  mkSt (objs (ex_cube BIL) ++
     [ mkObj 8192 300 3 true (CHM (mkHM 2 1 3 2 (tag_of BSQ) [0] (Some 4%nat) (Some 5%nat)));
       mkObj 8256 12 3 true (CBytes (fun _ => 9)); mkObj 8320 12 3 true (CBytes (fun _ => 8)) ]) [].
Example C06_run :
  match hyper_mat_copy_to (Some 0%nat) (Some 3%nat) ex_env ex_two with
  | Ret _ s' => (dump s' (Some 4%nat) 4, dump s' (Some 5%nat) 2)
  | _ => ([], []) end = (map Some [0;1;2;3], map Some [100;101]).
Proof. vm_compute. reflexivity. Qed.
Example C06_separate : separate (ex_hdr BIL) (mkHM 2 1 3 2 (tag_of BSQ) [0] (Some 4%nat) (Some 5%nat)).
Proof. split; [discriminate|]. intros _. repeat split; discriminate. Qed.

(** C07: a fresh cube is laid out and initialised as documented, for every
    allocator address and stale memory. *)
Theorem C07_create : forall e s S L B ty es tag data wave,
  env_ok e -> heap_ok s -> type_size ty = Some es ->
  0 < S -> 0 < L -> 0 < B -> S * L * B * es <= 2147483647 -> B * 4 + 64 <= 2147483647 ->
  (3 <= List.length tag)%nat ->
  data = None \/ readable s data (S * L * B * es) ->
  wave = None \/ readable s wave (B * 4) ->
  exists p s', create_hyper_mat_with_data S L B ty tag data wave e s = Ret p s'
    /\ fresh_cube s S L B ty es tag data wave p s'.
Proof. exact create_hm_fresh. Qed.
Print Assumptions C07_create.
Theorem C07_bad_dimensions : forall e s S L B ty tag data wave, S <= 0 \/ L <= 0 \/ B <= 0 ->
  create_hyper_mat_with_data S L B ty tag data wave e s = Exit.
Proof. exact create_hm_bad_dims. Qed.
Print Assumptions C07_bad_dimensions.
Example C07_run :
  match create_hyper_mat_with_data 2 1 3 2 (str "bil") (Some 1%nat) None ex_env48 (ex_cube BIL) with
  | Ret p s' => match hm_at s' p with
                | Some m => Some (dump s' (hm_data m) 12, dump s' (hm_wave m) 12)
                | None => None end
  | _ => None end = Some (map Some [0;1;2;3;4;5;6;7;8;9;10;11], repeat (Some 0) 12).
Proof. vm_compute. reflexivity. Qed.

(** C08, the part that holds: layout for every shape; the first
    rows*cols*elemsize bytes (all of them for one channel) are zero. *)
Theorem C08_create_partial : forall e s R C ty es ch,
  env_ok e -> heap_ok s -> type_size ty = Some es ->
  0 < R -> 0 < C -> 0 < ch -> R * C * es * ch + 96 <= 2147483647 ->
  exists p s', create_simple_mat R C ty ch e s = Ret p s'
    /\ fresh_matrix s R C ty es ch p s'
    /\ exists m, sm_at s' p = Some m /\ all_zero s' (sm_data m) (R * C * es).
Proof. exact create_sm_fresh. Qed.
Print Assumptions C08_create_partial.
(** C08 is false for several channels. *)
Theorem C08_refuted : exists e s R C ty es ch p s' m,
  env_ok e /\ heap_ok s /\ type_size ty = Some es /\ 0 < R /\ 0 < C /\ 0 < ch /\
  create_simple_mat R C ty ch e s = Ret p s' /\ sm_at s' p = Some m
  /\ ~ all_zero s' (sm_data m) (R * C * es * ch).
Proof. exact create_sm_stale_ex. Qed.
Print Assumptions C08_refuted.
Theorem C08_stale_whenever : forall e s R C ty es ch,
  env_ok e -> heap_ok s -> type_size ty = Some es ->
  0 < R -> 0 < C -> 2 <= ch -> R * C * es * ch + 96 <= 2147483647 ->
  e_junk e (List.length (objs s) + 1) (R * C * es) mod 256 <> 0 ->
  exists p s' m, create_simple_mat R C ty ch e s = Ret p s' /\ sm_at s' p = Some m
    /\ ~ all_zero s' (sm_data m) (R * C * es * ch).
Proof. exact create_sm_stale. Qed.
Print Assumptions C08_stale_whenever.
Example C08_run :
  match create_simple_mat 2 2 1 3 ex_env (mkSt [] []) with
  | Ret p s' => dump s' (Some 1%nat) 6
  | _ => [] end = [Some 0; Some 0; Some 0; Some 0; Some 165; Some 165].
Proof. vm_compute. reflexivity. Qed.

(** C09: deleting a matrix that owns its data, in any state: right for every
    address except those congruent to 48 mod 64, undefined there. *)
Theorem C09_delete_own_partial : forall e s p m h,
  owns_data s p m -> block s p = Some h -> o_addr h mod 16 = 0 -> o_addr h mod 64 <> 48 ->
  exists s', delete_simple_mat p e s = Ret tt s' /\ released [p] s s'.
Proof. exact delete_own_ok. Qed.
Print Assumptions C09_delete_own_partial.
Theorem C09_delete_own_invalid_free : forall e s p m h,
  owns_data s p m -> block s p = Some h -> o_addr h mod 64 = 48 ->
  delete_simple_mat p e s = UB.
Proof. exact delete_own_ub. Qed.
Print Assumptions C09_delete_own_invalid_free.
Theorem C09_create_delete : forall e s R C ty es ch,
  env_ok e -> heap_ok s -> type_size ty = Some es ->
  0 < R -> 0 < C -> 0 < ch -> R * C * es * ch + 96 <= 2147483647 ->
  exists p s1, create_simple_mat R C ty ch e s = Ret p s1
    /\ (e_addr e (List.length (objs s)) mod 64 <> 48 ->
        exists s2, delete_simple_mat p e s1 = Ret tt s2 /\ released [p] s1 s2)
    /\ (e_addr e (List.length (objs s)) mod 64 = 48 -> delete_simple_mat p e s1 = UB).
Proof. exact create_delete. Qed.
Print Assumptions C09_create_delete.
Theorem C09_refuted : exists e s p s1,
  env_ok e /\ heap_ok s /\ create_simple_mat 4 4 1 1 e s = Ret p s1 /\ delete_simple_mat p e s1 = UB.
Proof. exact delete_refuted. Qed.
Print Assumptions C09_refuted.
(** Wrapped caller data: released only when it happens to lie above the header. *)
Theorem C09_wrapped_above : forall e s p m h d,
  wraps_data s p m -> block s p = Some h -> block s (sm_data m) = Some d ->
  o_addr h + 64 < o_addr d ->
  exists s', delete_simple_mat p e s = Ret tt s' /\ released [p; sm_data m] s s'.
Proof. exact delete_wrapped_above. Qed.
Print Assumptions C09_wrapped_above.
Theorem C09_wrapped_below_leaks : forall e s p m h d,
  wraps_data s p m -> block s p = Some h -> block s (sm_data m) = Some d ->
  o_addr d <= o_addr h + 64 ->
  exists s', delete_simple_mat p e s = Ret tt s' /\ released [p] s s' /\ block s' (sm_data m) = Some d.
Proof. exact delete_wrapped_below. Qed.
Print Assumptions C09_wrapped_below_leaks.
Example C09_owns : owns_data ex_image (Some 0%nat) ex_im_hdr.
Proof.
  do 2 eexists. split; [reflexivity|]. split; [reflexivity|]. split; [reflexivity|].
  repeat (split; [reflexivity|]). cbn. split; [discriminate|reflexivity].
Qed.
Example C09_wraps : wraps_data
  (mkSt [mkObj 4096 32 0 true (CSM (mkSM 2 2 1 1 1 (Some 1%nat))); mkObj 8192 4 1 true (CBytes (fun i => i))] [])
  (Some 0%nat) (mkSM 2 2 1 1 1 (Some 1%nat)).
Proof. do 2 eexists. repeat (split; [reflexivity|]). discriminate. Qed.

(** C10: simple_mat_copy. *)
Theorem C10_copy : forall e s p m es, env_ok e -> heap_ok s -> image s p m es ->
  exists p' s', simple_mat_copy p e s = Ret p' s' /\ copied_matrix s m es p' s'.
Proof. exact copy_sm_ok. Qed.
Print Assumptions C10_copy.
Theorem C10_independent : forall e s p m es p' s' e' i v s'' m',
  env_ok e -> heap_ok s -> image s p m es -> simple_mat_copy p e s = Ret p' s' ->
  sm_at s' p' = Some m' ->
  (store8 (sm_data m) i v e' s' = Ret tt s'' -> forall x, byte_at s'' (sm_data m') x = byte_at s' (sm_data m') x)
  /\ (store8 (sm_data m') i v e' s' = Ret tt s'' -> forall x, byte_at s'' (sm_data m) x = byte_at s' (sm_data m) x).
Proof. exact copy_sm_independent. Qed.
Print Assumptions C10_independent.
Example C10_hypotheses : env_ok ex_env /\ heap_ok ex_image /\ image ex_image (Some 0%nat) ex_im_hdr 1.
Proof. split; [apply ex_env_ok|split; [apply ex_image_heap|apply ex_image_image]]. Qed.
