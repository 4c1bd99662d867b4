(** * Properties C33-C38: conversions, rounding, dynamic array, factorial, sorting. *)
From Verif Require Import Base ModelFloat ModelCore ModelConv ModelMath ModelVector SpecBase SpecNum SpecVector Fixtures Fixtures2
  ProofEx ProofFloat ProofConv ProofMath ProofVector ProofEx4 ProofEx5.
From Coq Require Import Floats.SpecFloat Permutation.
Open Scope Z_scope.

(** C33: widening keeps the denoted number, dimensions, layout and wavelengths. *)
Theorem C33_widen : forall e s p m l ty es ty' es' f, env_ok e -> heap_ok s ->
  In (ty, es, ty', es', f)
     [ (1, 1, 2, 2, hyper_mat_uchar2short); (1, 1, 3, 4, hyper_mat_uchar2int);
       (1, 1, 4, 4, hyper_mat_uchar2float); (1, 1, 12, 2, hyper_mat_uchar2ushort);
       (12, 2, 4, 4, hyper_mat_ushort2float) ] ->
  cube s p m l es -> hm_type m = ty ->
  hm_samples m * hm_lines m * hm_bands m * es' <= 2147483647 ->
  exists p' s', f p e s = Ret p' s'
    /\ retyped s m l es ty' es'
         (fun x y => exists v, stored_num ty x = Some v /\ stored_num ty' y = Some v) s' p'.
Proof. exact widen_ok. Qed.
Print Assumptions C33_widen.
Theorem C33_other_type : forall e s p m ty es ty' es' f,
  In (ty, es, ty', es', f)
     [ (1, 1, 2, 2, hyper_mat_uchar2short); (1, 1, 3, 4, hyper_mat_uchar2int);
       (1, 1, 4, 4, hyper_mat_uchar2float); (1, 1, 12, 2, hyper_mat_uchar2ushort);
       (12, 2, 4, 4, hyper_mat_ushort2float) ] ->
  hm_at s p = Some m -> hm_type m <> ty -> f p e s = Exit.
Proof. exact widen_other. Qed.
Print Assumptions C33_other_type.
(** Beyond 2 GiB of result the size computation overflows. *)
Theorem C33_too_big : forall e s p m l ty es ty' es' f,
  In (ty, es, ty', es', f)
     [ (1, 1, 2, 2, hyper_mat_uchar2short); (1, 1, 3, 4, hyper_mat_uchar2int);
       (1, 1, 4, 4, hyper_mat_uchar2float); (1, 1, 12, 2, hyper_mat_uchar2ushort);
       (12, 2, 4, 4, hyper_mat_ushort2float) ] ->
  cube s p m l es -> hm_type m = ty ->
  2147483647 < hm_samples m * hm_lines m * hm_bands m * es' -> f p e s = UB.
Proof. exact widen_big. Qed.
Print Assumptions C33_too_big.
Example C33_hypotheses : env_ok ex_env /\ heap_ok st_wide
  /\ cube st_wide (Some 0%nat) (hc_hdr 0 2 3 2 1 BIL) BIL 1 /\ cube st_wide (Some 3%nat) (hc_hdr 3 2 1 2 12 BSQ) BSQ 2.
Proof. split; [apply ex_env_ok|apply st_wide_ok]. Qed.
Example C33_run :
  match hyper_mat_ushort2float (Some 3%nat) ex_env st_wide with
  | Ret p' s' => match hm_at s' p' with
                 | Some m' => map (fun j => sample_word s' m' BSQ 4 0 j 0) [0; 1] | None => [] end
  | _ => [] end = [Some (bits_of_fl (fl_of_Z 9221)); Some (bits_of_fl (fl_of_Z 25155))].
Proof. vm_compute. reflexivity. Qed.

(** C34: what narrowing stores, for every float bit pattern. *)
Theorem C34_stored : forall e s p m l ty' es' narrow f, env_ok e -> heap_ok s ->
  In (ty', es', narrow, f)
     [ (3, 4, (fun z => z), hyper_mat_float2int);
       (1, 1, (fun z => if z >? 127 then 128 else Z.max (-127) z), hyper_mat_float2char);
       (2, 2, (fun z => z), hyper_mat_float2short);
       (12, 2, Z.max 0, hyper_mat_float2ushort);
       (1, 1, clamp 0 255, hyper_mat_float2uchar);
       (13, 4, Z.max 0, hyper_mat_float2uint) ] ->
  cube s p m l 4 -> hm_type m = 4 ->
  exists p' s', f p e s = Ret p' s'
    /\ retyped s m l 4 ty' es'
         (fun x y => exists z, int_or_indefinite x z /\ y = narrow z mod 256 ^ es') s' p'.
Proof. exact narrow_ok. Qed.
Print Assumptions C34_stored.
Theorem C34_stored_matrix : forall e s p m, env_ok e -> heap_ok s -> image s p m 4 -> sm_type m = 4 ->
  exists p' s', simple_mat_float2uchar p e s = Ret p' s'
    /\ retyped_matrix s m 4 1 1
         (fun x y => exists z, int_or_indefinite x z /\ y = Z.min 255 z mod 256) s' p'.
Proof. exact sm_uchar_run. Qed.
Print Assumptions C34_stored_matrix.
(** Partial: saturation holds for values rounding into dlo..dhi only. *)
Theorem C34_saturates_partial : forall e s p m l ty' es' lo hi dlo dhi val f, env_ok e -> heap_ok s ->
  In (ty', es', lo, hi, dlo, dhi, val, f)
     [ (1, 1, 0, 255, -2147483648, 2147483647, (fun y => y), hyper_mat_float2uchar);
       (1, 1, -128, 127, -127, 127, signed_word 1, hyper_mat_float2char);
       (2, 2, -32768, 32767, -32768, 32767, signed_word 2, hyper_mat_float2short);
       (3, 4, -2147483648, 2147483647, -2147483648, 2147483647, signed_word 4, hyper_mat_float2int);
       (12, 2, 0, 65535, -2147483648, 65535, (fun y => y), hyper_mat_float2ushort);
       (13, 4, 0, 4294967295, -2147483648, 2147483647, (fun y => y), hyper_mat_float2uint) ] ->
  cube s p m l 4 -> hm_type m = 4 ->
  exists p' s', f p e s = Ret p' s'
    /\ retyped s m l 4 ty' es'
         (fun x y => forall z, rounds_to x z -> dlo <= z <= dhi -> val y = clamp lo hi z) s' p'.
Proof. exact narrow_good. Qed.
Print Assumptions C34_saturates_partial.
Theorem C34_saturates_matrix_partial : forall e s p m, env_ok e -> heap_ok s -> image s p m 4 -> sm_type m = 4 ->
  exists p' s', simple_mat_float2uchar p e s = Ret p' s'
    /\ retyped_matrix s m 4 1 1
         (fun x y => forall z, rounds_to x z -> 0 <= z <= 2147483647 -> y = clamp 0 255 z) s' p'.
Proof. exact sm_uchar_good. Qed.
Print Assumptions C34_saturates_matrix_partial.
(** None of the six cube conversions saturates everywhere. *)
Theorem C34_refuted : forall ty' es' lo hi val f,
  In (ty', es', lo, hi, val, f)
  [ (1, 1, 0, 255, (fun y => y), hyper_mat_float2uchar);
    (1, 1, -128, 127, signed_word 1, hyper_mat_float2char);
    (2, 2, -32768, 32767, signed_word 2, hyper_mat_float2short);
    (3, 4, -2147483648, 2147483647, signed_word 4, hyper_mat_float2int);
    (12, 2, 0, 65535, (fun y => y), hyper_mat_float2ushort);
    (13, 4, 0, 4294967295, (fun y => y), hyper_mat_float2uint) ] ->
  exists e s p m l i j k x y z p' s' m',
    env_ok e /\ heap_ok s /\ cube s p m l 4 /\ hm_type m = 4
    /\ f p e s = Ret p' s' /\ hm_at s' p' = Some m' /\ in_cube m i j k
    /\ sample_word s m l 4 i j k = Some x /\ sample_word s' m' l es' i j k = Some y
    /\ rounds_to x z /\ val y <> clamp lo hi z.
Proof. exact narrow_refuted. Qed.
Print Assumptions C34_refuted.
Theorem C34_matrix_refuted :
  exists e s p m i j k x y z p' s' m',
    env_ok e /\ heap_ok s /\ image s p m 4 /\ sm_type m = 4
    /\ simple_mat_float2uchar p e s = Ret p' s' /\ sm_at s' p' = Some m' /\ in_image m i j k
    /\ pixel_word s m 4 i j k = Some x /\ pixel_word s' m' 1 i j k = Some y
    /\ rounds_to x z /\ z = -5 /\ y = 251.
Proof. exact sm_uchar_refuted. Qed.
Print Assumptions C34_matrix_refuted.
Example C34_hypotheses : env_ok ex_env /\ heap_ok st_floats
  /\ cube st_floats (Some 0%nat) (hc_hdr 0 6 1 1 4 BIP) BIP 4 /\ image st_floats (Some 3%nat) (im_hdr 3 1 6 4 1 4) 4.
Proof. split; [apply ex_env_ok|apply st_floats_ok]. Qed.

(** C35: rounding. *)
Theorem C35_round_partial : forall x n z, db_ok x -> sf_num x = Some n -> nearest_even n sf_one z ->
  -2147483648 <= z <= 2147483647 -> HYPERCV_ROUND x = z.
Proof. exact round_in_range. Qed.
Print Assumptions C35_round_partial.
Theorem C35_saturate_cast : forall x n z, fl_ok x -> sf_num x = Some n -> nearest_even n sf_one z ->
  saturate_cast_float2uchar x = clamp 0 255 z.
Proof. exact saturate_ok. Qed.
Print Assumptions C35_saturate_cast.
Theorem C35_refuted : exists x n z, db_ok x /\ sf_num x = Some n /\ nearest_even n sf_one z
  /\ HYPERCV_ROUND x <> z.
Proof. exact round_refuted. Qed.
Print Assumptions C35_refuted.
Example C35_run : map saturate_cast_float2uchar (map fl_of_bits [1075838976; 1080033280; 1132462080; 1325400064; 3212836864])
  = [2; 4; 255; 255; 0].
Proof. vm_compute. reflexivity. Qed.

(** C36: every sequence of allowed operations, from any vector state. *)
Theorem C36_vector : forall sz, 0 < sz -> forall e, env_ok e -> sz < 2 ^ 62 ->
  forall os s v x, heap_ok s -> vholds sz s v x -> vallowed_all sz os x ->
  (exists v' s', vector_ops sz os v e s = Ret (v', vanswers os x) s'
     /\ vholds sz s' v' (vsteps os x)
     /\ others_kept v s s' /\ heap_ok s' /\ (v' = v \/ fresh_in s v'))
  \/ (vector_ops sz os v e s = Exit /\ asks_too_much sz os x).
Proof. exact ops_ok. Qed.
Print Assumptions C36_vector.
(** From an empty vector, when the elements fit memory. *)
Theorem C36_vector_fits : forall sz, 0 < sz -> forall e, env_ok e -> sz < 2 ^ 62 ->
  forall os s, heap_ok s -> vallowed_all sz os ([], 0) -> 16 + 2 * Z.of_nat (length os) * sz < 2 ^ 62 ->
  exists v' s', vector_ops sz os None e s = Ret (v', vanswers os ([], 0)) s'
     /\ vholds sz s' v' (vsteps os ([], 0))
     /\ others_kept None s s' /\ heap_ok s' /\ (v' = None \/ fresh_in s v').
Proof. exact ops_small. Qed.
Print Assumptions C36_vector_fits.
Theorem C36_free : forall sz, 0 < sz -> forall e s v x, heap_ok s -> vholds sz s v x ->
  exists s', vector_free v e s = Ret None s' /\ others_kept v s s' /\ heap_ok s'
    /\ (forall q, v = Some q -> forall i, byte_at s' v i = None).
Proof. exact free_ok. Qed.
Print Assumptions C36_free.
(** Popping an empty vector (outside C36) makes the size wrap around. *)
Theorem C36_pop_empty : forall sz, 0 < sz -> forall e s q c, vholds sz s (Some q) ([], c) ->
  exists s', vector_pop_back (Some q) e s = Ret tt s' /\ vector_size (Some q) e s' = Ret 18446744073709551615 s'.
Proof. exact pop_empty. Qed.
Print Assumptions C36_pop_empty.
Example C36_run :
  match vector_ops 4 [Push 7; Push 8; Push 4000000000; Erase 1; Size; Capacity; At 1; Pop; Size; Erase 5; At 0] None ex_env st_wide with
  | Ret (_, l) _ => l | _ => [] end = [2; 4; 4000000000; 1; 7].
Proof. vm_compute. reflexivity. Qed.
Example C36_hypotheses :
  vallowed_all 4 [Push 7; Push 8; Push 4000000000; Erase 1; Size; Capacity; At 1; Pop; Size; Erase 5; At 0] ([], 0)
  /\ vholds 4 st_wide None ([], 0) /\ heap_ok st_wide.
Proof.
  split; [|split; [cbn; auto with zarith|apply st_wide_ok]].
  cbn [vallowed_all vallowed vstep fst]. change (256 ^ 4) with 4294967296. cbn.
  repeat split; try discriminate; lia.
Qed.

(** C37: the factorial, but for 10. *)
Theorem C37_factorial_partial : forall e s n, 0 <= n <= 20 -> n <> 10 ->
  hypercv_factorial n e s = Ret (factorial (Z.to_nat n)) s.
Proof. exact factorial_ok. Qed.
Print Assumptions C37_factorial_partial.
Theorem C37_negative : forall e s n, n < 0 -> hypercv_factorial n e s = Ret (-1) s.
Proof. exact factorial_neg. Qed.
Print Assumptions C37_negative.
(** From 21 on the result does not fit and the multiplication overflows. *)
Theorem C37_overflow : forall e s n, 21 <= n -> hypercv_factorial n e s = UB.
Proof. exact factorial_big. Qed.
Print Assumptions C37_overflow.
Theorem C37_refuted : forall e s, hypercv_factorial 10 e s = Ret (factorial 11) s.
Proof. exact factorial_ten. Qed.
Print Assumptions C37_refuted.
Example C37_values : factorial 10 = 3628800 /\ factorial 11 = 39916800 /\ factorial 20 = 2432902008176640000
  /\ 9223372036854775807 < factorial 21.
Proof. split; [|split; [|split]]; reflexivity. Qed.

(** C38: sorting. *)
Theorem C38_sort : forall e s p n, 0 <= n <= 2147483647 -> readable s p (n * 4) ->
  exists s', sort_array_down_float p n e s = Ret tt s'
    /\ Permutation (elements s p 4 n) (elements s' p 4 n)
    /\ (~ has_nan (elements s p 4 n) -> descending s' p n)
    /\ only_bytes s p 0 (4 * n) s'.
Proof. exact sort_spec. Qed.
Print Assumptions C38_sort.
Theorem C38_nan_refuted : exists e s p n s', 0 <= n <= 2147483647 /\ readable s p (n * 4)
  /\ sort_array_down_float p n e s = Ret tt s' /\ ~ descending s' p n
  /\ exists x y, word_at s' p 0 4 = Some x /\ word_at s' p 8 4 = Some y
     /\ SFltb (fl_of_bits x) (fl_of_bits y) = true.
Proof. exact sort_nan_refuted. Qed.
Print Assumptions C38_nan_refuted.
Example C38_hypotheses : readable st_sort (Some 0%nat) (5 * 4) /\ ~ has_nan (elements st_sort (Some 0%nat) 4 5).
Proof. split; apply st_sort_ok. Qed.
Example C38_run :
  match sort_array_down_float (Some 0%nat) 5 ex_env st_sort with
  | Ret tt s' => elements s' (Some 0%nat) 4 5 | _ => [] end
  = map Some [1120403456; 1080033280; 1080033280; 3212836864; 4286578688].
Proof. vm_compute. reflexivity. Qed.
