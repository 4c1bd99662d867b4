(** * Property C95: principal components. *)
From Verif Require Import Base ModelFloat ModelMatrix ModelPca SpecBase SpecNum SpecMatrix SpecCxx SpecEigen SpecPca SpecPca2
  Fixtures Fixtures2 ProofEx ProofEx6 ProofPca ProofPca2 ProofEx25 ProofPca4 ProofEx26.
From Coq Require Import List Lia Permutation Floats.SpecFloat.
Import ListNotations.
Open Scope Z_scope.

(** C95.  The mean of each pixel is subtracted from its bands and the products over the pixels are added to the matrix, in single precision and in order; the temporary is released. *)
Theorem C95_code : forall e s x mx mean mm res mr n b X Mn W, env_ok e -> heap_ok s -> e_addr e (List.length (objs s)) mod 64 <> 48 ->
  pixels_at s x mx n b X -> sm_at s mean = Some mm -> sm_cols mm * sm_rows mm = n -> matrix s (sm_data mm) 4 1 n (fun _ => Mn) ->
  sm_at s res = Some mr -> matrix s (sm_data mr) 4 b b W -> b * b <= 2147483647 ->
  sm_data mx <> sm_data mm -> sm_data mx <> sm_data mr ->
  exists s' V, cal_covariance_matrix x mean res e s = Ret tt s'
    /\ matrix s' (sm_data mx) 4 n b (fun t j => fl_word (float_minus (X t j) (Mn t)))
    /\ matrix s' (sm_data mr) 4 b b V
    /\ (forall i j, 0 <= i < b -> 0 <= j < b -> fl_of_bits (V i j) = cov_sum n X Mn (W i j) i j)
    /\ no_leak s s' /\ unchanged_except [sm_data mx; sm_data mr] s s' /\ files s' = files s.
Proof. exact cov_code. Qed.
Print Assumptions C95_code.
(** The matrix stays symmetric, bit for bit up to the choice of a NaN. *)
Theorem C95_symmetric : forall e s x mx mean mm res mr n b X Mn W, env_ok e -> heap_ok s -> e_addr e (List.length (objs s)) mod 64 <> 48 ->
  pixels_at s x mx n b X -> sm_at s mean = Some mm -> sm_cols mm * sm_rows mm = n -> matrix s (sm_data mm) 4 1 n (fun _ => Mn) ->
  sm_at s res = Some mr -> matrix s (sm_data mr) 4 b b W -> b * b <= 2147483647 ->
  sm_data mx <> sm_data mm -> sm_data mx <> sm_data mr ->
  (forall i j, 0 <= i < b -> 0 <= j < b -> W i j = W j i) ->
  exists s' V, cal_covariance_matrix x mean res e s = Ret tt s' /\ matrix s' (sm_data mr) 4 b b V
    /\ (forall i j, 0 <= i < b -> 0 <= j < b -> fl_of_bits (V i j) = fl_of_bits (V j i)).
Proof. exact cov_symmetric. Qed.
Print Assumptions C95_symmetric.
(** Whole numbers with whole means: exact.  Missing: the error of arbitrary floats. *)
Theorem C95_whole_partial : forall e s x mx mean mm res mr n b X Mn X' M' K, env_ok e -> heap_ok s -> e_addr e (List.length (objs s)) mod 64 <> 48 ->
  pixels_at s x mx n b X -> sm_at s mean = Some mm -> sm_cols mm * sm_rows mm = n -> matrix s (sm_data mm) 4 1 n (fun _ => Mn) ->
  sm_at s res = Some mr -> matrix s (sm_data mr) 4 b b (fun _ _ => 0) -> b * b <= 2147483647 ->
  sm_data mx <> sm_data mm -> sm_data mx <> sm_data mr ->
  (forall t j, 0 <= t < n -> 0 <= j < b -> float_int (X t j) (X' t j) /\ float_int (Mn t) (M' t) /\ Z.abs (X' t j - M' t) <= K) -> n * (K * K) <= 16777216 ->
  exists s' V, cal_covariance_matrix x mean res e s = Ret tt s' /\ matrix s' (sm_data mr) 4 b b V
    /\ (forall i j, 0 <= i < b -> 0 <= j < b -> float_int (V i j) (sumz n (fun t => (X' t i - M' t) * (X' t j - M' t)))).
Proof. exact cov_whole. Qed.
Print Assumptions C95_whole_partial.
(** The means are those of the pixels, not of the bands: every row of the matrix adds up to 0 whatever the image. *)
Theorem C95_kernel_refuted : forall e s x mx mean mm res mr n b X Mn X' M' K, env_ok e -> heap_ok s -> e_addr e (List.length (objs s)) mod 64 <> 48 ->
  pixels_at s x mx n b X -> sm_at s mean = Some mm -> sm_cols mm * sm_rows mm = n -> matrix s (sm_data mm) 4 1 n (fun _ => Mn) ->
  sm_at s res = Some mr -> matrix s (sm_data mr) 4 b b (fun _ _ => 0) -> b * b <= 2147483647 ->
  sm_data mx <> sm_data mm -> sm_data mx <> sm_data mr ->
  (forall t j, 0 <= t < n -> 0 <= j < b -> float_int (X t j) (X' t j) /\ float_int (Mn t) (M' t) /\ Z.abs (X' t j - M' t) <= K) -> n * (K * K) <= 16777216 ->
  (forall t, 0 <= t < n -> b * M' t = sumz b (X' t)) ->
  exists s' V C, cal_covariance_matrix x mean res e s = Ret tt s' /\ matrix s' (sm_data mr) 4 b b V
    /\ (forall i j, 0 <= i < b -> 0 <= j < b -> float_int (V i j) (C i j)) /\ forall i, 0 <= i < b -> sumz b (C i) = 0.
Proof. exact cov_rows. Qed.
Print Assumptions C95_kernel_refuted.
(** Bands that are constant have no covariance, but the matrix is not 0. *)
Theorem C95_constant_refuted : exists e s x mx mean mm res mr X X' s' V, env_ok e /\ heap_ok s /\ pixels_at s x mx 2 2 X
  /\ (forall t j, 0 <= t < 2 -> 0 <= j < 2 -> float_int (X t j) (X' t j)) /\ (forall i j, 0 <= i < 2 -> 0 <= j < 2 -> true_covariance 2 X' i j = 0)
  /\ sm_at s mean = Some mm /\ matrix s (sm_data mm) 4 1 2 (fun _ _ => bits_of_fl (fl_of_Z 1)) /\ (forall t, 0 <= t < 2 -> sumz 2 (X' t) = 2)
  /\ sm_at s res = Some mr /\ matrix s (sm_data mr) 4 2 2 (fun _ _ => 0)
  /\ cal_covariance_matrix x mean res e s = Ret tt s' /\ matrix s' (sm_data mr) 4 2 2 V /\ float_int (V 0 0) 2 /\ float_int (V 0 1) (-2).
Proof. exact cov_constant. Qed.
Print Assumptions C95_constant_refuted.
(** The whole call, in single precision and in order: the result gains the centred pixels times the vectors computed for the sorted diagonal that the given number of turns leaves; nothing older is touched but the result; some block is always left behind. *)
Theorem C95_pca : forall e s p m r mr it X W, env_ok e -> (forall k, e_addr e k mod 64 <> 48) -> heap_ok s ->
  cube s p m BIP 4 -> hm_type m = 4 -> hm_at s r = Some mr ->
  hm_samples m * hm_lines m * hm_bands m * 4 + 96 <= 2147483647 -> hm_bands m * hm_bands m * 4 + 96 <= 2147483647 ->
  matrix s (hm_data m) 4 (hm_samples m * hm_lines m) (hm_bands m) X -> matrix s (hm_data mr) 4 (hm_samples m * hm_lines m) (hm_bands m) W ->
  let n := hm_samples m * hm_lines m in let b := hm_bands m in let Mn := pixel_mean b X in
  exists s' C L V, hyper_mat_pca p r it e s = Ret tt s'
    /\ (forall i j, 0 <= i < b -> 0 <= j < b -> C i j = cov_sum n X Mn 0 i j)
    /\ Permutation (listed b (fun k => pca_turns b (Z.to_nat it) C k k)) (listed b L)
    /\ ((forall k, 0 <= k < b -> pca_turns b (Z.to_nat it) C k k <> S754_nan) -> forall i j, 0 <= i < j -> j < b -> sf_le (L j) (L i))
    /\ matrix s' (hm_data mr) 4 n b V
    /\ (forall t k, 0 <= t < n -> 0 <= k < b -> fl_of_bits (V t k)
          = foldz b (fun a j => fl_add a (fl_mul (float_minus (X t j) (Mn t)) (unit_vector b C (L k) j))) (fl_of_bits (W t k)))
    /\ unchanged_except [hm_data mr] s s' /\ files s' = files s /\ ~ no_leak s s'.
Proof. exact pca_whole. Qed.
Print Assumptions C95_pca.
(** The check of the type assigns it: a cube whose data are shorter than floats is accepted and read beyond its end; the call never returns. *)
Theorem C95_type_refuted : forall e s p m es res it, env_ok e -> heap_ok s -> cube s p m BIP es ->
  ~ readable s (hm_data m) (hm_samples m * hm_lines m * hm_bands m * 4) ->
  hm_lines m * hm_samples m * 4 + 96 <= 2147483647 -> no_return (hyper_mat_pca p res it e s).
Proof. exact pca_narrow. Qed.
Print Assumptions C95_type_refuted.
(** Two turns leave five blocks behind. *)
Theorem C95_leak_refuted : exists e s p m r mr s', env_ok e /\ heap_ok s /\ cube s p m BIP 4 /\ cube s r mr BIP 4
  /\ hyper_mat_pca p r 2 e s = Ret tt s' /\ live_new (List.length (objs s)) s' = 5%nat.
Proof. exact pca_leak. Qed.
Print Assumptions C95_leak_refuted.
(** The result is added to what was there. *)
Theorem C95_added_refuted : exists a b, pca_first [0; 0; 0; 0] = Some a /\ pca_first [1; 0; 0; 0] = Some b /\ a <> b.
Proof. exact pca_added. Qed.
Print Assumptions C95_added_refuted.
Example C95_hypotheses : env_ok ex_env /\ heap_ok (st_cov [0; 2; 0; 2] [1; 1]) /\ e_addr ex_env (List.length (objs (st_cov [0; 2; 0; 2] [1; 1]))) mod 64 <> 48
  /\ pixels_at (st_cov [0; 2; 0; 2] [1; 1]) (Some 0%nat) (im_hdr 0 2 2 4 1 4) 2 2 (table2 (fw [0; 2; 0; 2]))
  /\ sm_at (st_cov [0; 2; 0; 2] [1; 1]) (Some 2%nat) = Some (im_hdr 2 1 2 4 1 4)
  /\ matrix (st_cov [0; 2; 0; 2] [1; 1]) (Some 3%nat) 4 1 2 (fun _ => column (fw [1; 1]))
  /\ sm_at (st_cov [0; 2; 0; 2] [1; 1]) (Some 4%nat) = Some (im_hdr 4 2 2 4 1 4)
  /\ matrix (st_cov [0; 2; 0; 2] [1; 1]) (Some 5%nat) 4 2 2 (fun _ _ => 0)
  /\ (forall t j, 0 <= t < 2 -> 0 <= j < 2 -> float_int (table2 (fw [0; 2; 0; 2]) t j) (table2 [0; 2; 0; 2] t j)
        /\ float_int (column (fw [1; 1]) t) (column [1; 1] t) /\ Z.abs (table2 [0; 2; 0; 2] t j - column [1; 1] t) <= 1).
Proof. exact st_cov_ok. Qed.
Example C95_hypotheses_pca : env_ok ex_env /\ (forall k, e_addr ex_env k mod 64 <> 48) /\ heap_ok (st_pca [0; 2; 4; 2] [1; 0; 0; 0])
  /\ cube (st_pca [0; 2; 4; 2] [1; 0; 0; 0]) (Some 0%nat) (hc_hdr 0 2 1 2 4 BIP) BIP 4
  /\ hm_at (st_pca [0; 2; 4; 2] [1; 0; 0; 0]) (Some 3%nat) = Some (hc_hdr 3 2 1 2 4 BIP)
  /\ matrix (st_pca [0; 2; 4; 2] [1; 0; 0; 0]) (Some 1%nat) 4 2 2 (table2 (fw [0; 2; 4; 2]))
  /\ matrix (st_pca [0; 2; 4; 2] [1; 0; 0; 0]) (Some 4%nat) 4 2 2 (table2 (fw [1; 0; 0; 0])).
Proof. exact st_pca_whole. Qed.
Example C95_hypotheses_narrow : env_ok ex_env /\ heap_ok st_narrow /\ cube st_narrow (Some 0%nat) (hc_hdr 0 2 1 2 1 BIP) BIP 1 /\ ~ readable st_narrow (Some 1%nat) (2 * 1 * 2 * 4).
Proof. exact st_narrow_ok. Qed.
