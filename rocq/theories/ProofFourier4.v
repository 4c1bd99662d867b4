(** * Proofs: there and back, and single points. *)
From Verif Require Import Base Logic ModelFloat ModelConv ModelFourier SpecBase SpecNum SpecMatrix SpecStat SpecFilter SpecNorm ModelMatrix SpecFourier
  ProofCore ProofArr ProofGrid ProofFloat ProofFloat2 ProofDiv ProofFold ProofFilter ProofGrad ProofCopy ProofMatrix ProofStat ProofSpectral4 ProofNorm ProofInvert
  ProofFourier ProofFourier2 ProofFourier3.
From Coq Require Import Floats.SpecFloat Reals Lra ZifyBool ZifyNat.
Ltac Zify.zify_post_hook ::= Z.div_mod_to_equations.
Open Scope Z_scope.

Lemma dft_ext {T} (A : farith T) R C P Q i j : (forall x y, 0 <= x < R -> 0 <= y < C -> P x y = Q x y) ->
  dft_re A R C P i j = dft_re A R C Q i j /\ dft_im A R C P i j = dft_im A R C Q i j.
Proof.
  intros H. unfold dft_re, dft_im, grid_sum.
  split; apply foldz_ext; intros a x Hx; apply foldz_ext; intros b y Hy; now rewrite H.
Qed.
Lemma spectrum_ext {T} (A : farith T) R C P Q i j : (forall x y, 0 <= x < R -> 0 <= y < C -> P x y = Q x y) ->
  spectrum_re A R C P i j = spectrum_re A R C Q i j /\ spectrum_im A R C P i j = spectrum_im A R C Q i j.
Proof.
  intros H. unfold spectrum_re, spectrum_im, grid_sum.
  split; apply foldz_ext; intros a x Hx; apply foldz_ext; intros b y Hy; now rewrite H.
Qed.

Lemma header_two s p q n s' r m : only_two s p q n s' -> sm_at s r = Some m ->
  (exists g, matrix s p 4 1 1 g) -> (exists g, matrix s q 4 1 1 g) -> sm_at s' r = Some m.
Proof.
  intros (_ & _ & U & _) H [g M] [h N]. destruct r as [k|]; [|discriminate H].
  destruct (matrix_arr s p 4 1 1 g ltac:(lia) ltac:(lia) ltac:(lia) M) as (p1 & -> & A).
  destruct (matrix_arr s q 4 1 1 h ltac:(lia) ltac:(lia) ltac:(lia) N) as (q1 & -> & B).
  destruct (arr_isb _ _ _ _ _ _ A) as (n1 & d1 & I1). destruct (arr_isb _ _ _ _ _ _ B) as (n2 & d2 & I2).
  rewrite <- H. apply nth_sm_at. apply U.
  - destruct (sm_at_obj _ _ _ H) as (a & b & c & E). apply nth_error_Some. rewrite E. discriminate.
  - intros [Q|[Q|[]]]; injection Q as Q; subst; eapply sm_isb_ne in H; eauto.
Qed.

Lemma matrix_first s p es R C X : 0 < R -> 0 < C -> matrix s p es R C X -> exists g, matrix s p es 1 1 g.
Proof.
  intros HR HC M. exists (fun _ _ => X 0 0). intros i j Hi Hj. assert (i = 0) by lia. assert (j = 0) by lia. subst i j. change ((0 * 1 + 0) * es) with ((0 * C + 0) * es). apply M; lia.
Qed.

(** The first value of the transform is the sum of the image; the transform of a single point is constant. *)
Theorem transform_sum : forall cos_ sin_ R C P, trig_like cos_ sin_ -> 0 < R <= 16777216 -> 0 < C <= 16777216 ->
  (forall x y, 0 <= x < R -> 0 <= y < C -> 0 <= P x y) -> sumz R (fun x => sumz C (P x)) <= 16777216 ->
  is_int (dft_re (machine cos_ sin_) R C P 0 0) (sumz R (fun x => sumz C (P x)))
  /\ is_int (dft_im (machine cos_ sin_) R C P 0 0) 0.
Proof. intros cos_ sin_ R C P T HR HC HP HS. exact (first_value cos_ sin_ T R C P HR HC HP HS). Qed.

Theorem transform_point : forall cos_ sin_ R C P v i j, trig_like cos_ sin_ -> 0 < R <= 2048 -> 0 < C <= 2048 -> 0 <= v <= 65535 ->
  one_point P R C v -> 0 <= i < R -> 0 <= j < C ->
  is_int (dft_re (machine cos_ sin_) R C P i j) v /\ is_int (dft_im (machine cos_ sin_) R C P i j) 0.
Proof.
  intros cos_ sin_ R C P v i j T HR HC Hv HP Hi Hj.
  destruct (dft_ext (machine cos_ sin_) R C P (spike v) i j HP) as [-> ->].
  exact (spike_value cos_ sin_ T R C v i j HR HC Hv Hi Hj).
Qed.

Theorem round_trip : forall cos_ sin_ e s src re im dst ms mr mi md ty es R C P X Y W v n,
  trig_like cos_ sin_ -> (ty = 1 /\ es = 1 \/ ty = 12 /\ es = 2) ->
  sheet s src ms ty es R C P -> sheet s re mr 4 4 R C X -> sheet s im mi 4 4 R C Y -> sheet s dst md ty es R C W ->
  sm_chan ms = 1 -> sm_chan mr = 1 -> sm_chan mi = 1 ->
  sm_data ms <> sm_data mr -> sm_data ms <> sm_data mi -> sm_data mr <> sm_data mi ->
  sm_data md <> sm_data mr -> sm_data md <> sm_data mi ->
  R <= 2048 -> C <= 2048 -> one_point P R C v -> 0 <= v <= 65535 -> R * C = n * n -> 0 < n -> R * C * v < 4194304 ->
  exists s1 s2, hypercv_dft cos_ sin_ src re im e s = Ret tt s1 /\ hypercv_idft cos_ sin_ re im dst e s1 = Ret tt s2
    /\ word_at s2 (sm_data md) 0 (Z.to_nat es) = Some (clamp 0 255 (n * v)).
Proof.
  intros cos_ sin_ e s src re im dst ms mr mi md ty es R C P X Y W v n T Hty S1 S2 S3 S4 K1 K2 K3 N1 N2 N3 N4 N5 BR BC HP Hv Hn Hn0 Hb.
  destruct (fourier_run cos_ sin_ e s src re im ms mr mi ty es R C P X Y Hty S1 S2 S3 K1 K2 K3 N1 N2 N3) as (s1 & E1 & M1 & M2 & O).
  destruct S2 as (A1 & A2 & A3 & A4 & HR & HC & HB & M). destruct S3 as (B1 & B2 & B3 & B4 & _ & _ & _ & M').
  destruct S4 as (D1 & D2 & D3 & D4 & _ & _ & _ & M'').
  pose proof (matrix_first _ _ _ _ _ _ HR HC M) as F1. pose proof (matrix_first _ _ _ _ _ _ HR HC M') as F2.
  assert (S2' : sheet s1 re mr 4 4 R C (fun i j => float_word (dft_re (machine cos_ sin_) R C P i j))).
  { repeat (split; [solve [auto | lia | eapply header_two; eauto]|]). exact M1. }
  assert (S3' : sheet s1 im mi 4 4 R C (fun i j => float_word (dft_im (machine cos_ sin_) R C P i j))).
  { repeat (split; [solve [auto | lia | eapply header_two; eauto]|]). exact M2. }
  assert (S4' : sheet s1 dst md ty es R C W).
  { repeat (split; [solve [auto | lia | eapply header_two; eauto]|]).
    destruct (matrix_arr s _ es R C W ltac:(lia) HR HC M'') as (q & Eq & A).
    destruct (matrix_arr s _ 4 R C X ltac:(lia) HR HC M) as (q1 & Eq1 & _).
    destruct (matrix_arr s _ 4 R C Y ltac:(lia) HR HC M') as (q2 & Eq2 & _).
    rewrite Eq in *. apply arr_matrix. destruct A as (N & d & I & A'). exists N, d. split; [|exact A'].
    unfold isb. rewrite (nth_bytes_at s s1 q); [exact I|]. destruct O as (_ & _ & U & _). apply U; [eapply isb_lt; eauto|].
    rewrite Eq1, Eq2 in *. intros [Q|[Q|[]]]; congruence. }
  destruct (fourier_back cos_ sin_ e s1 re im dst mr mi md ty es R C _ _ W Hty S2' S3' S4' N4 N5) as (s2 & E2 & M3 & _).
  exists s1, s2. split; [exact E1|]. split; [exact E2|].
  specialize (M3 0 0 ltac:(lia) ltac:(lia)). cbv beta in M3. change ((0 * C + 0) * es) with 0 in M3. rewrite M3. f_equal.
  apply (flat_back cos_ sin_ T); try lia. intros x y Hx Hy.
  destruct (transform_point cos_ sin_ R C P v x y T ltac:(lia) ltac:(lia) Hv HP Hx Hy) as [Q1 Q2].
  assert (FB : forall z u, is_int z u -> is_int (fl_of_bits (float_word z)) u).
  { intros z u Q. change (float_word z) with (fl_word z). rewrite fl_word_back by apply Q. exact Q. }
  split; apply FB; assumption.
Qed.

(** ** The spectrum of a single point *)
Lemma spectrum_spike cos_ sin_ R C v i j : trig_like cos_ sin_ -> 0 < R <= 2048 -> 0 < C <= 2048 -> 0 <= v <= 65535 -> 0 <= i < R -> 0 <= j < C ->
  fint (spectrum_re (machine cos_ sin_) R C (spike v) i j) v /\ fint (spectrum_im (machine cos_ sin_) R C (spike v) i j) 0.
Proof.
  intros T HR HC Hv Hi Hj. unfold spectrum_re, spectrum_im.
  assert (Z0 : forall g x y, isint 53 1024 g 0 -> isint 53 1024 (db_mul g (db_of_Z (alternate x y))) 0).
  { intros g x y [V N]. assert (A : Z.abs (alternate x y) <= 1) by (unfold alternate; destruct (Z.even _); lia).
    destruct (db_Z (alternate x y) ltac:(lia)) as [Va Na]. eapply db_zero_mul; eauto. }
  split.
  - refine (eq_ind _ (fint _) _ _ (sum_spike R C v ltac:(lia) ltac:(lia))). apply grid_int; try lia; [|rewrite sum_spike; lia].
    intros x y Hx Hy. split; [|unfold spike; destruct (_ && _); lia]. unfold spike.
    destruct (Z.eqb_spec x 0) as [->|Nx]; [destruct (Z.eqb_spec y 0) as [->|Ny]|]; cbn [andb].
    + destruct (angle_zero cos_ sin_ R C ltac:(lia) ltac:(lia) (-1) i j 0 0) as [V N]; auto; try lia.
      refine (eq_ind _ (isint 53 1024 _) _ _ (Z.mul_1_r v)). apply (mul_int 53 1024); try lia; [|apply (db_Z 1); lia]. apply (cos_at0 cos_ sin_ T); auto. lia.
    + destruct (angle_num cos_ sin_ R C ltac:(lia) ltac:(lia) (-1) i j 0 y) as (a & V & N); auto; try lia. apply Z0. eapply (zero_times cos_ sin_ T); eauto.
    + destruct (angle_num cos_ sin_ R C ltac:(lia) ltac:(lia) (-1) i j x y) as (a & V & N); auto; try lia. apply Z0. eapply (zero_times cos_ sin_ T); eauto.
  - apply grid_zero; try lia. intros x y Hx Hy. apply Z0. unfold spike.
    destruct (Z.eqb_spec x 0) as [->|Nx]; [destruct (Z.eqb_spec y 0) as [->|Ny]|]; cbn [andb].
    + destruct (angle_zero cos_ sin_ R C ltac:(lia) ltac:(lia) (-1) i j 0 0) as [V N]; auto; try lia. apply (sin_at0 cos_ sin_ T); auto. lia.
    + destruct (angle_num cos_ sin_ R C ltac:(lia) ltac:(lia) (-1) i j 0 y) as (a & V & N); auto; try lia. eapply (zero_times cos_ sin_ T); eauto.
    + destruct (angle_num cos_ sin_ R C ltac:(lia) ltac:(lia) (-1) i j x y) as (a & V & N); auto; try lia. eapply (zero_times cos_ sin_ T); eauto.
Qed.

Theorem spectrum_point : forall cos_ sin_ R C P v n w i j, trig_like cos_ sin_ -> 0 < R <= 2048 -> 0 < C <= 2048 -> 0 <= v <= 4096 ->
  one_point P R C v -> R * C = n * n -> 0 < n -> v = n * w -> 0 <= i < R -> 0 <= j < C ->
  saturate_cast_float2uchar (magnitude_of (machine cos_ sin_) R C
    (spectrum_re (machine cos_ sin_) R C P i j) (spectrum_im (machine cos_ sin_) R C P i j)) = clamp 0 255 w.
Proof.
  intros cos_ sin_ R C P v n w i j T HR HC Hv HP Hn Hn0 Hw Hi Hj.
  destruct (spectrum_ext (machine cos_ sin_) R C P (spike v) i j HP) as [-> ->].
  destruct (spectrum_spike cos_ sin_ R C v i j T HR HC ltac:(lia) Hi Hj) as [A B].
  unfold magnitude_of. cbn [machine narrow d_div d_root widen f_add f_mul d_int].
  apply sat_int. apply fl_of_db_int; [|nia].
  apply (div_int 53 1024 ltac:(lia) ltac:(lia) ltac:(lia) ltac:(lia) _ _ v n w); try nia.
  - apply sqrt_whole; [lia|]. apply db_of_fl_int. refine (eq_ind _ (fint _) _ _ (Z.add_0_r (v * v))).
    apply fint_add; [apply fint_mul; auto; nia|apply (fint_mul _ _ 0 0); auto; lia|nia].
  - apply sqrt_whole; [nia|]. rewrite Hn. apply db_Z. nia.
Qed.

(** ** Odd sizes are not centred *)
Lemma odd_values j : 0 <= j < 3 ->
  spectrum_re reals 1 3 (fun _ _ => 1) 0 0 = 1%R /\ spectrum_im reals 1 3 (fun _ _ => 1) 0 0 = 0%R
  /\ dft_re reals 1 3 (fun _ _ => 1) 0 j = (if j =? 0 then 3 else 0)%R /\ dft_im reals 1 3 (fun _ _ => 1) 0 j = 0%R.
Proof.
  intros Hj. unfold spectrum_re, spectrum_im, dft_re, dft_im. rewrite !grid_rs. change (Z.to_nat 1) with 1%nat. change (Z.to_nat 3) with 3%nat.
  cbn [reals d_mul d_int d_cos d_sin]. pose proof (period_cos 3 j ltac:(lia) ltac:(lia)) as PC. pose proof (period_sin 3 j ltac:(lia) ltac:(lia)) as PS. cbn [rs] in *.
  change 1 with (Z.of_nat 1). change 3 with (Z.of_nat 3). rewrite !angle_R by lia.
  change (Z.of_nat 0) with 0 in *. change (Z.of_nat 1) with 1 in *. change (Z.of_nat 2) with 2 in *.
  change (alternate 0 0) with 1. change (alternate 0 1) with (-1). change (alternate 0 2) with 1.
  replace (INR 3) with 3%R in * by (cbn; lra). replace (INR 1) with 1%R in * by (cbn; lra).
  assert (Z0 : forall y, (IZR (-1) * (0 * (2 * PI * 0 / 1) + y * (2 * PI * 0 / 3)))%R = 0%R) by (intros; field).
  rewrite !Z0, cos_0, sin_0.
  assert (F : forall y, (IZR (-1) * (0 * (2 * PI * 0 / 1) + y * (2 * PI * IZR j / 3)))%R = (- (y * (2 * PI * IZR j / 3)))%R) by (intros; field).
  rewrite !F, !cos_neg, !sin_neg. change (IZR (Z.of_nat 3)) with 3%R. destruct (j =? 0); lra.
Qed.

Theorem spectrum_odd : exists R C P, 0 < R /\ 0 < C /\ forall i j, 0 <= i < R -> 0 <= j < C ->
  magnitude_of reals R C (spectrum_re reals R C P 0 0) (spectrum_im reals R C P 0 0)
  <> magnitude_of reals R C (dft_re reals R C P i j) (dft_im reals R C P i j).
Proof.
  exists 1, 3, (fun _ _ => 1). split; [lia|]. split; [lia|]. intros i j Hi Hj. assert (i = 0) by lia. subst i.
  destruct (odd_values j Hj) as (-> & -> & -> & ->). unfold magnitude_of. cbn [reals narrow d_div d_root widen f_add f_mul d_int].
  assert (S3 : (0 < sqrt (IZR (1 * 3)))%R) by (apply sqrt_lt_R0; apply (IZR_lt 0 (1 * 3)); reflexivity).
  replace (1 * 1 + 0 * 0)%R with 1%R by ring. rewrite sqrt_1. intros Q.
  assert (Q' : (1 = sqrt ((if j =? 0 then 3 else 0) * (if j =? 0 then 3 else 0) + 0 * 0))%R).
  { apply (f_equal (fun u => u * sqrt (IZR (1 * 3)))%R) in Q. unfold Rdiv in Q. rewrite !Rmult_assoc, !Rinv_l, !Rmult_1_r in Q by lra. exact Q. }
  destruct (j =? 0).
  - replace (3 * 3 + 0 * 0)%R with (3 * 3)%R in Q' by ring. rewrite sqrt_square in Q' by lra. lra.
  - replace (0 * 0 + 0 * 0)%R with 0%R in Q' by ring. rewrite sqrt_0 in Q'. lra.
Qed.
