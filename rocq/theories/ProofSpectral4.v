(** * Proofs: angle, distance and deviation of spectra. *)
From Verif Require Import Base ModelFloat ModelDouble ModelCore ModelImage ModelFile ModelFilter SpecBase SpecCore SpecImage SpecImage2 SpecPixel SpecNum
  SpecMatrix SpecFilter SpecStat SpecSpectral Logic ProofCore ProofLayout ProofCore2 ProofImage ProofImage2 ProofHM ProofCopy ProofImage3 ProofPixel ProofWord ProofArr
  ProofGrid ProofFold ProofMatrix ProofFloat ProofFloat2 ProofDiv ProofGrad ProofFilter ProofStat ProofValid ProofThresh ProofSpectral ProofSpectral2.
From Verif Require Import ModelSpectral.
From Coq Require Import Floats.SpecFloat ZifyBool ZifyNat.
Ltac Zify.zify_post_hook ::= Z.div_mod_to_equations.
Open Scope Z_scope.

Lemma elements_at s p n W i : elements_of s p 4 n W -> 0 <= i < n -> word_at s p (4 * i) 4 = Some (W i).
Proof. intros H Hi. rewrite Z.mul_comm. now apply H. Qed.

(** ** Commutation *)

Lemma mul_comm prec emax x y : SFmul prec emax x y = SFmul prec emax y x.
Proof.
  destruct x as [sx|sx| |sx mx ex], y as [sy|sy| |sy my ey]; cbn [SFmul]; try reflexivity; try now rewrite xorb_comm.
  now rewrite xorb_comm, Pos.mul_comm, Z.add_comm.
Qed.
Lemma mul_opp prec emax x : SFmul prec emax (SFopp x) (SFopp x) = SFmul prec emax x x.
Proof. destruct x as [sx|sx| |sx mx ex]; cbn [SFopp SFmul]; try reflexivity; now destruct sx. Qed.

Lemma aux_opp prec emax s m e l : binary_round_aux prec emax (negb s) m e l = SFopp (binary_round_aux prec emax s m e l).
Proof.
  unfold binary_round_aux. destruct (shr_fexp prec emax m e l) as [mrs e']. destruct (shr_fexp prec emax _ e' loc_Exact) as [mrs' e''].
  destruct (shr_m mrs'); try reflexivity. now destruct (e'' <=? emax - prec).
Qed.
Lemma round_opp prec emax s m e : binary_round prec emax (negb s) m e = SFopp (binary_round prec emax s m e).
Proof. unfold binary_round. destruct (shl_align m e _) as [mz ez]. apply aux_opp. Qed.
Lemma normalize_opp prec emax m e : m <> 0 -> binary_normalize prec emax (- m) e false = SFopp (binary_normalize prec emax m e false).
Proof. intros Hm. destruct m as [|p|p]; [lia| |]; cbn [binary_normalize Z.opp]; [apply (round_opp _ _ false)|apply (round_opp _ _ true)]. Qed.

Lemma sub_square prec emax x y : SFmul prec emax (SFsub prec emax x y) (SFsub prec emax x y) = SFmul prec emax (SFsub prec emax y x) (SFsub prec emax y x).
Proof.
  destruct x as [sx|sx| |sx mx ex], y as [sy|sy| |sy my ey]; try reflexivity; try (destruct sx, sy; reflexivity).
  - cbn [SFsub]. rewrite (Z.min_comm ey ex).
    set (e := Z.min ex ey). set (u := cond_Zopp sx (Zpos (fst (shl_align mx ex e)))). set (v := cond_Zopp sy (Zpos (fst (shl_align my ey e)))).
    destruct (Z.eq_dec (u - v) 0) as [Q|Q].
    + replace (v - u) with 0 by lia. rewrite Q. reflexivity.
    + replace (v - u) with (- (u - v)) by lia. rewrite normalize_opp by exact Q. now rewrite mul_opp.
Qed.

Lemma foldz_triple n (f g h : sf -> Z -> sf) (a b c : sf) :
  0 <= n -> foldz n (fun (p : sf * sf * sf) i => let '(x, y, z) := p in (f x i, g y i, h z i)) (a, b, c) = (foldz n f a, foldz n g b, foldz n h c).
Proof. intros Hn. pattern n. apply natlike_ind; [reflexivity| |exact Hn]. intros m Hm IH. unfold Z.succ. rewrite !foldz_S by lia. now rewrite IH. Qed.

(** ** Angles *)

Lemma int_abs_cut a b : int_abs (fl_mul a b) = cut_product a b.
Proof.
  unfold int_abs, cut_product, int_of_sf, chk, in_int, INT_MIN, INT_MAX in *. destruct (sf_trunc _) as [z|]; [|reflexivity].
  destruct ((-2147483648 <=? z) && (z <=? 2147483647)) eqn:Q.
  - destruct ((-2147483648 <? z) && (z <=? 2147483647)) eqn:Q2; destruct ((-2147483648 <=? Z.abs z) && (Z.abs z <=? 2147483647)) eqn:Q3; try reflexivity; lia.
  - destruct ((-2147483648 <? z) && (z <=? 2147483647)) eqn:Q2; [lia|reflexivity].
Qed.

Theorem angle_exact : forall acos_ e s x y n Wx Wy K, 0 <= n -> nonnull x && nonnull y = true -> elements_of s x 4 n Wx -> elements_of s y 4 n Wy ->
  (forall i, 0 <= i < n -> cut_product (fl_of_bits (Wx i)) (fl_of_bits (Wy i)) = Some (K i)) ->
  spectral_angle_mapper acos_ x y n e s = Ret (library_angle acos_ n (fun i => fl_of_bits (Wx i)) (fun i => fl_of_bits (Wy i)) K) s.
Proof.
  intros acos_ e s x y n Wx Wy K Hn HN Ex Ey HK. unfold spectral_angle_mapper. rewrite bind_assert by exact HN.
  assert (L : forS 0 n (sam_step x y 0) (fl_of_Z 0, fl_of_Z 0, fl_of_Z 0) e s
    = Ret (float_sum n (fun i => fl_of_Z (K i)), float_dot n (fun i => fl_of_bits (Wx i)) (fun i => fl_of_bits (Wx i)),
           float_dot n (fun i => fl_of_bits (Wy i)) (fun i => fl_of_bits (Wy i))) s).
  { unfold float_dot, float_sum. rewrite <- foldz_triple by exact Hn. apply forS_pure; auto. intros i [[u v] w] Hi. unfold sam_step. rewrite Z.add_0_l.
    runs (load_float e s x _ _ (elements_at _ _ _ _ i Ex Hi)). runs (load_float e s y _ _ (elements_at _ _ _ _ i Ey Hi)).
    rewrite int_abs_cut. runs (ev_ok _ _ e s (HK i Hi)). reflexivity. }
  runs L. reflexivity.
Qed.

(** A product that is not an int: undefined. *)
Theorem angle_undefined : forall acos_ e s x y n Wx Wy j, 0 <= j < n -> nonnull x && nonnull y = true -> elements_of s x 4 n Wx -> elements_of s y 4 n Wy ->
  cut_product (fl_of_bits (Wx j)) (fl_of_bits (Wy j)) = None -> spectral_angle_mapper acos_ x y n e s = UB.
Proof.
  intros acos_ e s x y n Wx Wy j Hj HN Ex Ey HU. unfold spectral_angle_mapper. rewrite bind_assert by exact HN.
  assert (L : forS 0 n (sam_step x y 0) (fl_of_Z 0, fl_of_Z 0, fl_of_Z 0) e s = UB).
  { apply (forS_ub e s 0 n (sam_step x y 0) j); auto.
    - intros i [[u v] w] Hi. unfold sam_step. rewrite Z.add_0_l.
      runs (load_float e s x _ _ (elements_at _ _ _ _ i Ex Hi)). runs (load_float e s y _ _ (elements_at _ _ _ _ i Ey Hi)).
      rewrite int_abs_cut. destruct (cut_product (fl_of_bits (Wx i)) (fl_of_bits (Wy i))) as [k|]; [left; eexists; reflexivity|right; reflexivity].
    - intros [[u v] w]. unfold sam_step. rewrite Z.add_0_l.
      runs (load_float e s x _ _ (elements_at _ _ _ _ j Ex Hj)). runs (load_float e s y _ _ (elements_at _ _ _ _ j Ey Hj)).
      rewrite int_abs_cut, HU. reflexivity. }
  unfold bind at 1. rewrite L. reflexivity.
Qed.

Lemma cut_comm a b : cut_product a b = cut_product b a.
Proof. unfold cut_product, fl_mul. now rewrite mul_comm. Qed.

(** Swapping the spectra changes nothing. *)
Theorem angle_symmetric : forall acos_ e s x y n Wx Wy, 0 <= n -> elements_of s x 4 n Wx -> elements_of s y 4 n Wy ->
  spectral_angle_mapper acos_ x y n e s = spectral_angle_mapper acos_ y x n e s.
Proof.
  intros acos_ e s x y n Wx Wy Hn Ex Ey. destruct (nonnull x && nonnull y) eqn:HN.
  2:{ unfold spectral_angle_mapper. rewrite andb_comm in HN. rewrite !bind_assert_false by (try exact HN; rewrite andb_comm; exact HN). reflexivity. }
  pose proof HN as HN'. rewrite andb_comm in HN'.
  assert (D : (exists j, 0 <= j < n /\ cut_product (fl_of_bits (Wx j)) (fl_of_bits (Wy j)) = None)
    \/ (forall j, 0 <= j < n -> cut_product (fl_of_bits (Wx j)) (fl_of_bits (Wy j)) <> None)).
  { clear - Hn. pattern n. apply natlike_ind; [right; intros; lia| |exact Hn]. intros m Hm [(j & Hj & E)|A].
    - left. exists j. split; [lia|exact E].
    - destruct (cut_product (fl_of_bits (Wx m)) (fl_of_bits (Wy m))) eqn:Q.
      + right. intros j Hj. destruct (Z.eq_dec j m) as [->|Hne]; [congruence|]. apply A. lia.
      + left. exists m. split; [lia|exact Q]. }
  destruct D as [(j & Hj & E)|A].
  - rewrite (angle_undefined acos_ e s x y n Wx Wy j), (angle_undefined acos_ e s y x n Wy Wx j); auto. now rewrite cut_comm.
  - set (K := fun i => match cut_product (fl_of_bits (Wx i)) (fl_of_bits (Wy i)) with Some k => k | None => 0 end).
    rewrite (angle_exact acos_ e s x y n Wx Wy K), (angle_exact acos_ e s y x n Wy Wx K); auto.
    + unfold library_angle. do 5 f_equal. unfold fl_mul at 1 2. now rewrite mul_comm.
    + intros i Hi. rewrite cut_comm. unfold K. specialize (A i Hi). destruct (cut_product (fl_of_bits (Wx i)) _); congruence.
    + intros i Hi. unfold K. specialize (A i Hi). destruct (cut_product (fl_of_bits (Wx i)) _); congruence.
Qed.

Lemma db_of_fl_int x z : fint x z -> isint 53 1024 (db_of_fl x) z.
Proof. intros [V N]. destruct (db_of_fl_ok _ V) as [Vd Nd]. split; [exact Vd|]. now rewrite Nd. Qed.
Lemma sqrt_whole x S : 0 <= S < 9007199254740992 -> isint 53 1024 x (S * S) -> isint 53 1024 (db_sqrt x) S.
Proof.
  intros HS I. destruct x as [[]|sx| |sx mx ex]; try (apply db_sqrt_int; [exact HS|exact I|discriminate]).
  destruct I as [V N]. cbn in N. pose proof sf_one_pos. assert (S * S * sf_one = 0) by congruence. assert (S = 0) by (clear - HS H0 H; nia). subst S. split; reflexivity.
Qed.

(** Whole numbers of which the squares add up to at most 4096: the angle of a
    spectrum with itself is acos(1). *)
Theorem angle_self : forall acos_ e s x n W z, 0 <= n -> nonnull x = true -> elements_of s x 4 n W ->
  (forall i, 0 <= i < n -> is_int (fl_of_bits (W i)) (z i)) -> 0 < sumz n (fun i => z i * z i) <= 4096 ->
  spectral_angle_mapper acos_ x x n e s = Ret (fl_of_db (acos_ (db_of_Z 1))) s.
Proof.
  intros acos_ e s x n W z Hn HN Ex Hz HS. set (S := sumz n (fun i => z i * z i)) in *.
  assert (B : forall i, 0 <= i < n -> 0 <= z i * z i <= 4096).
  { intros i Hi. pose proof (member_le n (fun i => z i * z i) i Hi ltac:(intros; apply Z.square_nonneg)). cbn beta in H. fold S in H. pose proof (Z.square_nonneg (z i)). lia. }
  assert (P : forall i, 0 <= i < n -> fint (fl_mul (fl_of_bits (W i)) (fl_of_bits (W i))) (z i * z i)).
  { intros i Hi. apply fint_mul; try (apply Hz; exact Hi). pose proof (B i Hi). lia. }
  rewrite (angle_exact acos_ e s x x n W W (fun i => z i * z i)); auto.
  2:{ now rewrite HN. }
  2:{ intros i Hi. unfold cut_product. destruct (P i Hi) as [V N]. rewrite (fl_trunc _ _ V N). pose proof sf_one_pos. rewrite Z.quot_mul by lia.
      pose proof (B i Hi). unfold INT_MIN, INT_MAX. destruct ((-2147483648 <? z i * z i) && (z i * z i <=? 2147483647)) eqn:Q; [f_equal; lia|lia]. }
  f_equal. unfold library_angle. do 2 f_equal.
  assert (EA : sumz n (fun i => Z.abs (z i * z i)) = S) by (apply sumz_ext; intros i Hi; pose proof (B i Hi); lia).
  assert (F1 : fint (float_sum n (fun i => fl_of_Z (z i * z i))) S).
  { apply float_sum_whole; [exact Hn| |lia]. intros i Hi. apply fint_Z. pose proof (B i Hi). lia. }
  assert (F2 : fint (float_dot n (fun i => fl_of_bits (W i)) (fun i => fl_of_bits (W i))) S).
  { apply float_sum_whole; [exact Hn|exact P|lia]. }
  assert (F3 : fint (fl_mul (float_dot n (fun i => fl_of_bits (W i)) (fun i => fl_of_bits (W i))) (float_dot n (fun i => fl_of_bits (W i)) (fun i => fl_of_bits (W i)))) (S * S)).
  { apply fint_mul; auto. clear - HS. nia. }
  pose proof (sqrt_whole _ S ltac:(lia) (db_of_fl_int _ _ F3)) as F4.
  pose proof (div_int 53 1024 ltac:(lia) ltac:(lia) ltac:(lia) ltac:(lia) _ _ S S 1 (db_of_fl_int _ _ F1) F4 ltac:(lia) ltac:(lia) ltac:(lia)) as [V N].
  apply (num_inj 53 1024 ltac:(lia) ltac:(lia) ltac:(lia) _ _ (1 * sf_one)); auto; pose proof sf_one_pos; lia.
Qed.

(** ** Distances *)

Theorem distance_exact : forall e s x y n Wx Wy, 0 <= n -> elements_of s x 4 n Wx -> elements_of s y 4 n Wy ->
  euclidean_distance x y n e s = Ret (float_distance n (fun i => fl_of_bits (Wx i)) (fun i => fl_of_bits (Wy i))) s.
Proof.
  intros e s x y n Wx Wy Hn Ex Ey. unfold euclidean_distance.
  assert (L : forS 0 n (fun i temp => a <- loadf x i ;; b <- loadf y i ;; ret (fl_add temp (fl_mul (fl_sub a b) (fl_sub a b)))) (fl_of_Z 0) e s
    = Ret (float_sum n (fun i => fl_mul (fl_sub (fl_of_bits (Wx i)) (fl_of_bits (Wy i))) (fl_sub (fl_of_bits (Wx i)) (fl_of_bits (Wy i))))) s).
  { apply forS_pure; auto. intros i a Hi. runs (load_float e s x _ _ (elements_at _ _ _ _ i Ex Hi)). runs (load_float e s y _ _ (elements_at _ _ _ _ i Ey Hi)). reflexivity. }
  runs L. reflexivity.
Qed.

Theorem distance_symmetric : forall e s x y n Wx Wy, 0 <= n -> elements_of s x 4 n Wx -> elements_of s y 4 n Wy ->
  euclidean_distance x y n e s = euclidean_distance y x n e s.
Proof.
  intros e s x y n Wx Wy Hn Ex Ey. rewrite (distance_exact e s x y n Wx Wy), (distance_exact e s y x n Wy Wx) by auto. unfold float_distance. do 4 f_equal.
  unfold float_sum. apply foldz_ext. intros a i Hi. f_equal. apply sub_square.
Qed.

Lemma sub_self prec emax x : (forall b, x <> S754_infinity b) -> x <> S754_nan -> SFmul prec emax (SFsub prec emax x x) (SFsub prec emax x x) = S754_zero false.
Proof.
  intros Hi Hn. destruct x as [[]|b| |b m e]; try reflexivity; [now destruct (Hi b)|congruence|].
  cbn [SFsub]. rewrite Z.sub_diag. reflexivity.
Qed.
(** Finite spectra are at distance zero from themselves. *)
Theorem distance_self : forall e s x n W, 0 <= n -> elements_of s x 4 n W ->
  (forall i, 0 <= i < n -> fl_of_bits (W i) <> S754_nan /\ forall b, fl_of_bits (W i) <> S754_infinity b) ->
  euclidean_distance x x n e s = Ret (fl_of_Z 0) s.
Proof.
  intros e s x n W Hn Ex Hf. rewrite (distance_exact e s x x n W W) by auto. unfold float_distance.
  assert (Z0 : float_sum n (fun i => fl_mul (fl_sub (fl_of_bits (W i)) (fl_of_bits (W i))) (fl_sub (fl_of_bits (W i)) (fl_of_bits (W i)))) = fl_of_Z 0).
  { unfold float_sum. rewrite (foldz_ext n _ (fun a i => fl_add a (S754_zero false))).
    - pattern n. apply natlike_ind; [reflexivity| |exact Hn]. intros m Hm IH. unfold Z.succ. rewrite foldz_S by lia. now rewrite IH.
    - intros a i Hi. destruct (Hf i Hi) as [A B]. f_equal. now apply sub_self. }
  rewrite Z0. reflexivity.
Qed.

(** Whole numbers whose squared distance is a square: exact. *)
Theorem distance_whole : forall e s x y n Wx Wy zx zy S, 0 <= n -> elements_of s x 4 n Wx -> elements_of s y 4 n Wy ->
  (forall i, 0 <= i < n -> is_int (fl_of_bits (Wx i)) (zx i) /\ is_int (fl_of_bits (Wy i)) (zy i)) ->
  0 <= S <= 4096 -> sumz n (fun i => (zx i - zy i) * (zx i - zy i)) = S * S ->
  exists r, euclidean_distance x y n e s = Ret r s /\ is_int r S.
Proof.
  intros e s x y n Wx Wy zx zy S Hn Ex Ey Hz HS HQ. eexists. split; [apply (distance_exact e s x y n Wx Wy Hn Ex Ey)|].
  assert (B : forall i, 0 <= i < n -> 0 <= (zx i - zy i) * (zx i - zy i) <= 16777216).
  { intros i Hi. pose proof (member_le n (fun i => (zx i - zy i) * (zx i - zy i)) i Hi ltac:(intros; apply Z.square_nonneg)). cbn beta in H. rewrite HQ in H.
    pose proof (Z.square_nonneg (zx i - zy i)). split; [lia|]. clear - H HS. nia. }
  unfold float_distance. apply fl_of_db_int; [|lia]. apply sqrt_whole; [lia|]. apply db_of_fl_int. rewrite <- HQ. apply float_sum_whole; [exact Hn| |].
  - intros i Hi. destruct (Hz i Hi) as [A1 A2]. pose proof (B i Hi) as Bi. assert (D : fint (fl_sub (fl_of_bits (Wx i)) (fl_of_bits (Wy i))) (zx i - zy i)).
    { apply (sub_int 24 128 ltac:(lia) ltac:(lia) ltac:(lia)); auto. change (2 ^ 24) with 16777216. clear - Bi. nia. }
    apply fint_mul; auto. lia.
  - rewrite (sumz_ext n _ (fun i => (zx i - zy i) * (zx i - zy i))) by (intros i Hi; pose proof (B i Hi); lia). rewrite HQ. clear - HS. nia.
Qed.

(** ** Deviation *)

Theorem deviation_exact : forall pow2 e s x n W, 0 <= n -> elements_of s x 4 n W ->
  sp_standard_deviation pow2 x n e s = Ret (spectrum_deviation pow2 n (fun i => fl_of_bits (W i))) s.
Proof.
  intros pow2 e s x n W Hn Ex. unfold sp_standard_deviation, sp_variance.
  assert (HW : forall i, 0 <= i < n -> word_at s x (4 * (0 + i)) 4 = Some (W i)) by (intros i Hi; rewrite Z.add_0_l; exact (elements_at _ _ _ _ i Ex Hi)).
  pose proof (sp_average_run e s x 0 n W Hn HW) as A.
  assert (V : bind (sp_average x 0 n) (fun average => bind (forS 0 n (fun i sum => v <- loadf x i ;; ret (fl_of_db (db_add (db_of_fl sum) (pow2 (db_of_fl (fl_sub v average)))))) (fl_of_Z 0))
    (fun sum => ret (fl_div sum (fl_of_Z n)))) e s = Ret (spectrum_variance pow2 n (fun i => fl_of_bits (W i))) s).
  { runs A. erewrite bind_ret; [reflexivity|]. apply forS_pure; auto. intros i a Hi. runs (load_float e s x _ _ (elements_at _ _ _ _ i Ex Hi)). reflexivity. }
  runs V. reflexivity.
Qed.

(** Whole numbers with a whole mean and a square variance: exact. *)
Theorem deviation_whole : forall pow2 n v z mu sd, 0 < n <= 16777216 -> squares_floats pow2 16777216 ->
  (forall i, 0 <= i < n -> is_int (v i) (z i)) -> sumz n (fun i => Z.abs (z i)) <= 16777216 -> sumz n z = mu * n ->
  0 <= sd -> sumz n (fun i => (z i - mu) * (z i - mu)) = sd * sd * n -> sd * sd * n <= 16777216 ->
  is_int (spectrum_deviation pow2 n v) sd.
Proof.
  intros pow2 n v z mu sd Hn Hp Hv Hs Hmu Hsd Hq Hb. pose proof (average_whole n v z Hn Hv Hs mu Hmu) as FM.
  unfold spectrum_deviation, spectrum_variance. set (mean := float_average n v) in *. clearbody mean.
  assert (B : forall i, 0 <= i < n -> 0 <= (z i - mu) * (z i - mu) <= 16777216).
  { intros i Hi. pose proof (member_le n (fun i => (z i - mu) * (z i - mu)) i Hi ltac:(intros; apply Z.square_nonneg)). cbn beta in H. rewrite Hq in H.
    pose proof (Z.square_nonneg (z i - mu)). lia. }
  assert (Hb' : sumz n (fun i => (z i - mu) * (z i - mu)) <= 16777216) by (rewrite Hq; exact Hb).
  assert (F : fint (foldz n (fun a i => fl_of_db (db_add (db_of_fl a) (pow2 (db_of_fl (fl_sub (v i) mean))))) (fl_of_Z 0)) (0 + sumz n (fun i => (z i - mu) * (z i - mu)))).
  { apply foldz_int; auto; try lia.
    - apply fint_Z. lia.
    - intros i b y Hi Fb Hy Hm. pose proof (B i Hi) as Bi. assert (Ab : Z.abs (z i - mu) <= 16777216) by (clear - Bi; nia).
      assert (FD : is_int (fl_sub (v i) mean) (z i - mu)).
      { apply (sub_int 24 128 ltac:(lia) ltac:(lia) ltac:(lia)); [apply Hv; exact Hi|exact FM|]. change (2 ^ 24) with 16777216. exact Ab. }
      destruct (Hp _ _ Ab FD) as [V N]. apply fl_of_db_int; [|lia]. apply (add_int 53 1024 ltac:(lia) ltac:(lia) ltac:(lia)).
      + now apply db_of_fl_int.
      + split; auto.
      + change (2 ^ 53) with 9007199254740992. lia. }
  rewrite Z.add_0_l, Hq in F.
  assert (B1 : sd * sd <= 16777216) by (pose proof (Z.square_nonneg sd); clear - Hb Hn H; nia). assert (B2 : sd <= 16777216) by (clear - B1 Hsd; nia).
  apply fl_of_db_int; [|lia]. apply sqrt_whole; [lia|]. apply db_of_fl_int.
  apply (div_int 24 128 ltac:(lia) ltac:(lia) ltac:(lia) ltac:(lia) _ _ (sd * sd * n) n (sd * sd)); auto; [apply fint_Z; lia|lia|].
  change (2 ^ 24) with 16777216. pose proof (Z.square_nonneg sd). lia.
Qed.
