(** * Rounding errors of float sums and means. *)
From Verif Require Import Base ModelFloat SpecBase SpecNum SpecMatrix SpecStat SpecSpectral ProofFloat ProofFloat2 ProofErr ProofDiv2 ProofMatrix ProofFold ProofFilter ProofPca2.
From Coq Require Import Lia.
Open Scope Z_scope.

Lemma sumz_abs_nonneg n a : 0 <= n -> 0 <= sumz n (fun i => Z.abs (a i)).
Proof. intros. apply sumz_nonneg; auto. intros. lia. Qed.

(** One step; t is the size below which numbers are subnormal. *)
Lemma sum_step E E' k T x c' c t : 0 <= k <= 8388608 -> 0 <= T -> 0 <= x -> 0 <= t -> 0 <= E -> E * 8388608 <= k * (T + t) ->
  E' <= E + c' -> c' * 16777216 <= c + t -> c <= E + T + x -> E' * 8388608 <= (k + 1) * (T + x + t).
Proof.
  intros Hk HT Hx Ht HE H1 H2 H3 H4.
  assert (E <= T + t). { apply (Z.mul_le_mono_pos_r _ _ 8388608); [lia|]. etransitivity; [exact H1|]. rewrite Z.mul_comm. apply Z.mul_le_mono_nonneg_l; lia. }
  assert (k * (T + t) <= k * (T + x + t)) by (apply Z.mul_le_mono_nonneg_l; lia).
  assert ((k + 1) * (T + x + t) = k * (T + x + t) + (T + x + t)) as -> by ring.
  lia.
Qed.

Lemma float_sum_err_gen k48 k80 v a : k48 = 948 -> k80 = 1180 -> forall n, 0 <= n <= 8388608 ->
  (forall i, 0 <= i < n -> fl_ok (v i) /\ sf_num (v i) = Some (a i)) -> sumz n (fun i => Z.abs (a i)) <= 2 ^ k80 ->
  exists c, fl_ok (float_sum n v) /\ sf_num (float_sum n v) = Some c
    /\ Z.abs (c - sumz n a) * 8388608 <= n * (sumz n (fun i => Z.abs (a i)) + 2 ^ k48).
Proof.
  intros E48 E80 n Hn. assert (P48 : 0 < 2 ^ k48) by (apply pow_pos; lia).
  assert (P : 2 ^ k48 <= 2 ^ k80) by (apply Z.pow_le_mono_r; lia).
  assert (P90 : 2 ^ 1190 = 1024 * 2 ^ k80) by (rewrite E80; change 1190 with (10 + 1180); rewrite Z.pow_add_r by lia; reflexivity).
  destruct Hn as [H0 Hn]. revert Hn. pattern n. apply natlike_ind; [| |exact H0].
  - intros _ _ _. exists 0. split; [reflexivity|]. split; [reflexivity|]. rewrite sumz_0. cbn. lia.
  - intros k Hk IH Hn Hv HB. unfold Z.succ in *. rewrite !sumz_S in * by lia. cbv beta in *.
    destruct (Hv k ltac:(lia)) as [Vk Nk].
    destruct IH as (c & Vc & Nc & Ec); [lia|intros; apply Hv; lia|lia|].
    pose proof (sumz_abs_nonneg k a Hk) as TN.
    set (T := sumz k (fun i => Z.abs (a i))) in *.
    pose proof (sumz_abs_le k a (fun i => Z.abs (a i)) Hk ltac:(intros; apply Z.le_refl)) as TS. fold T in TS.
    assert (L : Z.abs (c - sumz k a) <= T + 2 ^ k48).
    { apply (Z.mul_le_mono_pos_r _ _ 8388608); [lia|]. etransitivity; [exact Ec|]. rewrite Z.mul_comm. apply Z.mul_le_mono_nonneg_l; lia. }
    destruct (fl_add_err (float_sum k v) (v k) c (a k) Vc Vk Nc Nk) as (V' & c' & N' & _ & E').
    { rewrite P90. lia. }
    assert (ES : float_sum (k + 1) v = fl_add (float_sum k v) (v k)) by (unfold float_sum; now rewrite foldz_S).
    exists c'. rewrite ES. split; [exact V'|]. split; [exact N'|].
    change (2 ^ 24) with 16777216 in E'. replace (2 ^ 948) with (2 ^ k48) in E' by (now rewrite E48).
    apply (sum_step (Z.abs (c - sumz k a)) _ k T (Z.abs (a k)) (Z.abs (c' - (c + a k))) (Z.abs (c + a k))); try lia.
Qed.
Lemma float_sum_err n v a : 0 <= n <= 8388608 ->
  (forall i, 0 <= i < n -> fl_ok (v i) /\ sf_num (v i) = Some (a i)) -> sumz n (fun i => Z.abs (a i)) <= 2 ^ 1180 ->
  exists c, fl_ok (float_sum n v) /\ sf_num (float_sum n v) = Some c
    /\ Z.abs (c - sumz n a) * 8388608 <= n * (sumz n (fun i => Z.abs (a i)) + 2 ^ 948).
Proof. exact (float_sum_err_gen 948 1180 v a eq_refl eq_refl n). Qed.

(** Sums of numbers that are not negative. *)
Lemma positive_sum_err n v a : 0 < n <= 1048576 ->
  (forall i, 0 <= i < n -> fl_ok (v i) /\ sf_num (v i) = Some (a i) /\ 0 <= a i) -> 2 ^ 1000 <= sumz n a <= 2 ^ 1180 ->
  exists c, fl_ok (float_sum n v) /\ sf_num (float_sum n v) = Some c
    /\ Z.abs (c - sumz n a) * 8388608 <= (n + 1) * sumz n a.
Proof.
  intros Hn Hv [B1 B2].
  assert (EA : sumz n (fun i => Z.abs (a i)) = sumz n a) by (apply sumz_ext; intros i Hi; destruct (Hv i Hi) as (_ & _ & H); lia).
  destruct (float_sum_err n v a) as (c & V & N & E).
  - lia.
  - intros i Hi. destruct (Hv i Hi) as (H1 & H2 & _). auto.
  - rewrite EA. exact B2.
  - exists c. split; [exact V|]. split; [exact N|]. rewrite EA in E. etransitivity; [exact E|].
    assert (P : 2 ^ 1000 = 4503599627370496 * 2 ^ 948) by (change 1000 with (52 + 948); rewrite Z.pow_add_r by lia; reflexivity).
    rewrite P in B1. assert (P0 : 0 < 2 ^ 948) by (apply pow_pos; lia). clear P E V N. set (t := 2 ^ 948) in *. clearbody t.
    assert (n * t <= 1048576 * t) by (apply Z.mul_le_mono_nonneg_r; lia).
    replace ((n + 1) * sumz n a) with (n * sumz n a + sumz n a) by ring. rewrite Z.mul_add_distr_l. lia.
Qed.

(** Division of such a sum by a count. *)
Lemma quotient_err x c m : fl_ok x -> sf_num x = Some c -> 0 < m <= 1048576 -> 2 ^ 994 <= c <= m * 2 ^ 1134 ->
  fl_ok (fl_div x (fl_of_Z m)) /\ exists q, sf_num (fl_div x (fl_of_Z m)) = Some q /\ 0 <= q /\ Z.abs (q * m - c) * 16777216 <= c.
Proof.
  intros V N Hm [B1 B2]. destruct (fl_of_Z_ok m ltac:(lia)) as [Vm Nm]. rewrite sf_one_eq in Nm.
  assert (PU : 0 < 2 ^ 1074) by (apply pow_pos; lia). assert (P9 : 0 < 2 ^ 994) by (apply pow_pos; lia).
  destruct (fl_div_wide x (fl_of_Z m) c (m * 2 ^ 1074) V Vm N Nm) as (Vq & q & Nq & Q0 & E).
  - lia.
  - apply Z.mul_pos_pos; lia.
  - apply Z.le_trans with (1048576 * 2 ^ 1074); [apply Z.mul_le_mono_nonneg_r; lia|].
    apply Z.le_trans with (2 ^ 994 * 2 ^ 100); [|apply Z.mul_le_mono_nonneg_r; [apply Z.lt_le_incl, pow_pos; lia|exact B1]].
    rewrite <- Z.pow_add_r by lia. change 1048576 with (2 ^ 20). rewrite <- Z.pow_add_r by lia. apply Z.pow_le_mono_r; lia.
  - rewrite <- Z.mul_assoc, <- Z.pow_add_r by lia. exact B2.
  - split; [exact Vq|]. exists q. split; [exact Nq|]. split; [exact Q0|].
    generalize dependent (2 ^ 1074). intros u _ PU E. change (2 ^ 24) with 16777216 in E.
    replace (q * (m * u) - c * u) with ((q * m - c) * u) in E by ring. rewrite Z.abs_mul, (Z.abs_eq u) in E by lia.
    apply (Z.mul_le_mono_pos_r _ _ u PU). lia.
Qed.

Lemma average_err n v a : 0 < n <= 1048576 ->
  (forall i, 0 <= i < n -> fl_ok (v i) /\ sf_num (v i) = Some (a i) /\ 0 <= a i) -> 2 ^ 1000 <= sumz n a <= n * 2 ^ 1132 ->
  exists c, fl_ok (float_average n v) /\ sf_num (float_average n v) = Some c /\ 0 <= c
    /\ Z.abs (c * n - sumz n a) * 8388608 <= (n + 2) * sumz n a.
Proof.
  intros Hn Hv [B1 B2]. set (T := sumz n a) in *.
  assert (PU : 0 < 2 ^ 994) by (apply pow_pos; lia).
  assert (P1 : 2 ^ 1000 = 64 * 2 ^ 994) by (change 1000 with (6 + 994); rewrite Z.pow_add_r by lia; reflexivity).
  assert (P2 : 2 ^ 1134 = 4 * 2 ^ 1132) by (change 1134 with (2 + 1132); rewrite Z.pow_add_r by lia; reflexivity).
  destruct (positive_sum_err n v a) as (c & V & N & E); auto.
  { split; [exact B1|]. etransitivity; [exact B2|]. apply Z.le_trans with (2 ^ 20 * 2 ^ 1132); [apply Z.mul_le_mono_nonneg_r; [apply Z.lt_le_incl, pow_pos; lia|change (2 ^ 20) with 1048576; lia]|].
    rewrite <- Z.pow_add_r by lia. apply Z.pow_le_mono_r; lia. }
  fold T in E.
  assert (HT : 0 < T) by lia.
  assert (L : (n + 1) * T <= 2097152 * T) by (apply Z.mul_le_mono_nonneg_r; lia).
  destruct (quotient_err (float_sum n v) c n V N ltac:(lia)) as (Vq & q & Nq & Q0 & Eq).
  { rewrite P2. rewrite P1 in B1. generalize dependent (2 ^ 1132). generalize dependent (2 ^ 994). intros t Pt _ B1 w B2 _. clear - Pt B1 B2 E L HT Hn. nia. }
  exists q. split; [exact Vq|]. split; [exact Nq|]. split; [exact Q0|].
  assert (C2 : c <= 2 * T) by lia.
  pose proof (Z.abs_triangle (q * n - c) (c - T)) as TR. replace (q * n - c + (c - T)) with (q * n - T) in TR by ring.
  replace ((n + 2) * T) with ((n + 1) * T + T) by ring. lia.
Qed.

Lemma double_average_err R C v a : 0 < R -> 0 < C -> R * C <= 1048576 ->
  (forall i, 0 <= i < R * C -> fl_ok (v i) /\ sf_num (v i) = Some (a i) /\ 0 <= a i) -> 2 ^ 1020 <= sumz (R * C) a <= R * 2 ^ 1133 ->
  exists c, fl_ok (float_mean R C v) /\ sf_num (float_mean R C v) = Some c /\ 0 <= c
    /\ Z.abs (c * (R * C) - sumz (R * C) a) * 8388608 <= (R * C + 3) * sumz (R * C) a.
Proof.
  intros HR HC Hn Hv [B1 B2]. remember (R * C) as n eqn:En. set (T := sumz n a) in *.
  assert (Hn0 : 0 < n) by (clear - HR HC En; nia). assert (HRn : R <= n) by (clear - HR HC En; nia). assert (HCn : C <= n) by (clear - HR HC En; nia).
  assert (PU : 0 < 2 ^ 994) by (apply pow_pos; lia). assert (PW : 0 < 2 ^ 1133) by (apply pow_pos; lia).
  assert (P1 : 2 ^ 1020 = 67108864 * 2 ^ 994) by (change 1020 with (26 + 994); rewrite Z.pow_add_r by lia; reflexivity).
  assert (P2 : 2 ^ 1134 = 2 * 2 ^ 1133) by (change 1134 with (1 + 1133); rewrite Z.pow_add_r by lia; reflexivity).
  destruct (positive_sum_err n v a ltac:(lia) Hv) as (c & V & N & E).
  { split; [etransitivity; [|exact B1]; apply Z.pow_le_mono_r; lia|]. etransitivity; [exact B2|].
    apply Z.le_trans with (2 ^ 20 * 2 ^ 1133); [apply Z.mul_le_mono_nonneg_r; [lia|change (2 ^ 20) with 1048576; lia]|].
    rewrite <- Z.pow_add_r by lia. apply Z.pow_le_mono_r; lia. }
  fold T in E. rewrite P1 in B1.
  pose proof (quotient_err (float_sum n v) c R V N ltac:(lia)) as D1.
  assert (EM : float_mean R C v = fl_div (fl_div (float_sum n v) (fl_of_Z R)) (fl_of_Z C)) by (unfold float_mean, float_sum; now rewrite <- En).
  rewrite P2 in D1.
  assert (HT : 0 < T) by lia.
  assert (L : (n + 1) * T <= 1048577 * T) by (apply Z.mul_le_mono_nonneg_r; lia).
  assert (CT : 3 * T <= 4 * c /\ 4 * c <= 5 * T) by lia.
  destruct D1 as (V1 & q & Nq & Q0 & Eq).
  { replace (R * (2 * 2 ^ 1133)) with (2 * (R * 2 ^ 1133)) by ring. lia. }
  pose proof (quotient_err (fl_div (float_sum n v) (fl_of_Z R)) q C V1 Nq ltac:(lia)) as D2. rewrite P2 in D2.
  destruct D2 as (V2 & r & Nr & R0 & Er).
  { split.
    - apply (Z.mul_le_mono_pos_l _ _ R HR). assert (R * 2 ^ 994 <= 1048576 * 2 ^ 994) by (apply Z.mul_le_mono_nonneg_r; lia). lia.
    - apply Z.le_trans with (2 * 2 ^ 1133).
      + apply (Z.mul_le_mono_pos_l _ _ R HR). replace (R * (2 * 2 ^ 1133)) with (2 * (R * 2 ^ 1133)) by ring. lia.
      + rewrite <- (Z.mul_1_l (2 * 2 ^ 1133)) at 1. apply Z.mul_le_mono_nonneg_r; lia. }
  rewrite EM. exists r. split; [exact V2|]. split; [exact Nr|]. split; [exact R0|].
  assert (E2 : Z.abs (r * n - q * R) * 16777216 <= q * R).
  { replace (r * n - q * R) with ((r * C - q) * R) by (rewrite En; ring). rewrite Z.abs_mul, (Z.abs_eq R) by lia.
    replace (Z.abs (r * C - q) * R * 16777216) with (Z.abs (r * C - q) * 16777216 * R) by ring. apply Z.mul_le_mono_nonneg_r; lia. }
  replace ((n + 3) * T) with ((n + 1) * T + 2 * T) by ring.
  clear - E2 Eq E CT HT L. lia.
Qed.

(** ** Whole numbers *)
Lemma whole_sum n z : 0 <= n -> sumz n (fun i => z i * sf_one) = sumz n z * sf_one.
Proof. intros Hn. rewrite (sumz_ext n _ (fun i => sf_one * z i)) by (intros; ring). rewrite ProofPca2.sumz_mul_l by exact Hn. ring. Qed.
Lemma scale_err c n S K u : 0 < u -> Z.abs (c * n - S * u) * 8388608 <= K * (S * u) -> Z.abs (c * n - S * u) * 8388608 <= K * S * u.
Proof. intros _ H. replace (K * S * u) with (K * (S * u)) by ring. exact H. Qed.

Theorem mean_error : forall R C v z, 0 < R -> 0 < C -> R * C <= 1048576 ->
  (forall i, 0 <= i < R * C -> is_int (v i) (z i) /\ 0 <= z i) -> 0 < sumz (R * C) z <= R * 2 ^ 59 ->
  exists c, sf_num (float_mean R C v) = Some c
    /\ Z.abs (c * (R * C) - sumz (R * C) z * sf_one) * 8388608 <= (R * C + 3) * sumz (R * C) z * sf_one.
Proof.
  intros R C v z HR HC Hn Hv [B1 B2]. pose proof sf_one_pos as HO. assert (Hn0 : 0 < R * C) by nia.
  destruct (double_average_err R C v (fun i => z i * sf_one)) as (c & V & N & C0 & E); auto.
  - intros i Hi. destruct (Hv i Hi) as ((V & N) & Z0). split; [exact V|]. split; [exact N|]. apply Z.mul_nonneg_nonneg; lia.
  - rewrite whole_sum by lia. rewrite sf_one_eq. split.
    + apply Z.le_trans with (1 * 2 ^ 1074); [rewrite Z.mul_1_l; apply Z.pow_le_mono_r; lia|].
      apply Z.mul_le_mono_nonneg_r; [apply Z.lt_le_incl, pow_pos; lia|lia].
    + change 1133 with (59 + 1074). rewrite (Z.pow_add_r 2 59 1074) by lia. rewrite Z.mul_assoc.
      apply Z.mul_le_mono_nonneg_r; [apply Z.lt_le_incl, pow_pos; lia|lia].
  - exists c. split; [exact N|]. rewrite whole_sum in E by lia. apply scale_err; auto.
Qed.
Theorem average_error : forall n v z, 0 < n <= 1048576 ->
  (forall i, 0 <= i < n -> is_int (v i) (z i) /\ 0 <= z i) -> 0 < sumz n z <= n * 2 ^ 58 ->
  exists c, sf_num (float_average n v) = Some c
    /\ Z.abs (c * n - sumz n z * sf_one) * 8388608 <= (n + 2) * sumz n z * sf_one.
Proof.
  intros n v z Hn Hv [B1 B2]. pose proof sf_one_pos as HO.
  destruct (average_err n v (fun i => z i * sf_one)) as (c & V & N & C0 & E); auto.
  - intros i Hi. destruct (Hv i Hi) as ((V & N) & Z0). split; [exact V|]. split; [exact N|]. apply Z.mul_nonneg_nonneg; lia.
  - rewrite whole_sum by lia. rewrite sf_one_eq. split.
    + apply Z.le_trans with (1 * 2 ^ 1074); [rewrite Z.mul_1_l; apply Z.pow_le_mono_r; lia|].
      apply Z.mul_le_mono_nonneg_r; [apply Z.lt_le_incl, pow_pos; lia|lia].
    + change 1132 with (58 + 1074). rewrite (Z.pow_add_r 2 58 1074) by lia. rewrite Z.mul_assoc.
      apply Z.mul_le_mono_nonneg_r; [apply Z.lt_le_incl, pow_pos; lia|lia].
  - exists c. split; [exact N|]. rewrite whole_sum in E by lia. apply scale_err; auto.
Qed.
