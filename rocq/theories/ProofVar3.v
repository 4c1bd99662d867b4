(** * How far the standard deviation of a spectrum is from the true one. *)
From Verif Require Import Base ModelFloat ModelDouble ModelCore SpecBase SpecNum SpecMatrix SpecPixel SpecImage SpecStat SpecSpectral SpecVar ProofFloat ProofFloat2 ProofErr ProofValid ProofStat ProofMatrix
  ProofFold ProofFilter ProofSpectral ProofSpectral2 ProofSpectral3 ProofSpectral4 ProofPca2 ProofSum ProofRoot ProofRoot2 ProofVar ModelSpectral.
From Coq Require Import Floats.SpecFloat List Lia.
Import ListNotations.
Open Scope Z_scope.

Lemma root_close_scaled n D X s r t : 0 < n <= 1048576 -> 0 < D -> 0 <= s -> 0 <= t -> 1048576 * (t * t * n) <= D ->
  Z.abs (X - D) * 8388608 <= (n + 5) * D -> Z.abs (s * s * n - X) * 281474976710656 <= X -> Z.abs (r - s) * 16777216 <= s + t ->
  Z.abs (r * r * n - D) * 8388608 <= (n + 7) * D.
Proof.
  intros Hn HD Hs Ht HtD Hc Hsc Hr.
  pose proof (square_off s r t Ht ltac:(rewrite (Z.abs_eq s) by exact Hs; exact Hr)) as Q.
  assert (Q' : Z.abs (r * r * n - s * s * n) * 67108864 <= 10 * (s * s * n) + 20 * (t * t * n)).
  { replace (r * r * n - s * s * n) with ((r * r - s * s) * n) by ring. rewrite Z.abs_mul, (Z.abs_eq n) by lia.
    replace (Z.abs (r * r - s * s) * n * 67108864) with (Z.abs (r * r - s * s) * 67108864 * n) by ring.
    replace (10 * (s * s * n) + 20 * (t * t * n)) with ((10 * (s * s) + 20 * (t * t)) * n) by ring. apply Z.mul_le_mono_nonneg_r; lia. }
  clear Q.
  assert (L : (n + 5) * D <= 1048581 * D) by (apply Z.mul_le_mono_nonneg_r; lia).
  replace ((n + 7) * D) with ((n + 5) * D + 2 * D) by ring.
  assert (0 <= t * t * n) by (apply Z.mul_nonneg_nonneg; [apply Z.square_nonneg|lia]).
  set (rr := r * r * n) in *. set (ss := s * s * n) in *. set (tt := t * t * n) in *. clearbody rr ss tt. set (K := (n + 5) * D) in *. clearbody K.
  clear - Hc Hsc Q' L HD HtD H. lia.
Qed.

Theorem float_deviation_err : forall pow2 n v a M, squares_closely pow2 -> 0 < n <= 1048576 ->
  (forall i, 0 <= i < n -> fl_ok (v i) /\ sf_num (v i) = Some (a i)) -> fl_ok (float_average n v) -> sf_num (float_average n v) = Some M ->
  2 ^ 2095 <= sumz n (fun i => (a i - M) * (a i - M)) <= n * 2 ^ 2206 ->
  exists r, sf_num (spectrum_deviation pow2 n v) = Some r
    /\ Z.abs (r * r * n - sumz n (fun i => (a i - M) * (a i - M))) * 8388608 <= (n + 7) * sumz n (fun i => (a i - M) * (a i - M)).
Proof.
  intros pow2 n v a M HP Hn Hv Vm Nm [B1 B2].
  set (mu := float_average n v) in *.
  assert (P26 : 2 ^ 2226 = 1048576 * 2 ^ 2206) by (change 1048576 with (2 ^ 20); apply two_pow; lia).
  assert (P06 : 0 < 2 ^ 2206) by (apply pow_pos; lia).
  assert (LD : sumz n (fun i => (a i - M) * (a i - M)) <= 2 ^ 2250).
  { etransitivity; [exact B2|]. apply Z.le_trans with (2 ^ 2226); [rewrite P26; apply Z.mul_le_mono_nonneg_r; lia|apply Z.pow_le_mono_r; lia]. }
  assert (Ht : forall i, 0 <= i < n -> exists p, db_ok (pow2 (db_of_fl (fl_sub (v i) mu))) /\ sf_num (pow2 (db_of_fl (fl_sub (v i) mu))) = Some p /\ 0 <= p
      /\ Z.abs (p * 2 ^ 1074 - (a i - M) * (a i - M)) * 16777216 <= 4 * ((a i - M) * (a i - M)) + 2 * 2 ^ 2022).
  { intros i Hi. destruct (Hv i Hi) as (H1 & H2). apply variance_term; auto.
    etransitivity; [|exact LD]. apply (sumz_member n (fun i => (a i - M) * (a i - M))); auto. intros. apply Z.square_nonneg. }
  set (p := fun i => match sf_num (pow2 (db_of_fl (fl_sub (v i) mu))) with Some z => z | None => 0 end).
  assert (Hp : forall i, 0 <= i < n -> db_ok (pow2 (db_of_fl (fl_sub (v i) mu))) /\ sf_num (pow2 (db_of_fl (fl_sub (v i) mu))) = Some (p i) /\ 0 <= p i
      /\ Z.abs (p i * 2 ^ 1074 - (a i - M) * (a i - M)) * 16777216 <= 4 * ((a i - M) * (a i - M)) + 2 * 2 ^ 2022).
  { intros i Hi. destruct (Ht i Hi) as (z & H1 & H2 & H3 & H4). unfold p. rewrite H2. auto. }
  clearbody p. clear Ht.
  pose proof (sum_close n p (fun i => (a i - M) * (a i - M)) (2 ^ 2022) (2 ^ 1074) ltac:(lia) ltac:(intros i Hi; apply Hp, Hi)) as SC. cbv beta in SC.
  set (D := sumz n (fun i => (a i - M) * (a i - M))) in *. clearbody D.
  assert (PU : 0 < 2 ^ 1074) by (apply pow_pos; lia).
  assert (P22 : 0 < 2 ^ 2022) by (apply pow_pos; lia).
  assert (P95 : 2 ^ 2095 = 2 ^ 73 * 2 ^ 2022) by (apply two_pow; lia).
  assert (HD : 0 < D) by (assert (0 < 2 ^ 2095) by (apply pow_pos; lia); lia).
  assert (SC5 : Z.abs (sumz n p * 2 ^ 1074 - D) * 16777216 <= 5 * D).
  { etransitivity; [exact SC|]. assert (2 * 2 ^ 2022 * n <= 2 * 2 ^ 2022 * 1048576) by (apply Z.mul_le_mono_nonneg_l; lia). rewrite P95 in B1.
    change (2 ^ 73) with 9444732965739290427392 in B1. set (w := 2 ^ 2022) in *. clearbody w. clear - H B1 P22. lia. }
  clear SC.
  assert (S12 : 2 ^ 1020 <= sumz n p <= 2 * (n * 2 ^ 1132)).
  { apply (sum_limits _ D (2 ^ 1074) _ _ D PU); auto.
    - apply Z.mul_pos_pos; [lia|apply pow_pos; lia].
    - rewrite <- Z.mul_assoc. rewrite <- (Z.pow_add_r 2 1132 1074) by lia. exact B2. }
  destruct S12 as [S1 S2].
  assert (P33 : 2 * (n * 2 ^ 1132) = n * 2 ^ 1133) by (rewrite (two_pow 1133 1 1132) by lia; change (2 ^ 1) with 2; ring). rewrite P33 in S2.
  assert (S3 : sumz n p <= 2 ^ 1180).
  { etransitivity; [exact S2|]. apply Z.le_trans with (2 ^ 20 * 2 ^ 1133); [apply Z.mul_le_mono_nonneg_r; [apply Z.pow_nonneg; lia|change (2 ^ 20) with 1048576; lia]|].
    rewrite <- Z.pow_add_r by lia. apply Z.pow_le_mono_r; lia. }
  assert (S4 : 2 ^ 1000 <= sumz n p) by (etransitivity; [|exact S1]; apply Z.pow_le_mono_r; lia).
  destruct (mixed_sum_err n (fun i => pow2 (db_of_fl (fl_sub (v i) mu))) p ltac:(lia)) as (c & Vc & Nc & Ec).
  { intros i Hi. destruct (Hp i Hi) as (H1 & H2 & H3 & _). auto. }
  { split; [exact S4|exact S3]. }
  assert (L1 : (n + 1) * sumz n p <= 1048577 * sumz n p) by (apply Z.mul_le_mono_nonneg_r; lia).
  assert (HS : 0 < sumz n p) by (assert (0 < 2 ^ 1020) by (apply pow_pos; lia); lia).
  assert (CT : 3 * sumz n p <= 4 * c /\ 4 * c <= 5 * sumz n p) by (clear - L1 Ec HS; lia).
  assert (CL : 2 ^ 1018 <= c <= n * 2 ^ 1134).
  { assert (E1 : 2 ^ 1020 = 4 * 2 ^ 1018) by (change 4 with (2 ^ 2); apply two_pow; lia). assert (E2 : n * 2 ^ 1134 = 2 * (n * 2 ^ 1133)) by (rewrite (two_pow 1134 1 1133) by lia; change (2 ^ 1) with 2; ring).
    assert (0 < 2 ^ 1018) by (apply pow_pos; lia). rewrite E2. rewrite E1 in S1. set (w := 2 ^ 1018) in *. set (w2 := n * 2 ^ 1133) in *. clearbody w w2. clear - S1 S2 CT H HS. lia. }
  destruct (quotient_err _ c n Vc Nc Hn) as (Vq & q & Nq & Q0 & Eq).
  { split; [|exact (proj2 CL)]. etransitivity; [|exact (proj1 CL)]. apply Z.pow_le_mono_r; lia. }
  assert (EC : Z.abs (q * 2 ^ 1074 * n - D) * 8388608 <= (n + 5) * D).
  { assert (Ec' : Z.abs (c * 2 ^ 1074 - sumz n p * 2 ^ 1074) * 8388608 <= (n + 1) * (sumz n p * 2 ^ 1074)).
    { rewrite <- Z.mul_sub_distr_r, Z.abs_mul, (Z.abs_eq (2 ^ 1074)) by lia.
      replace (Z.abs (c - sumz n p) * 2 ^ 1074 * 8388608) with (Z.abs (c - sumz n p) * 8388608 * 2 ^ 1074) by ring. rewrite Z.mul_assoc. apply Z.mul_le_mono_nonneg_r; lia. }
    assert (Eq' : Z.abs (q * 2 ^ 1074 * n - c * 2 ^ 1074) * 16777216 <= c * 2 ^ 1074).
    { replace (q * 2 ^ 1074 * n - c * 2 ^ 1074) with ((q * n - c) * 2 ^ 1074) by ring. rewrite Z.abs_mul, (Z.abs_eq (2 ^ 1074)) by lia.
      replace (Z.abs (q * n - c) * 2 ^ 1074 * 16777216) with (Z.abs (q * n - c) * 16777216 * 2 ^ 1074) by ring. apply Z.mul_le_mono_nonneg_r; lia. }
    set (cu := c * 2 ^ 1074) in *. set (qu := q * 2 ^ 1074 * n) in *. set (su := sumz n p * 2 ^ 1074) in *. clearbody cu su qu. clear - Hn SC5 Ec' Eq' HD.
    assert ((n + 1) * (su - D) <= 1048577 * Z.abs (su - D)). { apply Z.le_trans with ((n + 1) * Z.abs (su - D)); [apply Z.mul_le_mono_nonneg_l; lia|apply Z.mul_le_mono_nonneg_r; lia]. }
    assert ((n + 1) * D <= 1048577 * D) by (apply Z.mul_le_mono_nonneg_r; lia).
    replace ((n + 1) * su) with ((n + 1) * D + (n + 1) * (su - D)) in Ec' by ring. replace ((n + 5) * D) with ((n + 1) * D + 4 * D) by ring.
    set (nd := (n + 1) * D) in *. clearbody nd. set (ns := (n + 1) * (su - D)) in *. clearbody ns. lia. }
  assert (QA : 2 ^ 900 <= q <= 2 ^ 1300).
  { assert (E1 : 2 ^ 1018 = 2 ^ 118 * 2 ^ 900) by (apply two_pow; lia). assert (E2 : 2 ^ 1300 = 2 ^ 166 * 2 ^ 1134) by (apply two_pow; lia).
    assert (P1 : 2097152 <= 2 ^ 118) by (apply Z.leb_le; reflexivity). assert (P2 : 4 <= 2 ^ 166) by (apply Z.leb_le; reflexivity).
    assert (PP9 : 0 < 2 ^ 900) by (apply pow_pos; lia). assert (PP11 : 0 < 2 ^ 1134) by (apply pow_pos; lia).
    assert (2097152 * 2 ^ 900 <= 2 ^ 1018) by (rewrite E1; apply Z.mul_le_mono_nonneg_r; lia).
    assert (4 * 2 ^ 1134 <= 2 ^ 1300) by (rewrite E2; apply Z.mul_le_mono_nonneg_r; lia).
    assert (QC : c <= 2 * (q * n) /\ q * n <= 2 * c) by (clear - Eq CT HS; lia).
    assert (n * 2 ^ 900 <= 1048576 * 2 ^ 900) by (apply Z.mul_le_mono_nonneg_r; lia).
    split; apply (Z.mul_le_mono_pos_r _ _ n (proj1 Hn)).
    - rewrite (Z.mul_comm _ n). lia.
    - assert (n * (4 * 2 ^ 1134) <= n * 2 ^ 1300) by (apply Z.mul_le_mono_nonneg_l; lia). rewrite (Z.mul_comm _ n). rewrite (Z.mul_comm q n) in QC. lia. }
  destruct (db_of_fl_ok _ Vq) as [Vd Nd]. rewrite Nq in Nd.
  destruct (db_sqrt_err _ q Vd Nd QA) as (Vs & s & Ns & S0 & Es).
  assert (Es' : Z.abs (s * s * n - q * 2 ^ 1074 * n) * 281474976710656 <= q * 2 ^ 1074 * n).
  { rewrite <- Z.mul_sub_distr_r, Z.abs_mul, (Z.abs_eq n) by lia.
    replace (Z.abs (s * s - q * 2 ^ 1074) * n * 281474976710656) with (Z.abs (s * s - q * 2 ^ 1074) * 281474976710656 * n) by ring. apply Z.mul_le_mono_nonneg_r; lia. }
  destruct (fl_of_db_err _ s Vs Ns) as (Vr & r & Nr & _ & Er).
  { rewrite Z.abs_eq by exact S0.
    assert (SS : s * s <= 2 * (q * 2 ^ 1074)) by (set (ss := s * s) in *; set (qu := q * 2 ^ 1074) in *; clearbody ss qu; clear - Es; lia).
    apply (root_le _ (2 * (q * 2 ^ 1074)) 1190 2380); auto; [lia| ].
    apply Z.le_trans with (2 * (2 ^ 1300 * 2 ^ 1074)).
    - apply Z.mul_le_mono_nonneg_l; [lia|]. apply Z.mul_le_mono_nonneg_r; lia.
    - rewrite <- Z.pow_add_r by lia. change (2 * 2 ^ (1300 + 1074)) with (2 ^ 1 * 2 ^ (1300 + 1074)). rewrite <- Z.pow_add_r by lia. apply Z.pow_le_mono_r; lia. }
  exists r. split; [exact Nr|].
  rewrite (Z.abs_eq s) in Er by exact S0. change (2 ^ 24) with 16777216 in Er.
  apply (root_close_scaled n D (q * 2 ^ 1074 * n) s r (2 ^ 948)); auto; [apply Z.pow_nonneg; lia|].
  etransitivity; [|exact B1]. rewrite <- Z.pow_add_r by lia. change (948 + 948) with 1896.
  apply Z.le_trans with (1048576 * (2 ^ 1896 * 2 ^ 20)); [apply Z.mul_le_mono_nonneg_l; [lia|]; apply Z.mul_le_mono_nonneg_l; [apply Z.pow_nonneg; lia|change (2 ^ 20) with 1048576; lia]|].
  change 1048576 with (2 ^ 20). rewrite <- !Z.pow_add_r by lia. apply Z.pow_le_mono_r; lia.
Qed.

Theorem deviation_error : forall pow2 e s x n W a, squares_closely pow2 -> 0 < n <= 1048576 -> elements_of s x 4 n W ->
  (forall i, 0 <= i < n -> sf_num (fl_of_bits (W i)) = Some (a i) /\ 0 <= a i) -> 2 ^ 1000 <= sumz n a <= n * 2 ^ 1132 ->
  exists M, Z.abs (M * n - sumz n a) * 8388608 <= (n + 2) * sumz n a
    /\ (2 ^ 2095 <= sumz n (fun i => (a i - M) * (a i - M)) <= n * 2 ^ 2206 ->
        exists r c, sp_standard_deviation pow2 x n e s = Ret r s /\ sf_num r = Some c
          /\ Z.abs (c * c * n - sumz n (fun i => (a i - M) * (a i - M))) * 8388608 <= (n + 7) * sumz n (fun i => (a i - M) * (a i - M))).
Proof.
  intros pow2 e s x n W a HP Hn E Ha HS.
  assert (Hv : forall i, 0 <= i < n -> fl_ok (fl_of_bits (W i))) by (intros i Hi; apply fl_of_bits_ok; exact (element_range _ _ _ _ _ i E Hi)).
  destruct (average_err n (fun i => fl_of_bits (W i)) a Hn) as (M & VM & NM & _ & BM); [|exact HS|].
  { intros i Hi. destruct (Ha i Hi). auto. }
  exists M. split; [exact BM|]. intros HD.
  destruct (float_deviation_err pow2 n (fun i => fl_of_bits (W i)) a M HP Hn) as (c & Nc & Bc); auto.
  { intros i Hi. destruct (Ha i Hi). auto. }
  eexists _, c. split; [|split; [exact Nc|exact Bc]]. apply deviation_exact; auto. lia.
Qed.
