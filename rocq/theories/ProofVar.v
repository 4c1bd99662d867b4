(** * Rounding errors of variances. *)
From Verif Require Import Base ModelFloat ModelDouble SpecBase SpecNum SpecMatrix SpecStat SpecSpectral SpecVar ProofFloat ProofFloat2 ProofErr ProofMatrix ProofFold ProofFilter ProofPca2 ProofSum ProofRoot.
From Coq Require Import Floats.SpecFloat Lia.
Open Scope Z_scope.

Lemma divided_twice R C x c T : 0 < R -> 0 < C -> R * C <= 1048576 -> fl_ok x -> sf_num x = Some c ->
  Z.abs (c - T) * 8388608 <= (R * C + 1) * T -> 2 ^ 1020 <= T <= R * 2 ^ 1133 ->
  exists r, fl_ok (fl_div (fl_div x (fl_of_Z R)) (fl_of_Z C)) /\ sf_num (fl_div (fl_div x (fl_of_Z R)) (fl_of_Z C)) = Some r /\ 0 <= r
    /\ Z.abs (r * (R * C) - T) * 8388608 <= (R * C + 3) * T.
Proof.
  intros HR HC Hn V N E [B1 B2]. remember (R * C) as n eqn:En.
  assert (Hn0 : 0 < n) by (clear - HR HC En; nia). assert (HRn : R <= n) by (clear - HR HC En; nia). assert (HCn : C <= n) by (clear - HR HC En; nia).
  assert (PU : 0 < 2 ^ 994) by (apply pow_pos; lia). assert (PW : 0 < 2 ^ 1133) by (apply pow_pos; lia).
  assert (P1 : 2 ^ 1020 = 67108864 * 2 ^ 994) by (change 1020 with (26 + 994); rewrite Z.pow_add_r by lia; reflexivity).
  assert (P2 : 2 ^ 1134 = 2 * 2 ^ 1133) by (change 1134 with (1 + 1133); rewrite Z.pow_add_r by lia; reflexivity).
  rewrite P1 in B1.
  pose proof (quotient_err x c R V N ltac:(lia)) as D1.
  rewrite P2 in D1.
  assert (HT : 0 < T) by lia.
  assert (L : (n + 1) * T <= 1048577 * T) by (apply Z.mul_le_mono_nonneg_r; lia).
  assert (CT : 3 * T <= 4 * c /\ 4 * c <= 5 * T) by lia.
  destruct D1 as (V1 & q & Nq & Q0 & Eq).
  { replace (R * (2 * 2 ^ 1133)) with (2 * (R * 2 ^ 1133)) by ring. lia. }
  pose proof (quotient_err (fl_div x (fl_of_Z R)) q C V1 Nq ltac:(lia)) as D2. rewrite P2 in D2.
  destruct D2 as (V2 & r & Nr & R0 & Er).
  { split.
    - apply (Z.mul_le_mono_pos_l _ _ R HR). assert (R * 2 ^ 994 <= 1048576 * 2 ^ 994) by (apply Z.mul_le_mono_nonneg_r; lia). lia.
    - apply Z.le_trans with (2 * 2 ^ 1133).
      + apply (Z.mul_le_mono_pos_l _ _ R HR). replace (R * (2 * 2 ^ 1133)) with (2 * (R * 2 ^ 1133)) by ring. lia.
      + rewrite <- (Z.mul_1_l (2 * 2 ^ 1133)) at 1. apply Z.mul_le_mono_nonneg_r; lia. }
  exists r. split; [exact V2|]. split; [exact Nr|]. split; [exact R0|].
  assert (E2 : Z.abs (r * n - q * R) * 16777216 <= q * R).
  { replace (r * n - q * R) with ((r * C - q) * R) by (rewrite En; ring). rewrite Z.abs_mul, (Z.abs_eq R) by lia.
    replace (Z.abs (r * C - q) * R * 16777216) with (Z.abs (r * C - q) * 16777216 * R) by ring. apply Z.mul_le_mono_nonneg_r; lia. }
  replace ((n + 3) * T) with ((n + 1) * T + 2 * T) by ring.
  clear - E2 Eq E CT HT L. lia.
Qed.

(** One addition in double precision kept as a float. *)
Lemma mixed_step E E' k T x c' w' c t : 0 <= k <= 1048576 -> 0 <= T -> 0 <= x -> 0 <= t -> 0 <= E -> E * 8388608 <= k * (T + t) ->
  E' <= E + w' + c' -> w' * 1073741824 <= c + t -> c' * 16777216 <= c + w' + t -> c <= E + T + x -> E' * 8388608 <= (k + 1) * (T + x + t).
Proof.
  intros Hk HT Hx Ht HE H1 H2 H3 H4 H5.
  assert (E * 8 <= T + t). { apply (Z.mul_le_mono_pos_r _ _ 1048576); [lia|]. replace (E * 8 * 1048576) with (E * 8388608) by ring. etransitivity; [exact H1|]. rewrite Z.mul_comm. apply Z.mul_le_mono_nonneg_l; lia. }
  assert (k * (T + t) <= k * (T + x + t)) by (apply Z.mul_le_mono_nonneg_l; lia).
  assert ((k + 1) * (T + x + t) = k * (T + x + t) + (T + x + t)) as -> by ring.
  lia.
Qed.

Definition mixed_sum (n : Z) (q : Z -> sf) : sf := foldz n (fun a i => fl_of_db (db_add (db_of_fl a) (q i))) (fl_of_Z 0).
Lemma mixed_sum_err_gen k48 k80 v a : k48 = 948 -> k80 = 1180 -> forall n, 0 <= n <= 1048576 ->
  (forall i, 0 <= i < n -> db_ok (v i) /\ sf_num (v i) = Some (a i) /\ 0 <= a i) -> sumz n a <= 2 ^ k80 ->
  exists c, fl_ok (mixed_sum n v) /\ sf_num (mixed_sum n v) = Some c /\ 0 <= c
    /\ Z.abs (c - sumz n a) * 8388608 <= n * (sumz n a + 2 ^ k48).
Proof.
  intros E48 E80 n Hn. assert (P48 : 0 < 2 ^ k48) by (apply pow_pos; lia).
  assert (P : 2 ^ k48 <= 2 ^ k80) by (apply Z.pow_le_mono_r; lia).
  assert (P90 : 2 ^ 1190 = 1024 * 2 ^ k80) by (rewrite E80; change 1190 with (10 + 1180); rewrite Z.pow_add_r by lia; reflexivity).
  assert (P20 : 2 ^ 1190 <= 2 ^ 2000) by (apply Z.pow_le_mono_r; lia).
  assert (P52 : 2 ^ 52 <= 2 ^ k48) by (apply Z.pow_le_mono_r; lia). change (2 ^ 52) with 4503599627370496 in P52.
  destruct Hn as [H0 Hn]. revert Hn. pattern n. apply natlike_ind; [| |exact H0].
  - intros _ _ _. exists 0. split; [reflexivity|]. split; [reflexivity|]. rewrite sumz_0. cbn. lia.
  - intros k Hk IH Hn Hv HB. unfold Z.succ in *. rewrite !sumz_S in * by lia.
    destruct (Hv k ltac:(lia)) as (Vk & Nk & Ak).
    assert (TN : 0 <= sumz k a) by (apply sumz_nonneg; [lia|]; intros i Hi; apply Hv; lia).
    destruct IH as (c & Vc & Nc & C0 & Ec); [lia|intros; apply Hv; lia|lia|].
    set (T := sumz k a) in *. clearbody T.
    assert (L : Z.abs (c - T) * 8 <= T + 2 ^ k48).
    { apply (Z.mul_le_mono_pos_r _ _ 1048576); [lia|]. replace (Z.abs (c - T) * 8 * 1048576) with (Z.abs (c - T) * 8388608) by ring. etransitivity; [exact Ec|]. rewrite Z.mul_comm. apply Z.mul_le_mono_nonneg_l; lia. }
    destruct (db_of_fl_ok _ Vc) as [Vd Nd]. rewrite Nc in Nd.
    assert (ES : mixed_sum (k + 1) v = fl_of_db (db_add (db_of_fl (mixed_sum k v)) (v k))) by (unfold mixed_sum; now rewrite foldz_S).
    rewrite ES. set (r := mixed_sum k v) in *. clearbody r. clear ES Hv.
    destruct (db_add_err (db_of_fl r) (v k) c (a k) Vd Vk Nd Nk) as (Vw & w & Nw & W0 & Ew).
    { etransitivity; [|exact P20]. rewrite P90. clear - L HB P C0 Ak P48 TN. lia. }
    change (2 ^ 53) with 9007199254740992 in Ew. change (2 ^ 52) with 4503599627370496 in Ew. specialize (W0 ltac:(lia)).
    rewrite (Z.abs_eq (c + a k)) in Ew by lia.
    destruct (fl_of_db_err _ w Vw Nw) as (V' & c' & N' & C1 & E').
    { rewrite P90. clear - L HB P C0 Ak P48 TN Ew W0 P52. lia. }
    change (2 ^ 24) with 16777216 in E'. replace (2 ^ 948) with (2 ^ k48) in E' by (now rewrite E48). rewrite (Z.abs_eq w) in E' by lia.
    exists c'. split; [exact V'|]. split; [exact N'|]. split; [apply C1; lia|].
    set (t := 2 ^ k48) in *. clearbody t.
    apply (mixed_step (Z.abs (c - T)) _ k T (a k) (Z.abs (c' - w)) (Z.abs (w - (c + a k))) (c + a k)); clear - Hk Hn TN Ak P48 Ec L Ew E' W0 P52 C0; lia.
Qed.
Lemma mixed_sum_err n v a : 0 < n <= 1048576 ->
  (forall i, 0 <= i < n -> db_ok (v i) /\ sf_num (v i) = Some (a i) /\ 0 <= a i) -> 2 ^ 1000 <= sumz n a <= 2 ^ 1180 ->
  exists c, fl_ok (mixed_sum n v) /\ sf_num (mixed_sum n v) = Some c /\ Z.abs (c - sumz n a) * 8388608 <= (n + 1) * sumz n a.
Proof.
  intros Hn Hv [B1 B2]. destruct (mixed_sum_err_gen 948 1180 v a eq_refl eq_refl n ltac:(lia) Hv B2) as (c & V & N & _ & E).
  exists c. split; [exact V|]. split; [exact N|]. etransitivity; [exact E|].
  assert (P : 2 ^ 1000 = 4503599627370496 * 2 ^ 948) by (change 1000 with (52 + 948); rewrite Z.pow_add_r by lia; reflexivity).
  rewrite P in B1. assert (P0 : 0 < 2 ^ 948) by (apply pow_pos; lia). clear P E V N B2. set (t := 2 ^ 948) in *. clearbody t.
  assert (n * t <= 1048576 * t) by (apply Z.mul_le_mono_nonneg_r; lia).
  replace ((n + 1) * sumz n a) with (n * sumz n a + sumz n a) by ring. rewrite Z.mul_add_distr_l. lia.
Qed.

Lemma variance_term pow2 x y a b : squares_closely pow2 -> fl_ok x -> fl_ok y -> sf_num x = Some a -> sf_num y = Some b -> (a - b) * (a - b) <= 2 ^ 2250 ->
  exists p, db_ok (pow2 (db_of_fl (fl_sub x y))) /\ sf_num (pow2 (db_of_fl (fl_sub x y))) = Some p /\ 0 <= p
    /\ Z.abs (p * 2 ^ 1074 - (a - b) * (a - b)) * 16777216 <= 4 * ((a - b) * (a - b)) + 2 * 2 ^ 2022.
Proof.
  intros HP Vx Vy Na Nb B. set (d := a - b) in *.
  assert (L : Z.abs d <= 2 ^ 1125). { apply (root_le _ (d * d) _ 2250); try lia. }
  destruct (fl_sub_err x y a b Vx Vy Na Nb) as (Ve & e & Ne & Ee).
  { fold d. etransitivity; [exact L|]. apply Z.pow_le_mono_r; lia. }
  fold d in Ee. change (2 ^ 24) with 16777216 in Ee.
  assert (P0 : 0 <= 2 ^ 948) by (apply Z.pow_nonneg; lia).
  assert (P1 : 2 ^ 1896 = 2 ^ 948 * 2 ^ 948) by (apply two_pow; lia).
  assert (P3 : 2 ^ 2255 = 32 * 2 ^ 2250) by (change 32 with (2 ^ 5); apply two_pow; lia).
  pose proof (square_off d e (2 ^ 948) P0 Ee) as Q. rewrite <- P1 in Q.
  assert (P5 : 0 < 2 ^ 1896) by (apply pow_pos; lia).
  assert (T1 : 8 * 2 ^ 1896 <= 2 ^ 2022) by (change 8 with (2 ^ 3); rewrite <- Z.pow_add_r by lia; apply Z.pow_le_mono_r; lia).
  assert (T2 : 2 ^ 2022 <= 2 ^ 2250) by (apply Z.pow_le_mono_r; lia).
  assert (D0 : 0 <= d * d) by apply Z.square_nonneg. assert (E0 : 0 <= e * e) by apply Z.square_nonneg.
  destruct (HP _ e Ve Ne) as (Vp & p & Np & Pp & Ep).
  { rewrite P3. set (ee := e * e) in *. set (dd := d * d) in *. clearbody ee dd.
    set (w := 2 ^ 2250) in *. set (w2 := 2 ^ 1896) in *. set (w3 := 2 ^ 2022) in *. clearbody w w2 w3. clear - Q B T1 T2 P5 D0. lia. }
  exists p. split; [exact Vp|]. split; [exact Np|]. split; [exact Pp|].
  set (ee := e * e) in *. set (dd := d * d) in *. clearbody ee dd. set (w2 := 2 ^ 1896) in *. set (w3 := 2 ^ 2022) in *. clearbody w2 w3. set (pu := p * 2 ^ 1074) in *. clearbody pu.
  clear - Q Ep T1 P5 D0 E0. lia.
Qed.

Theorem float_variance_err : forall pow2 R C v a M, squares_closely pow2 -> 0 < R -> 0 < C -> R * C <= 1048576 ->
  (forall i, 0 <= i < R * C -> fl_ok (v i) /\ sf_num (v i) = Some (a i)) -> fl_ok (float_mean R C v) -> sf_num (float_mean R C v) = Some M ->
  2 ^ 2095 <= sumz (R * C) (fun i => (M - a i) * (M - a i)) <= R * 2 ^ 2206 ->
  exists r, sf_num (float_variance pow2 R C v) = Some r
    /\ Z.abs (r * (R * C) * 2 ^ 1074 - sumz (R * C) (fun i => (M - a i) * (M - a i))) * 8388608 <= (R * C + 6) * sumz (R * C) (fun i => (M - a i) * (M - a i)).
Proof.
  intros pow2 R C v a M HP HR HC Hn Hv Vm Nm [B1 B2].
  assert (Hn0 : 0 < R * C) by (clear - HR HC; nia). assert (HRn : R <= R * C) by (clear - HR HC; nia).
  set (mu := float_mean R C v) in *.
  assert (P26 : 2 ^ 2226 = 1048576 * 2 ^ 2206) by (change 1048576 with (2 ^ 20); apply two_pow; lia).
  assert (P06 : 0 < 2 ^ 2206) by (apply pow_pos; lia).
  assert (LD : sumz (R * C) (fun i => (M - a i) * (M - a i)) <= 2 ^ 2250).
  { etransitivity; [exact B2|]. apply Z.le_trans with (2 ^ 2226); [rewrite P26; apply Z.mul_le_mono_nonneg_r; lia|apply Z.pow_le_mono_r; lia]. }
  assert (Ht : forall i, 0 <= i < R * C -> exists p, db_ok (pow2 (db_of_fl (fl_sub mu (v i)))) /\ sf_num (pow2 (db_of_fl (fl_sub mu (v i)))) = Some p /\ 0 <= p
      /\ Z.abs (p * 2 ^ 1074 - (M - a i) * (M - a i)) * 16777216 <= 4 * ((M - a i) * (M - a i)) + 2 * 2 ^ 2022).
  { intros i Hi. destruct (Hv i Hi) as (H1 & H2). apply variance_term; auto.
    etransitivity; [|exact LD]. apply (sumz_member (R * C) (fun i => (M - a i) * (M - a i))); auto. intros. apply Z.square_nonneg. }
  set (p := fun i => match sf_num (pow2 (db_of_fl (fl_sub mu (v i)))) with Some z => z | None => 0 end).
  assert (Hp : forall i, 0 <= i < R * C -> db_ok (pow2 (db_of_fl (fl_sub mu (v i)))) /\ sf_num (pow2 (db_of_fl (fl_sub mu (v i)))) = Some (p i) /\ 0 <= p i
      /\ Z.abs (p i * 2 ^ 1074 - (M - a i) * (M - a i)) * 16777216 <= 4 * ((M - a i) * (M - a i)) + 2 * 2 ^ 2022).
  { intros i Hi. destruct (Ht i Hi) as (z & H1 & H2 & H3 & H4). unfold p. rewrite H2. auto. }
  clearbody p. clear Ht.
  pose proof (sum_close (R * C) p (fun i => (M - a i) * (M - a i)) (2 ^ 2022) (2 ^ 1074) ltac:(lia) ltac:(intros i Hi; apply Hp, Hi)) as SC. cbv beta in SC.
  set (D := sumz (R * C) (fun i => (M - a i) * (M - a i))) in *. clearbody D.
  assert (PU : 0 < 2 ^ 1074) by (apply pow_pos; lia).
  assert (P22 : 0 < 2 ^ 2022) by (apply pow_pos; lia).
  assert (P95 : 2 ^ 2095 = 2 ^ 73 * 2 ^ 2022) by (apply two_pow; lia).
  assert (HD : 0 < D) by (assert (0 < 2 ^ 2095) by (apply pow_pos; lia); lia).
  assert (SC5 : Z.abs (sumz (R * C) p * 2 ^ 1074 - D) * 16777216 <= 5 * D).
  { etransitivity; [exact SC|]. assert (2 * 2 ^ 2022 * (R * C) <= 2 * 2 ^ 2022 * 1048576) by (apply Z.mul_le_mono_nonneg_l; lia). rewrite P95 in B1.
    change (2 ^ 73) with 9444732965739290427392 in B1. set (w := 2 ^ 2022) in *. clearbody w. clear - H B1 P22. lia. }
  clear SC.
  assert (S12 : 2 ^ 1020 <= sumz (R * C) p <= 2 * (R * 2 ^ 1132)).
  { apply (sum_limits _ D (2 ^ 1074) _ _ D PU); auto.
    - apply Z.mul_pos_pos; [lia|apply pow_pos; lia].
    - rewrite <- Z.mul_assoc. rewrite <- (Z.pow_add_r 2 1132 1074) by lia. exact B2. }
  destruct S12 as [S1 S2].
  assert (P33 : 2 * (R * 2 ^ 1132) = R * 2 ^ 1133) by (rewrite (two_pow 1133 1 1132) by lia; change (2 ^ 1) with 2; ring). rewrite P33 in S2.
  assert (S3 : sumz (R * C) p <= 2 ^ 1180).
  { etransitivity; [exact S2|]. apply Z.le_trans with (2 ^ 20 * 2 ^ 1133); [apply Z.mul_le_mono_nonneg_r; [apply Z.pow_nonneg; lia|change (2 ^ 20) with 1048576; lia]|].
    rewrite <- Z.pow_add_r by lia. apply Z.pow_le_mono_r; lia. }
  assert (S4 : 2 ^ 1000 <= sumz (R * C) p) by (etransitivity; [|exact S1]; apply Z.pow_le_mono_r; lia).
  destruct (mixed_sum_err (R * C) (fun i => pow2 (db_of_fl (fl_sub mu (v i)))) p ltac:(lia)) as (c & Vc & Nc & Ec).
  { intros i Hi. destruct (Hp i Hi) as (H1 & H2 & H3 & _). auto. }
  { split; [exact S4|exact S3]. }
  destruct (divided_twice R C _ c (sumz (R * C) p) HR HC Hn Vc Nc Ec ltac:(split; [exact S1|exact S2])) as (r & _ & Nr & R0 & Er).
  exists r. split; [exact Nr|].
  set (n := R * C) in *. clearbody n.
  assert (Er' : Z.abs (r * n * 2 ^ 1074 - sumz n p * 2 ^ 1074) * 8388608 <= (n + 3) * (sumz n p * 2 ^ 1074)).
  { rewrite <- Z.mul_sub_distr_r, Z.abs_mul, (Z.abs_eq (2 ^ 1074)) by lia.
    replace (Z.abs (r * n - sumz n p) * 2 ^ 1074 * 8388608) with (Z.abs (r * n - sumz n p) * 8388608 * 2 ^ 1074) by ring. rewrite Z.mul_assoc. apply Z.mul_le_mono_nonneg_r; lia. }
  set (cu := r * n * 2 ^ 1074) in *. set (su := sumz n p * 2 ^ 1074) in *. clearbody cu su. clear - Hn Hn0 SC5 Er' HD.
  assert ((n + 3) * (su - D) <= 1048579 * Z.abs (su - D)). { apply Z.le_trans with ((n + 3) * Z.abs (su - D)); [apply Z.mul_le_mono_nonneg_l; lia|apply Z.mul_le_mono_nonneg_r; lia]. }
  replace ((n + 3) * su) with ((n + 3) * D + (n + 3) * (su - D)) in Er' by ring. replace ((n + 6) * D) with ((n + 3) * D + 3 * D) by ring. lia.
Qed.
