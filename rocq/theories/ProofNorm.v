(** * Proofs: normalisation, the arithmetic. *)
From Verif Require Import Base ModelCore ModelFloat ModelDouble ModelConv SpecBase SpecNum SpecMatrix SpecStat SpecNorm.
From Verif Require Import Logic ProofFloat ProofFloat2 ProofDiv ProofErr ProofConv ProofGrad ProofStat ProofFold ProofMatrix.
From Coq Require Import Floats.SpecFloat Lia ZifyBool ZifyNat.
Open Scope Z_scope.

(** A quotient of positive numbers below 2^22: its error, and none for half integers. *)
Lemma div_err_gen prec emax kh ku x y a b : 24 <= prec -> prec + 100 < emax -> -1074 <= 3 - emax - prec -> emax <= 1024 -> kh = 100 -> ku = 1074 ->
  valid_binary prec emax x = true -> valid_binary prec emax y = true -> sf_num x = Some a -> sf_num y = Some b -> 0 < a -> 0 < b ->
  b <= a * 2 ^ kh -> a <= b * 2 ^ 22 ->
  valid_binary prec emax (SFdiv prec emax x y) = true /\ exists c, sf_num (SFdiv prec emax x y) = Some c /\ 0 <= c
    /\ Z.abs (c * b - a * 2 ^ ku) * 2 ^ prec <= a * 2 ^ ku
    /\ (forall w, 2 * a = w * b -> 2 * c = w * 2 ^ ku).
Proof.
  intros Hp He He3 He4 E1h Eu Vx Vy Na Nb Ha Hb Hlo Hhi.
  destruct (SFdiv_num prec emax ltac:(clear - Hp; lia) ltac:(clear - Hp He; lia) ltac:(clear - He3; lia) ltac:(clear - He4; lia) x y a b Vx Vy Na Nb ltac:(clear - Ha; lia) ltac:(clear - Hb; lia)) as (g & F1 & F2 & [G1 G2] & R).
  { rewrite !Z.abs_eq by (clear - Ha Hb; lia). etransitivity; [exact Hlo|]. apply Z.mul_le_mono_nonneg_l; [clear - Ha; lia|]. apply Z.pow_le_mono_r; clear - E1h He Hp; unfold emin; lia. }
  remember 4000 as k4 eqn:E4. assert (E29 : exists k29, k29 = 2926) by eauto. destruct E29 as [k29 E29].
  rewrite !Z.abs_eq in * by (clear - Ha Hb; lia). replace (a <? 0) with false in R by (clear - Ha; lia). replace (b <? 0) with false in R by (clear - Hb; lia).
  cbn [xorb] in R.
  assert (Hg1 : g <= 23).
  { destruct (Z_le_gt_dec g 23) as [|g0]; auto. exfalso.
    assert (b * 2 ^ (23 + k4) <= b * 2 ^ (g - 1 + k4)) by (apply Z.mul_le_mono_nonneg_l; [clear - Hb; lia|]; apply Z.pow_le_mono_r; clear - g0 E4; lia).
    assert (P1 : 2 ^ (23 + k4) = 2 * (2 ^ 22 * 2 ^ k4)). { rewrite <- Z.pow_add_r by (clear - E4; lia). rewrite <- Z.pow_succ_r by (clear - E4; lia). f_equal. clear; lia. }
    rewrite P1 in H. exact (too_high a b (2 ^ 22) (2 ^ k4) _ Hb (pow_pos 22 ltac:(clear; lia)) (pow_pos k4 ltac:(clear - E4; lia)) H G1 Hhi). }
  assert (Hg0 : -101 <= g).
  { destruct (Z_le_gt_dec (-101) g) as [|g0]; auto. exfalso.
    assert (b * 2 ^ (g + k4) <= b * 2 ^ (-102 + k4)) by (apply Z.mul_le_mono_nonneg_l; [clear - Hb; lia|]; apply Z.pow_le_mono_r; clear - g0 E4; lia).
    assert (P1 : 2 ^ k4 = 4 * (2 ^ kh * 2 ^ (-102 + k4))).
    { change 4 with (2 ^ 2). rewrite <- !Z.pow_add_r by (clear - E4 E1h; lia). f_equal. clear - E1h; lia. }
    rewrite P1 in G2. exact (too_low a b (2 ^ kh) (2 ^ (-102 + k4)) _ Ha Hb (pow_pos kh ltac:(clear - E1h; lia)) (pow_pos (-102 + k4) ltac:(clear - E4; lia)) H G2 Hlo). }
  clear Hlo Hhi.
  assert (Ef : fexp prec emax g = g - prec) by (clear - Hg0 Hp He; unfold fexp, emin; lia). rewrite Ef in *. clear Ef F1 F2.
  assert (Hgp : 0 <= g - prec + ku) by (clear - Hg0 He3 Hp He He4 Eu; lia).
  assert (E1 : b * 2 ^ (g + k4) = 2 * (b * 2 ^ (g - 1 + k4))).
  { replace (g + k4) with (Z.succ (g - 1 + k4)) by (clear; lia). rewrite Z.pow_succ_r by (clear - Hg0 E4; lia). clear; ring. }
  assert (ED : b * 2 ^ (g - prec + k4) * 2 ^ prec = b * 2 ^ (g + k4)).
  { rewrite <- Z.mul_assoc, <- Z.pow_add_r by (clear - Hgp E4 Eu Hp; lia). do 2 f_equal. clear; lia. }
  assert (S1 : 2 ^ k4 = 2 ^ ku * 2 ^ k29) by (rewrite <- Z.pow_add_r by (clear - Eu E29; lia); f_equal; clear - E4 Eu E29; lia).
  assert (S2 : 2 ^ (g - prec + k4) = 2 ^ (g - prec + ku) * 2 ^ k29) by (rewrite <- Z.pow_add_r by (clear - Hgp E29; lia); f_equal; clear - E4 Eu E29; lia).
  assert (S3 : 2 ^ ku = 2 * (2 ^ (prec - 1 - g) * 2 ^ (g - prec + ku))).
  { rewrite <- Z.pow_add_r by (clear - Hgp Hg1 Hp; lia). rewrite <- Z.pow_succ_r by (clear - Hgp Hg1 Hp Eu; lia). f_equal. clear; lia. }
  assert (P4 : 0 < 2 ^ k4) by (apply pow_pos; clear - E4; lia). assert (PK : 0 < 2 ^ k29) by (apply pow_pos; clear - E29; lia).
  assert (PG : 0 < 2 ^ (g - prec + ku)) by (apply pow_pos; exact Hgp). assert (PP : 0 < 2 ^ prec) by (apply pow_pos; clear - Hp; lia).
  assert (PF : 2 ^ prec * 2 ^ (g - prec + ku) < 2 ^ (emax + ku)).
  { rewrite <- Z.pow_add_r by (clear - Hgp Hp; lia). apply Z.pow_lt_mono_r; clear - Hg0 Hg1 He Hp Eu; lia. }
  assert (HD : 0 < b * 2 ^ (g - prec + k4)) by (apply Z.mul_pos_pos; [exact Hb|apply pow_pos; clear - Hgp E4 Eu; lia]).
  destruct (rne_nearest (a * 2 ^ k4) _ HD) as [N _].
  assert (Q0 : 0 <= rne (a * 2 ^ k4) (b * 2 ^ (g - prec + k4)) <= 2 ^ prec).
  { apply (rne_bounds _ _ 0 (2 ^ prec)); auto. rewrite (Z.mul_comm (2 ^ prec)), ED. rewrite Z.mul_0_l.
    split; [apply Z.mul_nonneg_nonneg; apply Z.lt_le_incl; assumption|apply Z.lt_le_incl; exact G2]. }
  assert (QE : forall w, 2 * a = w * b -> rne (a * 2 ^ k4) (b * 2 ^ (g - prec + k4)) = w * 2 ^ (prec - 1 - g)).
  { intros w Hw. rewrite <- (rne_exact (w * 2 ^ (prec - 1 - g)) (b * 2 ^ (g - prec + k4)) HD). f_equal.
    rewrite S1, S2. clear - S3 Hw. apply (Z.mul_reg_l _ _ 2); [lia|].
    transitivity (2 * a * (2 ^ ku * 2 ^ k29)); [ring|]. rewrite Hw, S3. ring. }
  set (q := rne (a * 2 ^ k4) (b * 2 ^ (g - prec + k4))) in *. clearbody q.
  rewrite S2 in *. clear S2. rewrite S1 in *. clear S1. unfold rounds in R. rewrite <- Eu in R.
  generalize dependent (2 ^ (g - prec + ku)). generalize dependent (2 ^ (g + k4)). generalize dependent (2 ^ (g - 1 + k4)). generalize dependent (2 ^ (prec - 1 - g)).
  generalize dependent (2 ^ k29). generalize dependent (2 ^ (emax + ku)). generalize dependent (2 ^ ku). generalize dependent (2 ^ prec).
  clear E4 E1h Eu E29 Hgp.
  intros PR PP Q0 U M K P4 PK H23 QE X G1 Y G2 E1 G R ED S3 PG PF HD N.
  assert (Fin : q * G < M).
  { apply Z.le_lt_trans with (PR * G); auto. apply Z.mul_le_mono_nonneg_r; [clear - PG; lia|exact (proj2 Q0)]. }
  replace (q * G <? M) with true in R by (clear - Fin; lia). cbn [cond_Zopp] in R.
  destruct R as (V & Nx & _). split; auto. exists (q * G). split; auto.
  split; [apply Z.mul_nonneg_nonneg; clear - PG Q0; lia|].
  split; [|intros w Hw; rewrite (QE w Hw), S3; clear; ring].
  apply (Z.mul_le_mono_pos_r _ _ K PK).
  replace (Z.abs (q * G * b - a * U) * PR * K) with (Z.abs (a * (U * K) - q * (b * (G * K))) * PR).
  2:{ assert (EA : Z.abs (q * G * b - a * U) * K = Z.abs (a * (U * K) - q * (b * (G * K)))).
      { transitivity (Z.abs ((q * G * b - a * U) * K)).
        - rewrite Z.abs_mul, (Z.abs_eq K) by (clear - PK; lia). reflexivity.
        - rewrite <- Z.abs_opp. f_equal. clear; ring. }
      rewrite <- EA. clear; ring. }
  rewrite <- Z.mul_assoc. set (err := Z.abs (a * (U * K) - q * (b * (G * K)))) in *. clearbody err.
  set (D := b * (G * K)) in *. clearbody D.
  apply Z.le_trans with (b * X); [|exact G1]. apply (Z.mul_le_mono_pos_l _ _ 2); [clear; lia|]. rewrite <- E1, <- ED.
  replace (2 * (err * PR)) with (2 * err * PR) by (clear; ring). apply Z.mul_le_mono_nonneg_r; [clear - PP; lia|exact N].
Qed.
Lemma fl_div_err x y a b : fl_ok x -> fl_ok y -> sf_num x = Some a -> sf_num y = Some b -> 0 < a -> 0 < b ->
  b <= a * 2 ^ 100 -> a <= b * 2 ^ 22 ->
  fl_ok (fl_div x y) /\ exists c, sf_num (fl_div x y) = Some c /\ 0 <= c
    /\ Z.abs (c * b - a * 2 ^ 1074) * 2 ^ 24 <= a * 2 ^ 1074
    /\ (forall w, 2 * a = w * b -> 2 * c = w * 2 ^ 1074).
Proof. exact (div_err_gen 24 128 100 1074 x y a b ltac:(clear; lia) ltac:(clear; lia) ltac:(clear; lia) ltac:(clear; lia) eq_refl eq_refl). Qed.

(** A value close enough to N/m rounds like N/m. *)
Lemma near_round m N c z U : 0 < m -> 0 < U -> nearest_even N m z -> (2 * Z.abs (N - z * m) = m -> c * m = N * U) ->
  2 * Z.abs (c * m - N * U) < U -> nearest_even c U z.
Proof.
  intros Hm HU [A B] HT HE. assert (AM : forall u, Z.abs (u * m) = Z.abs u * m) by (intros; rewrite Z.abs_mul, (Z.abs_eq m); lia).
  assert (AU : forall u, Z.abs (u * U) = Z.abs u * U) by (intros; rewrite Z.abs_mul, (Z.abs_eq U); lia).
  assert (EQ : (c - z * U) * m = (c * m - N * U) + (N - z * m) * U) by ring.
  destruct (Z.eq_dec (2 * Z.abs (N - z * m)) m) as [Tie|No].
  - specialize (HT Tie). rewrite HT, Z.sub_diag, Z.add_0_l in EQ.
    assert (2 * Z.abs (c - z * U) = U).
    { apply (Z.mul_reg_r _ _ m); [lia|]. rewrite <- Z.mul_assoc, <- AM, EQ, AU. rewrite <- Tie at 2. ring. }
    split; [lia|]. intros _. now apply B.
  - assert (L : 2 * Z.abs (c - z * U) * m < U * m).
    { rewrite <- Z.mul_assoc, <- AM, EQ. pose proof (Z.abs_triangle (c * m - N * U) ((N - z * m) * U)) as T. rewrite AU in T.
      assert (2 * (Z.abs (N - z * m) * U) <= (m - 1) * U) by (clear - HU A No; nia). lia. }
    assert (2 * Z.abs (c - z * U) < U) by (clear - L Hm; nia). split; lia.
Qed.

(** Quotients of integers. *)
Lemma fint_div x y n m : fint x n -> fint y m -> 0 <= n < 4194304 -> 0 < m <= 16777216 ->
  fl_ok (fl_div x y) /\ exists c, sf_num (fl_div x y) = Some c /\ 0 <= c
    /\ Z.abs (c * m - n * sf_one) * 2 ^ 24 <= n * sf_one /\ (forall w, 2 * n = w * m -> 2 * c = w * sf_one).
Proof.
  intros X Y Hn Hm. pose proof sf_one_pos as HU. destruct (Z.eq_dec n 0) as [->|Hn0].
  - destruct (div_int 24 128 ltac:(lia) ltac:(lia) ltac:(lia) ltac:(lia) x y 0 m 0 X Y ltac:(lia) ltac:(lia) ltac:(lia)) as [V N].
    change (SFdiv 24 128 x y) with (fl_div x y) in *. split; auto. exists 0. split; auto. split; [lia|]. split; [lia|]. intros w Hw. assert (w = 0) by nia. subst. lia.
  - destruct X as [Vx Nx], Y as [Vy Ny].
    destruct (fl_div_err x y (n * sf_one) (m * sf_one) Vx Vy Nx Ny ltac:(nia) ltac:(nia)) as (V & c & Nc & C0 & E & T).
    + assert (m <= n * 2 ^ 100) by (change (2 ^ 100) with 1267650600228229401496703205376; lia). nia.
    + change (2 ^ 22) with 4194304. nia.
    + split; auto. exists c. split; auto. split; auto. rewrite <- sf_one_eq in *. split.
      * apply (Z.mul_le_mono_pos_r _ _ sf_one HU). replace (Z.abs (c * m - n * sf_one) * 2 ^ 24 * sf_one) with (Z.abs (c * (m * sf_one) - n * sf_one * sf_one) * 2 ^ 24); [exact E|].
        replace (c * (m * sf_one) - n * sf_one * sf_one) with ((c * m - n * sf_one) * sf_one) by ring. rewrite Z.abs_mul, (Z.abs_eq sf_one) by lia. ring.
      * intros w Hw. apply T. nia.
Qed.

(** Rounding the quotient gives the nearest integer. *)
Lemma quotient_rounds x y n m z : fint x n -> fint y m -> 0 <= n < 4194304 -> 0 < m <= 16777216 -> nearest_even n m z ->
  saturate_cast_float2uchar (fl_div x y) = clamp 0 255 z.
Proof.
  intros X Y Hn Hm Hz. destruct (fint_div x y n m X Y Hn Hm) as (V & c & N & C0 & E & T). pose proof sf_one_pos as HU.
  apply (saturate_ok _ c); auto. apply (near_round m n c z sf_one); auto; try lia.
  - intros Tie. assert (HW : exists w, 2 * n = w * m).
    { destruct (Z.abs_spec (n - z * m)) as [[_ A]|[_ A]]; rewrite A in Tie; [exists (2 * z + 1)|exists (2 * z - 1)]; lia. }
    destruct HW as [w Hw]. specialize (T w Hw). nia.
  - change (2 ^ 24) with 16777216 in E. set (err := Z.abs (c * m - n * sf_one)) in *. clearbody err. nia.
Qed.

Lemma half_exact A w x c : 2 * A = w * sf_one -> Z.abs w <= 16777216 -> rounded 24 128 1074 A x -> sf_num x = Some c -> c = A.
Proof.
  intros EA Hw R N.
  assert (HS : sf_one = 2 * 2 ^ 1073) by (rewrite sf_one_eq; rewrite <- Z.pow_succ_r by (clear; lia); f_equal; clear; lia).
  assert (EX : A = w * 2 ^ (-1 + 1074)).
  { change (-1 + 1074) with 1073. rewrite HS in EA. generalize dependent (2 ^ 1073). clear. intros z; intros; lia. }
  destruct (rounded_exact 24 128 1074 A w (-1) x ltac:(clear; lia) ltac:(clear; lia) ltac:(clear; lia) ltac:(clear; unfold emin; lia) ltac:(clear; unfold emin; lia) EX Hw) as [_ XX]; auto.
  - apply Z.le_lt_trans with (2 ^ 24 * 2 ^ (-1 + 1074)).
    + apply Z.mul_le_mono_nonneg_r; [apply Z.pow_nonneg; clear; lia|exact Hw].
    + rewrite <- Z.pow_add_r by (clear; lia). apply Z.pow_lt_mono_r; clear; lia.
  - rewrite N in XX. rewrite EX. congruence.
Qed.
Lemma big_facts : exists B K, B = 2 ^ 1190 /\ K = 2 ^ 948 /\ 8388608 * sf_one <= B /\ K * 1152921504606846976 <= sf_one /\ 0 <= K.
Proof.
  exists (2 ^ 1190), (2 ^ 948). split; [reflexivity|]. split; [reflexivity|]. rewrite sf_one_eq.
  change 8388608 with (2 ^ 23). change 1152921504606846976 with (2 ^ 60). rewrite <- !Z.pow_add_r by (clear; lia).
  split; [apply Z.pow_le_mono_r; clear; lia|]. split; [apply Z.pow_le_mono_r; clear; lia|apply Z.pow_nonneg; clear; lia].
Qed.

(** The same with an integer added to the quotient. *)
Lemma shifted_rounds x y a n m k z : fint x n -> fint y m -> fint a k -> 0 <= n <= 510 * m -> 0 < m <= 4096 -> Z.abs k <= 255 ->
  nearest_even (n + k * m) m z -> saturate_cast_float2uchar (fl_add (fl_div x y) a) = clamp 0 255 z.
Proof.
  intros X Y Ak Hn Hm Hk Hz. destruct (fint_div x y n m X Y ltac:(lia) ltac:(lia)) as (V & c & N & C0 & E & T). pose proof sf_one_pos as HU.
  change (2 ^ 24) with 16777216 in E.
  assert (Ec : c * m <= n * sf_one + n * sf_one) by lia.
  assert (Bc : c <= 1020 * sf_one).
  { apply (Z.mul_le_mono_pos_r _ _ m); [lia|]. assert (n * sf_one <= 510 * m * sf_one) by (apply Z.mul_le_mono_nonneg_r; lia). lia. }
  destruct Ak as [Va Na].
  assert (P3 : Z.abs (k * sf_one) <= 255 * sf_one) by (rewrite Z.abs_mul, (Z.abs_eq sf_one) by lia; apply Z.mul_le_mono_nonneg_r; lia).
  pose proof (fl_add_err (fl_div x y) a c (k * sf_one) V Va N Na) as FE.
  destruct big_facts as (B & K & EB & EK & P1 & P2 & P0). rewrite <- EB, <- EK in FE. clear EB EK.
  destruct (FE ltac:(lia)) as (V2 & c2 & N2 & _ & E2). clear FE. change (2 ^ 24) with 16777216 in E2.
  apply (saturate_ok _ c2); auto. apply (near_round m (n + k * m) c2 z sf_one); auto; try lia.
  - intros Tie. assert (HW : exists w, 2 * n = w * m).
    { destruct (Z.abs_spec (n + k * m - z * m)) as [[_ A]|[_ A]]; rewrite A in Tie; [exists (2 * z + 1 - 2 * k)|exists (2 * z - 1 - 2 * k)]; lia. }
    destruct HW as [w Hw]. specialize (T w Hw).
    (* the sum is a half integer, hence exact *)
    pose proof (SFadd_num 24 128 ltac:(lia) ltac:(lia) ltac:(lia) (fl_div x y) a c (k * sf_one) V Va N Na) as R.
    assert (Wb : 0 <= w <= 1020) by (clear - Hw Hn Hm; nia).
    pose proof (half_exact (c + k * sf_one) (w + 2 * k) (fl_add (fl_div x y) a) c2 ltac:(clear - T; lia) ltac:(clear - Wb Hk; lia) R N2) as ->. clear - T Hw. nia.
  - assert (B1 : Z.abs (c2 * m - (n + k * m) * sf_one) <= Z.abs (c2 - (c + k * sf_one)) * m + Z.abs (c * m - n * sf_one)).
    { replace (c2 * m - (n + k * m) * sf_one) with ((c2 - (c + k * sf_one)) * m + (c * m - n * sf_one)) by ring.
      pose proof (Z.abs_triangle ((c2 - (c + k * sf_one)) * m) (c * m - n * sf_one)) as TR. rewrite Z.abs_mul, (Z.abs_eq m) in TR by lia. exact TR. }
    set (e1 := Z.abs (c2 - (c + k * sf_one))) in *. set (e2 := Z.abs (c * m - n * sf_one)) in *.
    assert (e1 * 16777216 <= 1276 * sf_one) by lia.
    assert (e1 * m <= e1 * 4096) by (apply Z.mul_le_mono_nonneg_l; unfold e1; lia).
    assert (n * sf_one <= 510 * 4096 * sf_one) by (apply Z.mul_le_mono_nonneg_r; lia).
    lia.
Qed.

Lemma db_div_half x y a b : db_ok x -> db_ok y -> sf_num x = Some a -> sf_num y = Some b -> 0 < a -> 0 < b ->
  b <= a * 2 ^ 100 -> a <= b * 2 ^ 22 ->
  db_ok (db_div x y) /\ exists c, sf_num (db_div x y) = Some c /\ 0 <= c
    /\ Z.abs (c * b - a * 2 ^ 1074) * 2 ^ 53 <= a * 2 ^ 1074
    /\ (forall w, 2 * a = w * b -> 2 * c = w * 2 ^ 1074).
Proof. exact (div_err_gen 53 1024 100 1074 x y a b ltac:(clear; lia) ltac:(clear; lia) ltac:(clear; lia) ltac:(clear; lia) eq_refl eq_refl). Qed.

(** A quotient of integers in double precision, rounded to single precision. *)
Lemma double_quotient x y n m z : fint x n -> isint 53 1024 y m -> 0 <= n < 4194304 -> 0 < m <= 16777216 -> nearest_even n m z ->
  saturate_cast_float2uchar (fl_of_db (db_div (db_of_fl x) y)) = clamp 0 255 z.
Proof.
  intros [Vx Nx] Y Hn Hm Hz. pose proof sf_one_pos as HU. destruct (db_of_fl_ok x Vx) as [Vd Nd]. rewrite Nx in Nd.
  destruct (Z.eq_dec n 0) as [->|Hn0].
  - pose proof (div_int 53 1024 ltac:(lia) ltac:(lia) ltac:(lia) ltac:(lia) (db_of_fl x) y 0 m 0 (conj Vd Nd) Y ltac:(lia) ltac:(lia) ltac:(lia)) as D.
    change (SFdiv 53 1024 (db_of_fl x) y) with (db_div (db_of_fl x) y) in D. apply fl_of_db_int in D; [|lia]. destruct D as [V N].
    apply (saturate_ok _ 0); auto. apply (near_round m 0 0 z sf_one); auto; lia.
  - destruct Y as [Vy Ny].
    pose proof (db_div_half _ y (n * sf_one) (m * sf_one) Vd Vy Nd Ny ltac:(nia) ltac:(nia)) as DH. rewrite <- sf_one_eq in DH. destruct DH as (V & c & Nc & C0 & E & T).
    { assert (m <= n * 2 ^ 100) by (change (2 ^ 100) with 1267650600228229401496703205376; lia). nia. }
    { change (2 ^ 22) with 4194304. nia. }
    change (2 ^ 53) with 9007199254740992 in E.
    assert (E' : Z.abs (c * m - n * sf_one) * 9007199254740992 <= n * sf_one).
    { apply (Z.mul_le_mono_pos_r _ _ sf_one HU).
      replace (Z.abs (c * m - n * sf_one) * 9007199254740992 * sf_one) with (Z.abs (c * (m * sf_one) - n * sf_one * sf_one) * 9007199254740992); [exact E|].
      replace (c * (m * sf_one) - n * sf_one * sf_one) with ((c * m - n * sf_one) * sf_one) by ring. rewrite Z.abs_mul, (Z.abs_eq sf_one) by lia. ring. }
    assert (T' : forall w, 2 * n = w * m -> 2 * c = w * sf_one) by (intros w Hw; apply T; nia). clear T E.
    assert (Bc : c * m <= 2 * (n * sf_one)) by lia. assert (Bn : n * sf_one <= 4194304 * sf_one) by (apply Z.mul_le_mono_nonneg_r; lia).
    assert (Bc' : c <= 8388608 * sf_one) by (assert (c <= c * m) by (clear - C0 Hm; nia); lia).
    pose proof (fl_of_db_err _ c V Nc) as FE.
    destruct big_facts as (B & K & EB & EK & P1 & P2 & P0). rewrite <- EB, <- EK in FE. clear EB EK.
    destruct (FE ltac:(lia)) as (V2 & c2 & N2 & _ & E2). clear FE. change (2 ^ 24) with 16777216 in E2. rewrite (Z.abs_eq c) in E2 by lia.
    apply (saturate_ok _ c2); auto. apply (near_round m n c2 z sf_one); auto; try lia.
    + intros Tie. assert (HW : exists w, 2 * n = w * m).
      { destruct (Z.abs_spec (n - z * m)) as [[_ A]|[_ A]]; rewrite A in Tie; [exists (2 * z + 1)|exists (2 * z - 1)]; lia. }
      destruct HW as [w Hw]. specialize (T' w Hw).
      pose proof (fl_of_db_num _ c V Nc) as R.
      assert (Wb : 0 <= w <= 8388608) by (clear - Hw Hn Hm; nia).
      pose proof (half_exact c w _ c2 T' ltac:(clear - Wb; lia) R N2) as ->. clear - T' Hw. nia.
    + assert (B1 : Z.abs (c2 * m - n * sf_one) <= Z.abs (c2 - c) * m + Z.abs (c * m - n * sf_one)).
      { replace (c2 * m - n * sf_one) with ((c2 - c) * m + (c * m - n * sf_one)) by ring.
        pose proof (Z.abs_triangle ((c2 - c) * m) (c * m - n * sf_one)) as TR. rewrite Z.abs_mul, (Z.abs_eq m) in TR by lia. exact TR. }
      assert (B2 : Z.abs (c2 - c) * m * 16777216 <= c * m + K * m) by (clear - E2 Hm; nia).
      assert (B3 : K * m <= K * 16777216) by (apply Z.mul_le_mono_nonneg_l; lia).
      set (e1 := Z.abs (c2 - c) * m) in *. set (e2 := Z.abs (c * m - n * sf_one)) in *. clearbody e1.
      assert (e2 * 2147483648 <= sf_one).
      { clear - E' Bn HU. set (U := sf_one) in *. clearbody U. assert (0 <= e2) by (unfold e2; lia). clearbody e2. lia. }
      assert (c * m <= n * sf_one + e2) by (unfold e2; lia). clearbody e2. lia.
Qed.

