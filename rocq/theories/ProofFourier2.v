(** * Proofs: the Fourier sums over the real numbers. *)
From Verif Require Import Base ModelFloat SpecBase SpecMatrix SpecFourier ProofFold.
From Coq Require Import Reals Lra Lia ZArith.
Open Scope R_scope.

(** ** Finite sums *)
Fixpoint rs (n : nat) (f : Z -> R) : R :=
  match n with O => 0 | S n' => rs n' f + f (Z.of_nat n') end.

Lemma rs_ext n f g : (forall x, (0 <= x < Z.of_nat n)%Z -> f x = g x) -> rs n f = rs n g.
Proof.
  induction n as [|n IH]; intros H; [reflexivity|]. cbn [rs]. rewrite IH, H; [reflexivity|lia|]. intros. apply H. lia.
Qed.
Lemma rs_plus n f g : rs n (fun x => f x + g x) = rs n f + rs n g.
Proof. induction n as [|n IH]; cbn [rs]; [lra|rewrite IH; lra]. Qed.
Lemma rs_scal n c f : rs n (fun x => c * f x) = c * rs n f.
Proof. induction n as [|n IH]; cbn [rs]; [lra|rewrite IH; lra]. Qed.
Lemma rs_minus n f g : rs n (fun x => f x - g x) = rs n f - rs n g.
Proof. induction n as [|n IH]; cbn [rs]; [lra|rewrite IH; lra]. Qed.
Lemma rs_zero n : rs n (fun _ => 0) = 0.
Proof. induction n as [|n IH]; cbn [rs]; [lra|rewrite IH; lra]. Qed.
Lemma rs_const n c : rs n (fun _ => c) = INR n * c.
Proof. induction n as [|n IH]; [cbn; lra|]. cbn [rs]. rewrite IH, S_INR. lra. Qed.
Lemma rs_swap n m f : rs n (fun x => rs m (fun y => f x y)) = rs m (fun y => rs n (fun x => f x y)).
Proof.
  induction n as [|n IH]; cbn [rs]; [now rewrite rs_zero|]. now rewrite IH, rs_plus.
Qed.
Lemma rs_pick n k f : (0 <= k < Z.of_nat n)%Z -> (forall x, (0 <= x < Z.of_nat n)%Z -> x <> k -> f x = 0) -> rs n f = f k.
Proof.
  induction n as [|n IH]; intros Hk H; [lia|]. cbn [rs]. destruct (Z.eq_dec k (Z.of_nat n)) as [->|N].
  - rewrite (rs_ext n f (fun _ => 0)), rs_zero; [lra|]. intros. apply H; lia.
  - rewrite IH, (H (Z.of_nat n)); [lra|lia|lia|lia|]. intros. apply H; lia.
Qed.

Lemma fold_rs n f : forall a, fold_to n (fun a x => a + f x) a = a + rs n f.
Proof. induction n as [|n IH]; intros a; cbn [fold_to rs]; [lra|]. rewrite IH. lra. Qed.

Lemma grid_rs R C g : grid_sum reals R C g = rs (Z.to_nat R) (fun x => rs (Z.to_nat C) (fun y => g x y)).
Proof.
  unfold grid_sum. cbn [reals narrow d_add widen f_int].
  rewrite (foldz_ext R _ (fun a x => a + rs (Z.to_nat C) (fun y => g x y))).
  - unfold foldz. rewrite fold_rs. lra.
  - intros a x _. unfold foldz. apply (fold_rs (Z.to_nat C) (fun y => g x y)).
Qed.

(** ** Sums of cosines and sines over a full period *)
Lemma cos_2pi_Z x k : cos (x + 2 * IZR k * PI) = cos x.
Proof.
  destruct (Z_le_gt_dec 0 k) as [H|H].
  - rewrite <- (Z2Nat.id k) by lia. rewrite <- INR_IZR_INZ. apply cos_period.
  - rewrite <- (cos_period (x + 2 * IZR k * PI) (Z.to_nat (- k))). rewrite INR_IZR_INZ, Z2Nat.id, opp_IZR by lia. f_equal. lra.
Qed.
Lemma sin_2pi_Z x k : sin (x + 2 * IZR k * PI) = sin x.
Proof.
  destruct (Z_le_gt_dec 0 k) as [H|H].
  - rewrite <- (Z2Nat.id k) by lia. rewrite <- INR_IZR_INZ. apply sin_period.
  - rewrite <- (sin_period (x + 2 * IZR k * PI) (Z.to_nat (- k))). rewrite INR_IZR_INZ, Z2Nat.id, opp_IZR by lia. f_equal. lra.
Qed.

Lemma tele_cos a n : 2 * sin (a / 2) * rs n (fun x => cos (IZR x * a)) = sin (INR n * a - a / 2) + sin (a / 2).
Proof.
  induction n as [|n IH].
  - cbn [rs]. replace (INR 0 * a - a / 2) with (- (a / 2)) by (cbn; lra). rewrite sin_neg. lra.
  - cbn [rs]. rewrite Rmult_plus_distr_l, IH, <- INR_IZR_INZ, S_INR.
    replace ((INR n + 1) * a - a / 2) with (INR n * a + a / 2) by lra.
    rewrite sin_plus, sin_minus. lra.
Qed.
Lemma tele_sin a n : 2 * sin (a / 2) * rs n (fun x => sin (IZR x * a)) = cos (a / 2) - cos (INR n * a - a / 2).
Proof.
  induction n as [|n IH].
  - cbn [rs]. replace (INR 0 * a - a / 2) with (- (a / 2)) by (cbn; lra). rewrite cos_neg. lra.
  - cbn [rs]. rewrite Rmult_plus_distr_l, IH, <- INR_IZR_INZ, S_INR.
    replace ((INR n + 1) * a - a / 2) with (INR n * a + a / 2) by lra.
    rewrite cos_plus, cos_minus. lra.
Qed.

Lemma half_sine n k : (0 < n)%nat -> (- Z.of_nat n < k < Z.of_nat n)%Z -> k <> 0%Z -> sin (2 * PI * IZR k / INR n / 2) <> 0.
Proof.
  intros Hn Hk H0. assert (PN : 0 < INR n) by (apply lt_0_INR; lia). pose proof PI_RGT_0 as HP.
  assert (Q : forall m, (0 < m < Z.of_nat n)%Z -> 0 < sin (2 * PI * IZR m / INR n / 2)).
  { intros m Hm. assert (0 < IZR m) by (apply (IZR_lt 0); lia).
    assert (IZR m < INR n) by (rewrite INR_IZR_INZ; apply IZR_lt; lia).
    replace (2 * PI * IZR m / INR n / 2) with (PI * (IZR m / INR n)) by (field; lra).
    apply sin_gt_0.
    - apply Rmult_lt_0_compat; auto. apply Rdiv_lt_0_compat; auto.
    - rewrite <- (Rmult_1_r PI) at 2. apply Rmult_lt_compat_l; auto. apply Rmult_lt_reg_r with (INR n); auto.
      replace (IZR m / INR n * INR n) with (IZR m) by (field; lra). lra. }
  destruct (Z_lt_ge_dec 0 k) as [P|N].
  - specialize (Q k ltac:(lia)). lra.
  - specialize (Q (- k)%Z ltac:(lia)). rewrite opp_IZR in Q.
    replace (2 * PI * - IZR k / INR n / 2) with (- (2 * PI * IZR k / INR n / 2)) in Q by (field; lra). rewrite sin_neg in Q. lra.
Qed.

Lemma period_cos n k : (0 < n)%nat -> (- Z.of_nat n < k < Z.of_nat n)%Z ->
  rs n (fun x => cos (IZR x * (2 * PI * IZR k / INR n))) = if (k =? 0)%Z then INR n else 0.
Proof.
  intros Hn Hk. assert (PN : 0 < INR n) by (apply lt_0_INR; lia). destruct (Z.eqb_spec k 0) as [->|H0].
  - rewrite (rs_ext n _ (fun _ => 1)), rs_const; [lra|]. intros x _. replace (IZR x * (2 * PI * 0 / INR n)) with 0 by (field; lra). apply cos_0.
  - pose proof (half_sine n k Hn Hk H0) as HS. set (a := 2 * PI * IZR k / INR n) in *. pose proof (tele_cos a n) as T.
    replace (INR n * a - a / 2) with (- (a / 2) + 2 * IZR k * PI) in T by (unfold a; field; lra).
    rewrite sin_2pi_Z, sin_neg in T. apply Rmult_eq_reg_l with (2 * sin (a / 2)); lra.
Qed.
Lemma period_sin n k : (0 < n)%nat -> (- Z.of_nat n < k < Z.of_nat n)%Z ->
  rs n (fun x => sin (IZR x * (2 * PI * IZR k / INR n))) = 0.
Proof.
  intros Hn Hk. assert (PN : 0 < INR n) by (apply lt_0_INR; lia). destruct (Z.eqb_spec k 0) as [->|H0].
  - rewrite (rs_ext n _ (fun _ => 0)), rs_zero; [lra|]. intros x _. replace (IZR x * (2 * PI * 0 / INR n)) with 0 by (field; lra). apply sin_0.
  - pose proof (half_sine n k Hn Hk H0) as HS. set (a := 2 * PI * IZR k / INR n) in *. pose proof (tele_sin a n) as T.
    replace (INR n * a - a / 2) with (- (a / 2) + 2 * IZR k * PI) in T by (unfold a; field; lra).
    rewrite cos_2pi_Z, cos_neg in T. apply Rmult_eq_reg_l with (2 * sin (a / 2)); lra.
Qed.

(** ** The transform back *)
Section Pair.
  Variables (r c : nat) (Hr : (0 < r)%nat) (Hc : (0 < c)%nat).
  Notation R_ := (Z.of_nat r).
  Notation C_ := (Z.of_nat c).
  Let pr : 0 < INR r. Proof. apply lt_0_INR; lia. Qed.
  Let pc : 0 < INR c. Proof. apply lt_0_INR; lia. Qed.

  Lemma angle_R sign i j x y : angle reals R_ C_ sign i j x y
    = IZR sign * (IZR x * (2 * PI * IZR i / INR r) + IZR y * (2 * PI * IZR j / INR c)).
  Proof.
    unfold angle. cbn [reals d_mul d_int d_pi widen f_add f_div f_mul f_int]. rewrite mult_IZR, !INR_IZR_INZ.
    rewrite INR_IZR_INZ in pr, pc. field. lra.
  Qed.

  (** Sum over all frequencies of the product of two waves. *)
  Lemma waves i j x y : (0 <= i < R_)%Z -> (0 <= j < C_)%Z -> (0 <= x < R_)%Z -> (0 <= y < C_)%Z ->
    rs r (fun u => rs c (fun v => cos (angle reals R_ C_ 1 i j u v + angle reals R_ C_ (-1) u v x y)))
    = if (i =? x)%Z && (j =? y)%Z then INR r * INR c else 0.
  Proof.
    intros Hi Hj Hx Hy.
    rewrite (rs_ext r _ (fun u => cos (IZR u * (2 * PI * IZR (i - x) / INR r)) * (if (j - y =? 0)%Z then INR c else 0)
      - sin (IZR u * (2 * PI * IZR (i - x) / INR r)) * 0)).
    - rewrite rs_minus. rewrite (rs_ext r _ (fun u => (if (j - y =? 0)%Z then INR c else 0) * cos (IZR u * (2 * PI * IZR (i - x) / INR r)))) by (intros; lra).
      rewrite (rs_ext r (fun x0 => _ * 0) (fun _ => 0)) by (intros; lra). rewrite rs_zero, rs_scal, period_cos by (auto; lia).
      destruct (Z.eqb_spec (i - x) 0), (Z.eqb_spec (j - y) 0), (Z.eqb_spec i x), (Z.eqb_spec j y); try lia; cbn [andb]; lra.
    - intros u Hu. rewrite <- (period_cos c (j - y)), <- (period_sin c (j - y)) by (auto; lia).
      rewrite <- !rs_scal, <- rs_minus. apply rs_ext. intros v Hv. rewrite <- cos_plus. f_equal.
      rewrite !angle_R, !minus_IZR. field. lra.
  Qed.

  Lemma inverse_rs P i j : (0 <= i < R_)%Z -> (0 <= j < C_)%Z ->
    dft_inverse reals R_ C_ (dft_re reals R_ C_ P) (dft_im reals R_ C_ P) i j = sqrt (IZR (R_ * C_)) * IZR (P i j).
  Proof.
    intros Hi Hj. unfold dft_inverse. rewrite grid_rs, !Nat2Z.id.
    cbn [reals narrow d_div widen d_root d_int d_sub d_mul d_cos d_sin].
    assert (E : rs r (fun u => rs c (fun v => dft_re reals R_ C_ P u v * cos (angle reals R_ C_ 1 i j u v) - dft_im reals R_ C_ P u v * sin (angle reals R_ C_ 1 i j u v)))
      = INR r * INR c * IZR (P i j)).
    { transitivity (rs r (fun x => rs c (fun y => IZR (P x y) * rs r (fun u => rs c (fun v =>
         cos (angle reals R_ C_ 1 i j u v + angle reals R_ C_ (-1) u v x y)))))).
      - transitivity (rs r (fun u => rs c (fun v => rs r (fun x => rs c (fun y => IZR (P x y) *
           cos (angle reals R_ C_ 1 i j u v + angle reals R_ C_ (-1) u v x y)))))).
        + apply rs_ext. intros u Hu. apply rs_ext. intros v Hv. unfold dft_re, dft_im. rewrite !grid_rs, !Nat2Z.id.
          cbn [reals d_mul d_int d_cos d_sin].
          rewrite (Rmult_comm (rs r _) (cos _)), (Rmult_comm (rs r _) (sin _)), <- !rs_scal, <- rs_minus.
          apply rs_ext. intros x Hx. rewrite <- !rs_scal, <- rs_minus. apply rs_ext. intros y Hy. rewrite cos_plus. lra.
        + transitivity (rs r (fun u => rs r (fun x => rs c (fun v => rs c (fun y => IZR (P x y) *
             cos (angle reals R_ C_ 1 i j u v + angle reals R_ C_ (-1) u v x y)))))).
          { apply rs_ext. intros u Hu. apply rs_swap. }
          rewrite rs_swap. apply rs_ext. intros x Hx.
          transitivity (rs r (fun u => rs c (fun y => rs c (fun v => IZR (P x y) *
             cos (angle reals R_ C_ 1 i j u v + angle reals R_ C_ (-1) u v x y))))).
          { apply rs_ext. intros u Hu. apply rs_swap. }
          rewrite rs_swap. apply rs_ext. intros y Hy. rewrite <- rs_scal. apply rs_ext. intros u Hu. now rewrite <- rs_scal.
      - rewrite (rs_pick r i); [|lia|].
        2:{ intros x Hx N. transitivity (rs c (fun _ => 0)); [|apply rs_zero].
            apply rs_ext. intros y Hy. rewrite waves by lia. replace (i =? x)%Z with false by lia. cbn [andb]. lra. }
        rewrite (rs_pick c j); [|lia|].
        2:{ intros y Hy N. rewrite waves by lia. replace (j =? y)%Z with false by lia. rewrite Bool.andb_false_r. lra. }
        rewrite waves by lia. rewrite !Z.eqb_refl. cbn [andb]. lra. }
    rewrite E. rewrite mult_IZR, <- !INR_IZR_INZ. assert (HP : 0 < INR r * INR c) by (apply Rmult_lt_0_compat; auto).
    rewrite <- (sqrt_sqrt (INR r * INR c)) at 1 by lra. field. apply Rgt_not_eq, sqrt_lt_R0, HP.
  Qed.

  (** ** Shifting *)
  Lemma cos_shift t n : cos (t - INR n * PI) = cos t * (if Z.even (Z.of_nat n) then 1 else -1).
  Proof.
    revert t. induction n as [|n IH]; intros t.
    - cbn. replace (t - 0 * PI) with t by lra. lra.
    - rewrite S_INR, Nat2Z.inj_succ, Z.even_succ, <- Z.negb_even.
      replace (t - (INR n + 1) * PI) with (t - INR n * PI - PI) by lra. rewrite cos_minus, cos_PI, sin_PI.
      rewrite IH. destruct (Z.even (Z.of_nat n)); cbn [negb]; lra.
  Qed.
  Lemma sin_shift t n : sin (t - INR n * PI) = sin t * (if Z.even (Z.of_nat n) then 1 else -1).
  Proof.
    revert t. induction n as [|n IH]; intros t.
    - cbn. replace (t - 0 * PI) with t by lra. lra.
    - rewrite S_INR, Nat2Z.inj_succ, Z.even_succ, <- Z.negb_even.
      replace (t - (INR n + 1) * PI) with (t - INR n * PI - PI) by lra. rewrite sin_minus, cos_PI, sin_PI.
      rewrite IH. destruct (Z.even (Z.of_nat n)); cbn [negb]; lra.
  Qed.

  Lemma shift_angle h k i j x y : (R_ = 2 * h)%Z -> (C_ = 2 * k)%Z -> (0 <= x)%Z -> (0 <= y)%Z -> exists z,
    angle reals R_ C_ (-1) ((i + h) mod R_) ((j + k) mod C_) x y
      = angle reals R_ C_ (-1) i j x y - INR (Z.to_nat (x + y)) * PI + 2 * IZR z * PI.
  Proof.
    intros Eh Ek Hx Hy. exists (x * ((i + h) / R_) + y * ((j + k) / C_))%Z.
    pose proof (Z.div_mod (i + h) R_ ltac:(lia)) as D1. pose proof (Z.div_mod (j + k) C_ ltac:(lia)) as D2.
    replace ((i + h) mod R_)%Z with (i + h - R_ * ((i + h) / R_))%Z by lia.
    replace ((j + k) mod C_)%Z with (j + k - C_ * ((j + k) / C_))%Z by lia.
    set (a := ((i + h) / R_)%Z). set (b := ((j + k) / C_)%Z). clearbody a b. clear D1 D2.
    rewrite !angle_R, (INR_IZR_INZ (Z.to_nat (x + y))), Z2Nat.id by lia.
    rewrite !minus_IZR, !plus_IZR, !mult_IZR, <- !INR_IZR_INZ.
    assert (Qh : IZR h = INR r / 2) by (rewrite INR_IZR_INZ, Eh, mult_IZR; lra).
    assert (Qk : IZR k = INR c / 2) by (rewrite INR_IZR_INZ, Ek, mult_IZR; lra).
    rewrite Qh, Qk. field. lra.
  Qed.

  Lemma spectrum_shift P h k i j : (R_ = 2 * h)%Z -> (C_ = 2 * k)%Z ->
    spectrum_re reals R_ C_ P i j = dft_re reals R_ C_ P ((i + h) mod R_) ((j + k) mod C_)
    /\ spectrum_im reals R_ C_ P i j = dft_im reals R_ C_ P ((i + h) mod R_) ((j + k) mod C_).
  Proof.
    intros Eh Ek. unfold spectrum_re, spectrum_im, dft_re, dft_im. rewrite !grid_rs, !Nat2Z.id.
    cbn [reals d_mul d_int d_cos d_sin].
    split; apply rs_ext; intros x Hx; apply rs_ext; intros y Hy;
      destruct (shift_angle h k i j x y Eh Ek ltac:(lia) ltac:(lia)) as (z & Ez);
      replace (IZR (alternate x y)) with (if Z.even (Z.of_nat (Z.to_nat (x + y))) then 1 else -1)
        by (unfold alternate; rewrite Z2Nat.id by lia; destruct (Z.even (x + y)); reflexivity);
      rewrite Ez.
    - rewrite cos_2pi_Z, cos_shift. lra.
    - rewrite sin_2pi_Z, sin_shift. lra.
  Qed.
End Pair.

Theorem transform_pair : forall R C P i j, (0 <= i < R)%Z -> (0 <= j < C)%Z ->
  dft_inverse reals R C (dft_re reals R C P) (dft_im reals R C P) i j = sqrt (IZR (R * C)) * IZR (P i j).
Proof.
  intros R C P i j Hi Hj. rewrite <- (Z2Nat.id R), <- (Z2Nat.id C) by lia. apply inverse_rs; lia.
Qed.

Theorem centred_spectrum : forall R C P i j h k, (0 < R)%Z -> (0 < C)%Z -> (R = 2 * h)%Z -> (C = 2 * k)%Z ->
  spectrum_re reals R C P i j = dft_re reals R C P ((i + h) mod R) ((j + k) mod C)
  /\ spectrum_im reals R C P i j = dft_im reals R C P ((i + h) mod R) ((j + k) mod C).
Proof.
  intros R C P i j h k HR HC Eh Ek. rewrite <- (Z2Nat.id R), <- (Z2Nat.id C) by lia. apply spectrum_shift; lia.
Qed.
