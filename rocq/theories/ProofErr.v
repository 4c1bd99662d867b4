(** * Rounding errors of the float and double operations. *)
From Verif Require Import Base ModelFloat SpecNum ProofFloat ProofFloat2 ProofDiv ProofConv.
From Coq Require Import Floats.SpecFloat Lia ZifyBool ZifyNat.
Open Scope Z_scope.

Section Format.
  Variables prec emax : Z.
  Hypotheses (Hprec : 1 < prec) (Hemax : prec < emax) (Hemin : -1074 <= 3 - emax - prec).
  Notation ok x := (valid_binary prec emax x = true).

  Lemma rnd_err k A : 1074 <= k ->
    Z.abs (rnd prec emax k A * 2 ^ (k - 1074) - A) * 2 ^ prec <= Z.abs A + 2 ^ (prec + emin prec emax + k - 1).
  Proof.
    intros Hk. unfold rnd. set (f := rexp prec emax k A).
    assert (Hf : emin prec emax <= f) by apply rexp_ge.
    assert (Hm : -1074 <= emin prec emax) by (unfold emin; lia).
    set (D := 2 ^ (f + k)). assert (HD : 0 < D) by (apply pow_pos; lia).
    destruct (rne_nearest A D HD) as [N _]. set (q := rne A D) in *.
    replace (q * 2 ^ (f + 1074) * 2 ^ (k - 1074)) with (q * D).
    2:{ rewrite <- Z.mul_assoc, <- Z.pow_add_r by lia. unfold D. do 2 f_equal. lia. }
    replace (Z.abs (q * D - A)) with (Z.abs (A - q * D)) by lia. set (err := Z.abs (A - q * D)) in *.
    assert (P2 : 2 ^ prec = 2 * 2 ^ (prec - 1)).
    { rewrite <- Z.pow_succ_r by lia. f_equal. lia. }
    assert (Pp : 0 < 2 ^ (prec - 1)) by (apply pow_pos; lia).
    assert (B : err * 2 ^ prec <= D * 2 ^ (prec - 1)) by (rewrite P2; nia).
    assert (T0 : 0 <= 2 ^ (prec + emin prec emax + k - 1)) by (apply Z.pow_nonneg; lia).
    assert (Hcase : f = emin prec emax \/ f = Zdigits2 A - k - prec) by (unfold f, rexp, fexp; lia).
    destruct Hcase as [Ef|Ef].
    - assert (D * 2 ^ (prec - 1) = 2 ^ (prec + emin prec emax + k - 1)).
      { unfold D. rewrite <- Z.pow_add_r by (unfold emin in *; lia). f_equal. lia. }
      lia.
    - destruct (Z.eq_dec A 0) as [-> |HA].
      + assert (err = 0). { unfold err, q. replace (rne 0 D) with 0; [lia|]. symmetry. replace 0 with (0 * D) at 1 by ring. now apply rne_exact. }
        nia.
      + destruct (digits_bounds (Z.abs A) ltac:(lia)) as [D1 B1].
        assert (Zdigits2 (Z.abs A) = Zdigits2 A) as EA by (destruct A; reflexivity). rewrite EA in *.
        assert (D * 2 ^ (prec - 1) = 2 ^ (Zdigits2 A - 1)).
        { unfold D. rewrite <- Z.pow_add_r by lia. f_equal. lia. }
        lia.
  Qed.

  Lemma rnd_nonneg k A : 1074 <= k -> 0 <= A -> 0 <= rnd prec emax k A.
  Proof.
    intros Hk HA. unfold rnd. pose proof (rexp_ge prec emax k A) as Hf. unfold emin in Hf.
    apply Z.mul_nonneg_nonneg; [|apply Z.pow_nonneg; lia].
    assert (HD : 0 < 2 ^ (rexp prec emax k A + k)) by (apply pow_pos; lia).
    rewrite <- (rne_exact 0 _ HD). apply rne_mono; auto.
  Qed.

  (** The rounded value of A / 2^k, when that is not too large. *)
  Lemma rounded_err k A x : 1074 <= k -> Z.abs A <= 2 ^ (emax - 2 + k) -> rounded prec emax k A x ->
    ok x /\ exists c, sf_num x = Some c /\ (0 <= A -> 0 <= c)
      /\ Z.abs (c * 2 ^ (k - 1074) - A) * 2 ^ prec <= Z.abs A + 2 ^ (prec + emin prec emax + k - 1).
  Proof.
    intros Hk HA R. pose proof (rnd_err k A Hk) as E. unfold rounded in R.
    assert (Pk : 0 < 2 ^ (k - 1074)) by (apply pow_pos; lia).
    assert (P4 : 4 <= 2 ^ prec) by (change 4 with (2 ^ 2); apply Z.pow_le_mono_r; lia).
    assert (PM : 2 ^ (emax + k) = 4 * 2 ^ (emax - 2 + k)).
    { change 4 with (2 ^ 2). rewrite <- Z.pow_add_r by lia. f_equal. lia. }
    assert (PS : 2 ^ (emax + 1074) * 2 ^ (k - 1074) = 2 ^ (emax + k)).
    { rewrite <- Z.pow_add_r by lia. f_equal. lia. }
    assert (PT : 2 ^ (prec + emin prec emax + k - 1) <= 2 ^ (emax - 2 + k)).
    { destruct (Z_lt_le_dec (prec + emin prec emax + k - 1) 0) as [L|L].
      - rewrite Z.pow_neg_r by lia. apply Z.pow_nonneg; lia.
      - apply Z.pow_le_mono_r; unfold emin in *; lia. }
    assert (F : Z.abs (rnd prec emax k A) < 2 ^ (emax + 1074)).
    { apply (Z.mul_lt_mono_pos_r (2 ^ (k - 1074))); auto. rewrite PS, PM.
      rewrite <- (Z.abs_eq (2 ^ (k - 1074))) at 1 by lia. rewrite <- Z.abs_mul.
      set (v := rnd prec emax k A * 2 ^ (k - 1074)) in *. set (M := 2 ^ (emax - 2 + k)) in *.
      assert (0 < M) by (apply pow_pos; lia).
      assert (Z.abs (v - A) * 4 <= Z.abs (v - A) * 2 ^ prec) by (apply Z.mul_le_mono_nonneg_l; lia). lia. }
    replace (Z.abs (rnd prec emax k A) <? 2 ^ (emax + 1074)) with true in R by lia. destruct R as [V N].
    split; auto. exists (rnd prec emax k A). split; auto. split; auto. intros. now apply rnd_nonneg.
  Qed.
End Format.

(** ** The operations *)
Lemma fl_add_err x y a b : fl_ok x -> fl_ok y -> sf_num x = Some a -> sf_num y = Some b -> Z.abs (a + b) <= 2 ^ 1190 ->
  fl_ok (fl_add x y) /\ exists c, sf_num (fl_add x y) = Some c /\ (0 <= a + b -> 0 <= c)
    /\ Z.abs (c - (a + b)) * 2 ^ 24 <= Z.abs (a + b) + 2 ^ 948.
Proof.
  intros Vx Vy Na Nb B. pose proof (SFadd_num 24 128 ltac:(lia) ltac:(lia) ltac:(lia) x y a b Vx Vy Na Nb) as R.
  apply rounded_err in R as (V & c & N & P & E); [|clear; lia..|etransitivity; [exact B|apply Z.pow_le_mono_r; clear; lia]].
  split; auto. exists c. split; auto. split; auto. change (24 + emin 24 128 + 1074 - 1) with 948 in E.
    change (1074 - 1074) with 0 in E. rewrite Z.mul_1_r in E. exact E.
Qed.

Lemma fl_mul_err x y a b : fl_ok x -> fl_ok y -> sf_num x = Some a -> sf_num y = Some b -> Z.abs (a * b) <= 2 ^ 2264 ->
  fl_ok (fl_mul x y) /\ exists c, sf_num (fl_mul x y) = Some c /\ (0 <= a * b -> 0 <= c)
    /\ Z.abs (c * 2 ^ 1074 - a * b) * 2 ^ 24 <= Z.abs (a * b) + 2 ^ 2022.
Proof.
  intros Vx Vy Na Nb B. pose proof (SFmul_num 24 128 ltac:(lia) ltac:(lia) ltac:(lia) x y a b Vx Vy Na Nb) as R.
  apply rounded_err in R as (V & c & N & P & E); [|clear; lia..|etransitivity; [exact B|apply Z.pow_le_mono_r; clear; lia]].
  split; auto. exists c. split; auto.
Qed.

Lemma db_add_err x y a b : db_ok x -> db_ok y -> sf_num x = Some a -> sf_num y = Some b -> Z.abs (a + b) <= 2 ^ 2000 ->
  db_ok (db_add x y) /\ exists c, sf_num (db_add x y) = Some c /\ (0 <= a + b -> 0 <= c)
    /\ Z.abs (c - (a + b)) * 2 ^ 53 <= Z.abs (a + b) + 2 ^ 52.
Proof.
  intros Vx Vy Na Nb B. pose proof (SFadd_num 53 1024 ltac:(lia) ltac:(lia) ltac:(lia) x y a b Vx Vy Na Nb) as R.
  apply rounded_err in R as (V & c & N & P & E); [|clear; lia..|etransitivity; [exact B|apply Z.pow_le_mono_r; clear; lia]].
  split; auto. exists c. split; auto. split; auto. change (53 + emin 53 1024 + 1074 - 1) with 52 in E.
    change (1074 - 1074) with 0 in E. rewrite Z.mul_1_r in E. exact E.
Qed.

Lemma db_mul_err x y a b : db_ok x -> db_ok y -> sf_num x = Some a -> sf_num y = Some b -> Z.abs (a * b) <= 2 ^ 3170 ->
  db_ok (db_mul x y) /\ exists c, sf_num (db_mul x y) = Some c /\ (0 <= a * b -> 0 <= c)
    /\ Z.abs (c * 2 ^ 1074 - a * b) * 2 ^ 53 <= Z.abs (a * b) + 2 ^ 1126.
Proof.
  intros Vx Vy Na Nb B. pose proof (SFmul_num 53 1024 ltac:(lia) ltac:(lia) ltac:(lia) x y a b Vx Vy Na Nb) as R.
  apply rounded_err in R as (V & c & N & P & E); [|clear; lia..|etransitivity; [exact B|apply Z.pow_le_mono_r; clear; lia]].
  split; auto. exists c. split; auto.
Qed.

Lemma fl_of_db_err x a : db_ok x -> sf_num x = Some a -> Z.abs a <= 2 ^ 1190 ->
  fl_ok (fl_of_db x) /\ exists c, sf_num (fl_of_db x) = Some c /\ (0 <= a -> 0 <= c)
    /\ Z.abs (c - a) * 2 ^ 24 <= Z.abs a + 2 ^ 948.
Proof.
  intros Vx Na B. pose proof (fl_of_db_num x a Vx Na) as R.
  apply rounded_err in R as (V & c & N & P & E); [|clear; lia..|etransitivity; [exact B|apply Z.pow_le_mono_r; clear; lia]].
  split; auto. exists c. split; auto. split; auto. change (24 + emin 24 128 + 1074 - 1) with 948 in E.
    change (1074 - 1074) with 0 in E. rewrite Z.mul_1_r in E. exact E.
Qed.

Lemma too_high a b K1 K4 X : 0 < b -> 0 < K1 -> 0 < K4 -> b * (2 * (K1 * K4)) <= b * X -> b * X <= a * K4 -> a <= b * K1 -> False.
Proof.
  intros Hb H1 H4 A B C. assert (a * K4 <= b * K1 * K4) by (apply Z.mul_le_mono_nonneg_r; lia).
  assert (0 < b * K1 * K4) by (repeat apply Z.mul_pos_pos; lia). lia.
Qed.
Lemma too_low a b K K2 X : 0 < a -> 0 < b -> 0 < K -> 0 < K2 -> b * X <= b * K2 -> a * (4 * (K * K2)) < b * X -> b <= a * K -> False.
Proof.
  intros Ha Hb H1 H4 A B C. assert (b * K2 <= a * K * K2) by (apply Z.mul_le_mono_nonneg_r; lia).
  assert (0 < a * K * K2) by (repeat apply Z.mul_pos_pos; lia). lia.
Qed.

(** A quotient of positive doubles of moderate size. *)
Lemma db_div_err_gen k9 k10 ku x y a b : k9 = 900 -> k10 = 1000 -> ku = 1074 -> db_ok x -> db_ok y -> sf_num x = Some a -> sf_num y = Some b -> 0 < a -> 0 < b ->
  b <= a * 2 ^ k9 -> a <= b * 2 ^ k10 ->
  db_ok (db_div x y) /\ exists c, sf_num (db_div x y) = Some c /\ 0 <= c
    /\ Z.abs (c * b - a * 2 ^ ku) * 2 ^ 53 <= a * 2 ^ ku.
Proof.
  intros E9 E10 Eu Vx Vy Na Nb Ha Hb Hlo Hhi.
  destruct (SFdiv_num 53 1024 ltac:(clear; lia) ltac:(clear; lia) ltac:(clear; lia) ltac:(clear; lia) x y a b Vx Vy Na Nb ltac:(clear - Ha; lia) ltac:(clear - Hb; lia)) as (g & F1 & F2 & [G1 G2] & R).
  { rewrite !Z.abs_eq by (clear - Ha Hb; lia). etransitivity; [exact Hlo|]. apply Z.mul_le_mono_nonneg_l; [clear - Ha; lia|]. rewrite E9. apply Z.pow_le_mono_r; clear; unfold emin; lia. }
  remember 4000 as k4 eqn:E4. assert (E29 : exists k29, k29 = 2926) by eauto. destruct E29 as [k29 E29].
  rewrite !Z.abs_eq in * by (clear - E4 E9 E10 E29 Eu Ha Hb; lia). replace (a <? 0) with false in R by (clear - Ha Hb; lia). replace (b <? 0) with false in R by (clear - Ha Hb; lia).
  cbn [xorb] in R.
  assert (Hg1 : g <= 1001).
  { destruct (Z_le_gt_dec g 1001) as [|g0]; auto. exfalso.
    assert (b * 2 ^ (1001 + k4) <= b * 2 ^ (g - 1 + k4)) by (apply Z.mul_le_mono_nonneg_l; [clear - E4 E9 E10 E29 Eu Hb; lia|]; apply Z.pow_le_mono_r; clear - E4 E9 E10 E29 Eu g0; lia).
    assert (P1 : 2 ^ (1001 + k4) = 2 * (2 ^ k10 * 2 ^ k4)). { rewrite <- Z.pow_add_r by (clear - E4 E9 E10 E29 Eu; lia). rewrite <- Z.pow_succ_r by (clear - E4 E9 E10 E29 Eu; lia). f_equal; clear - E4 E9 E10 E29 Eu; lia. }
    rewrite P1 in H. exact (too_high a b (2 ^ k10) (2 ^ k4) _ Hb (pow_pos k10 ltac:(clear - E4 E9 E10 E29 Eu; lia)) (pow_pos k4 ltac:(clear - E4 E9 E10 E29 Eu; lia)) H G1 Hhi). }
  assert (Hg0 : -901 <= g).
  { destruct (Z_le_gt_dec (-901) g) as [|g0]; auto. exfalso.
    assert (b * 2 ^ (g + k4) <= b * 2 ^ (-902 + k4)) by (apply Z.mul_le_mono_nonneg_l; [clear - E4 E9 E10 E29 Eu Hb; lia|]; apply Z.pow_le_mono_r; clear - E4 E9 E10 E29 Eu g0; lia).
    assert (P1 : 2 ^ k4 = 4 * (2 ^ k9 * 2 ^ (-902 + k4))).
    { change 4 with (2 ^ 2). rewrite <- !Z.pow_add_r by (clear - E4 E9 E10 E29 Eu; lia). f_equal; clear - E4 E9 E10 E29 Eu; lia. }
    rewrite P1 in G2. exact (too_low a b (2 ^ k9) (2 ^ (-902 + k4)) _ Ha Hb (pow_pos k9 ltac:(clear - E4 E9 E10 E29 Eu; lia)) (pow_pos (-902 + k4) ltac:(clear - E4 E9 E10 E29 Eu; lia)) H G2 Hlo). }
  clear Hlo Hhi.
  assert (Ef : fexp 53 1024 g = g - 53) by (clear - E4 E9 E10 E29 Eu Hg0; unfold fexp, emin; lia). rewrite Ef in *. clear Ef F1 F2.
  assert (E1 : b * 2 ^ (g + k4) = 2 * (b * 2 ^ (g - 1 + k4))).
  { replace (g + k4) with (Z.succ (g - 1 + k4)) by (clear - E4 E9 E10 E29 Eu; lia). rewrite Z.pow_succ_r by (clear - E4 E9 E10 E29 Eu Hg0; lia). clear; ring. }
  assert (ED : b * 2 ^ (g - 53 + k4) * 2 ^ 53 = b * 2 ^ (g + k4)).
  { rewrite <- Z.mul_assoc, <- Z.pow_add_r by (clear - E4 E9 E10 E29 Eu Hg0; lia). do 2 f_equal. clear - E4 E9 E10 E29 Eu; lia. }
  assert (S1 : 2 ^ k4 = 2 ^ ku * 2 ^ k29) by (rewrite <- Z.pow_add_r by (clear - E4 E9 E10 E29 Eu; lia); f_equal; clear - E4 E9 E10 E29 Eu; lia).
  assert (S2 : 2 ^ (g - 53 + k4) = 2 ^ (g - 53 + 1074) * 2 ^ k29) by (rewrite <- Z.pow_add_r by (clear - E4 E9 E10 E29 Eu Hg0; lia); f_equal; clear - E4 E9 E10 E29 Eu; lia).
  assert (P4 : 0 < 2 ^ k4) by (apply pow_pos; clear - E4 E9 E10 E29 Eu; lia). assert (PK : 0 < 2 ^ k29) by (apply pow_pos; clear - E4 E9 E10 E29 Eu; lia).
  assert (PG : 0 < 2 ^ (g - 53 + 1074)) by (apply pow_pos; clear - E4 E9 E10 E29 Eu Hg0; lia).
  assert (PF : 2 ^ 53 * 2 ^ (g - 53 + 1074) < 2 ^ (1024 + 1074)).
  { rewrite <- Z.pow_add_r by (clear - E4 E9 E10 E29 Eu Hg0; lia). apply Z.pow_lt_mono_r; clear - E4 E9 E10 E29 Eu Hg0 Hg1; lia. }
  assert (HD : 0 < b * 2 ^ (g - 53 + k4)) by (apply Z.mul_pos_pos; [exact Hb|apply pow_pos; clear - E4 E9 E10 E29 Eu Hg0; lia]).
  destruct (rne_nearest (a * 2 ^ k4) _ HD) as [N _].
  assert (Q0 : 0 <= rne (a * 2 ^ k4) (b * 2 ^ (g - 53 + k4)) <= 2 ^ 53).
  { apply (rne_bounds _ _ 0 (2 ^ 53)); auto. rewrite (Z.mul_comm (2 ^ 53)), ED. rewrite Z.mul_0_l.
    split; [apply Z.mul_nonneg_nonneg; apply Z.lt_le_incl; assumption|apply Z.lt_le_incl; exact G2]. }
  set (q := rne (a * 2 ^ k4) (b * 2 ^ (g - 53 + k4))) in *. clearbody q.
  rewrite S2 in *. clear S2. rewrite S1 in *. clear S1.
  change (1024 + 1074) with 2098 in *. unfold rounds in R. change (1024 + 1074) with 2098 in R.
  generalize dependent (2 ^ (g - 53 + 1074)). generalize dependent (2 ^ (g + k4)). generalize dependent (2 ^ (g - 1 + k4)).
  generalize dependent (2 ^ k29). generalize dependent (2 ^ 2098). generalize dependent (2 ^ ku).
  intros U M K P4 PK X G1 Y G2 E1 G R ED PG PF HD N.
  assert (Fin : q * G < M).
  { apply Z.le_lt_trans with (2 ^ 53 * G); auto. apply Z.mul_le_mono_nonneg_r; clear - PG Q0; lia. }
  replace (q * G <? M) with true in R by (clear - E4 E9 E10 E29 Eu Fin; lia). cbn [cond_Zopp] in R.
  destruct R as (V & Nx & _). split; auto. exists (q * G). split; auto.
  split; [apply Z.mul_nonneg_nonneg; clear - PG Q0; lia|].
  apply (Z.mul_le_mono_pos_r _ _ K PK).
  replace (Z.abs (q * G * b - a * U) * 2 ^ 53 * K) with (Z.abs (a * (U * K) - q * (b * (G * K))) * 2 ^ 53).
  2:{ assert (EA : Z.abs (q * G * b - a * U) * K = Z.abs (a * (U * K) - q * (b * (G * K)))).
      { transitivity (Z.abs ((q * G * b - a * U) * K)).
        - rewrite Z.abs_mul, (Z.abs_eq K) by (clear - PK; lia). reflexivity.
        - rewrite <- Z.abs_opp. f_equal. ring. }
      rewrite <- EA. ring. }
  rewrite <- Z.mul_assoc. set (err := Z.abs (a * (U * K) - q * (b * (G * K)))) in *. clearbody err.
  set (D := b * (G * K)) in *. clearbody D. clear - N ED E1 G1; lia.
Qed.
Lemma db_div_err x y a b : db_ok x -> db_ok y -> sf_num x = Some a -> sf_num y = Some b -> 0 < a -> 0 < b ->
  b <= a * 2 ^ 900 -> a <= b * 2 ^ 1000 ->
  db_ok (db_div x y) /\ exists c, sf_num (db_div x y) = Some c /\ 0 <= c
    /\ Z.abs (c * b - a * 2 ^ 1074) * 2 ^ 53 <= a * 2 ^ 1074.
Proof. exact (db_div_err_gen 900 1000 1074 x y a b eq_refl eq_refl eq_refl). Qed.
