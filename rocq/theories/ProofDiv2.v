(** * Quotients of floats of very different size. *)
From Verif Require Import Base ModelCore ModelFloat ModelDouble ModelConv SpecBase SpecNum SpecMatrix SpecStat SpecNorm.
From Verif Require Import Logic ProofFloat ProofFloat2 ProofDiv ProofErr ProofConv ProofGrad ProofStat ProofFold ProofMatrix.
From Coq Require Import Floats.SpecFloat Lia ZifyBool ZifyNat.
Open Scope Z_scope.

Lemma div_err_wide prec emax kh ku x y a b : 24 <= prec -> prec + 100 < emax -> -1074 <= 3 - emax - prec -> emax <= 1024 -> kh = 100 -> ku = 1074 ->
  valid_binary prec emax x = true -> valid_binary prec emax y = true -> sf_num x = Some a -> sf_num y = Some b -> 0 < a -> 0 < b ->
  b <= a * 2 ^ kh -> a <= b * 2 ^ 60 ->
  valid_binary prec emax (SFdiv prec emax x y) = true /\ exists c, sf_num (SFdiv prec emax x y) = Some c /\ 0 <= c
    /\ Z.abs (c * b - a * 2 ^ ku) * 2 ^ prec <= a * 2 ^ ku.
Proof.
  intros Hp He He3 He4 E1h Eu Vx Vy Na Nb Ha Hb Hlo Hhi.
  destruct (SFdiv_num prec emax ltac:(clear - Hp; lia) ltac:(clear - Hp He; lia) ltac:(clear - He3; lia) ltac:(clear - He4; lia) x y a b Vx Vy Na Nb ltac:(clear - Ha; lia) ltac:(clear - Hb; lia)) as (g & F1 & F2 & [G1 G2] & R).
  { rewrite !Z.abs_eq by (clear - Ha Hb; lia). etransitivity; [exact Hlo|]. apply Z.mul_le_mono_nonneg_l; [clear - Ha; lia|]. apply Z.pow_le_mono_r; clear - E1h He Hp; unfold emin; lia. }
  remember 4000 as k4 eqn:E4. assert (E29 : exists k29, k29 = 2926) by eauto. destruct E29 as [k29 E29].
  rewrite !Z.abs_eq in * by (clear - Ha Hb; lia). replace (a <? 0) with false in R by (clear - Ha; lia). replace (b <? 0) with false in R by (clear - Hb; lia).
  cbn [xorb] in R.
  assert (Hg1 : g <= 61).
  { destruct (Z_le_gt_dec g 61) as [|g0]; auto. exfalso.
    assert (b * 2 ^ (61 + k4) <= b * 2 ^ (g - 1 + k4)) by (apply Z.mul_le_mono_nonneg_l; [clear - Hb; lia|]; apply Z.pow_le_mono_r; clear - g0 E4; lia).
    assert (P1 : 2 ^ (61 + k4) = 2 * (2 ^ 60 * 2 ^ k4)). { rewrite <- Z.pow_add_r by (clear - E4; lia). rewrite <- Z.pow_succ_r by (clear - E4; lia). f_equal. clear; lia. }
    rewrite P1 in H. exact (too_high a b (2 ^ 60) (2 ^ k4) _ Hb (pow_pos 60 ltac:(clear; lia)) (pow_pos k4 ltac:(clear - E4; lia)) H G1 Hhi). }
  assert (Hg0 : -101 <= g).
  { destruct (Z_le_gt_dec (-101) g) as [|g0]; auto. exfalso.
    assert (b * 2 ^ (g + k4) <= b * 2 ^ (-102 + k4)) by (apply Z.mul_le_mono_nonneg_l; [clear - Hb; lia|]; apply Z.pow_le_mono_r; clear - g0 E4; lia).
    assert (P1 : 2 ^ k4 = 4 * (2 ^ kh * 2 ^ (-102 + k4))).
    { change 4 with (2 ^ 2). rewrite <- !Z.pow_add_r by (clear - E4 E1h; lia). f_equal. clear - E1h; lia. }
    rewrite P1 in G2. exact (too_low a b (2 ^ kh) (2 ^ (-102 + k4)) _ Ha Hb (pow_pos kh ltac:(clear - E1h; lia)) (pow_pos (-102 + k4) ltac:(clear - E4; lia)) H G2 Hlo). }
  clear Hlo Hhi.
  assert (Ef : fexp prec emax g = g - prec) by (clear - Hg0 Hp He; unfold fexp, emin; lia). rewrite Ef in *. clear Ef F1 F2.
  assert (Hgp : 0 <= g - prec + ku) by (clear - Hg0 He3 Hp He He4 Eu; lia).
  assert (E1 : b * 2 ^ (g + k4) = 2 * (b * 2 ^ (g - 1 + k4))).
  { replace (g + k4) with (Z.succ (g - 1 + k4)) by (clear; lia). rewrite Z.pow_succ_r by (clear - Hg0 E4; lia). clear; ring. }
  assert (ED : b * 2 ^ (g - prec + k4) * 2 ^ prec = b * 2 ^ (g + k4)).
  { rewrite <- Z.mul_assoc, <- Z.pow_add_r by (clear - Hgp E4 Eu Hp; lia). do 2 f_equal. clear; lia. }
  assert (S1 : 2 ^ k4 = 2 ^ ku * 2 ^ k29) by (rewrite <- Z.pow_add_r by (clear - Eu E29; lia); f_equal; clear - E4 Eu E29; lia).
  assert (S2 : 2 ^ (g - prec + k4) = 2 ^ (g - prec + ku) * 2 ^ k29) by (rewrite <- Z.pow_add_r by (clear - Hgp E29; lia); f_equal; clear - E4 Eu E29; lia).
  assert (P4 : 0 < 2 ^ k4) by (apply pow_pos; clear - E4; lia). assert (PK : 0 < 2 ^ k29) by (apply pow_pos; clear - E29; lia).
  assert (PG : 0 < 2 ^ (g - prec + ku)) by (apply pow_pos; exact Hgp). assert (PP : 0 < 2 ^ prec) by (apply pow_pos; clear - Hp; lia).
  assert (PF : 2 ^ prec * 2 ^ (g - prec + ku) < 2 ^ (emax + ku)).
  { rewrite <- Z.pow_add_r by (clear - Hgp Hp; lia). apply Z.pow_lt_mono_r; clear - Hg0 Hg1 He Hp Eu; lia. }
  assert (HD : 0 < b * 2 ^ (g - prec + k4)) by (apply Z.mul_pos_pos; [exact Hb|apply pow_pos; clear - Hgp E4 Eu; lia]).
  destruct (rne_nearest (a * 2 ^ k4) _ HD) as [N _].
  assert (Q0 : 0 <= rne (a * 2 ^ k4) (b * 2 ^ (g - prec + k4)) <= 2 ^ prec).
  { apply (rne_bounds _ _ 0 (2 ^ prec)); auto. rewrite (Z.mul_comm (2 ^ prec)), ED. rewrite Z.mul_0_l.
    split; [apply Z.mul_nonneg_nonneg; apply Z.lt_le_incl; assumption|apply Z.lt_le_incl; exact G2]. }
  set (q := rne (a * 2 ^ k4) (b * 2 ^ (g - prec + k4))) in *. clearbody q.
  rewrite S2 in *. clear S2. rewrite S1 in *. clear S1. unfold rounds in R. rewrite <- Eu in R.
  generalize dependent (2 ^ (g - prec + ku)). generalize dependent (2 ^ (g + k4)). generalize dependent (2 ^ (g - 1 + k4)). 
  generalize dependent (2 ^ k29). generalize dependent (2 ^ (emax + ku)). generalize dependent (2 ^ ku). generalize dependent (2 ^ prec).
  clear E4 E1h Eu E29 Hgp.
  intros PR PP Q0 U M K P4 PK X G1 Y G2 E1 G R ED PG PF HD N.
  assert (Fin : q * G < M).
  { apply Z.le_lt_trans with (PR * G); auto. apply Z.mul_le_mono_nonneg_r; [clear - PG; lia|exact (proj2 Q0)]. }
  replace (q * G <? M) with true in R by (clear - Fin; lia). cbn [cond_Zopp] in R.
  destruct R as (V & Nx & _). split; auto. exists (q * G). split; auto.
  split; [apply Z.mul_nonneg_nonneg; clear - PG Q0; lia|].
  apply (Z.mul_le_mono_pos_r _ _ K PK).
  replace (Z.abs (q * G * b - a * U) * PR * K) with (Z.abs (a * (U * K) - q * (b * (G * K))) * PR).
  2:{ assert (EA : Z.abs (q * G * b - a * U) * K = Z.abs (a * (U * K) - q * (b * (G * K)))).
      { transitivity (Z.abs ((q * G * b - a * U) * K)).
        - rewrite Z.abs_mul, (Z.abs_eq K) by (clear - PK; lia). reflexivity.
        - rewrite <- Z.abs_opp. f_equal. clear; ring. }
      rewrite <- EA. clear; ring. }
  rewrite <- Z.mul_assoc. set (err := Z.abs (a * (U * K) - q * (b * (G * K)))) in *. clearbody err.
  set (D := b * (G * K)) in *. clearbody D.
  apply Z.le_trans with (b * X); [|exact G1]. apply (Z.mul_le_mono_pos_l _ _ 2); [clear; lia|]. rewrite <- E1, <- ED.
  replace (2 * (err * PR)) with (2 * err * PR) by (clear; ring). apply Z.mul_le_mono_nonneg_r; [clear - PP; lia|exact N].
Qed.
Lemma fl_div_wide x y a b : fl_ok x -> fl_ok y -> sf_num x = Some a -> sf_num y = Some b -> 0 < a -> 0 < b ->
  b <= a * 2 ^ 100 -> a <= b * 2 ^ 60 ->
  fl_ok (fl_div x y) /\ exists c, sf_num (fl_div x y) = Some c /\ 0 <= c /\ Z.abs (c * b - a * 2 ^ 1074) * 2 ^ 24 <= a * 2 ^ 1074.
Proof. exact (div_err_wide 24 128 100 1074 x y a b ltac:(clear; lia) ltac:(clear; lia) ltac:(clear; lia) ltac:(clear; lia) eq_refl eq_refl). Qed.
