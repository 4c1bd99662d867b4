(** * hypercv_atof: literals with a point and an exponent. *)
From Verif Require Import Base Logic ModelFloat SpecBase SpecNum SpecAtof ModelAtof ProofCore ProofFloat ProofFloat2 ProofDiv ProofWeighted ProofGrad ProofErr ProofAtof ProofAtof2.
From Coq Require Import Floats.SpecFloat ZifyBool ZifyNat.
Ltac Zify.zify_post_hook ::= Z.div_mod_to_equations.
Open Scope Z_scope.

Lemma sign_exact sg y X : sg = 1 \/ sg = -1 -> 0 <= X -> db_ok y -> sf_num y = Some X ->
  db_ok (db_mul (db_of_Z sg) y) /\ sf_num (db_mul (db_of_Z sg) y) = Some (sg * X).
Proof.
  intros SG X0 Vs Ns.
  pose proof (SFmul_num 53 1024 ltac:(lia) ltac:(lia) ltac:(lia) (db_of_Z sg) _ (sg * sf_one) X ltac:(apply db_of_Z_ok; lia) Vs ltac:(apply db_of_Z_ok; lia) Ns) as R.
  destruct SG as [E|E]; rewrite E in *; destruct y as [t| | |t mm ex]; try discriminate Ns.
  - cbn in Ns. injection Ns as <-. split; reflexivity.
  - assert (V2 : rnd 53 1024 2148 (1 * sf_one * X) = 1 * X).
    { replace (1 * sf_one * X) with (X * 2 ^ 1074) by (rewrite sf_one_eq; ring). change 2148 with (1074 + 1074). rewrite rnd_scale by (try lia; unfold emin; lia).
      rewrite (valid_rnd 53 1024) with (x := S754_finite t mm ex); try lia; auto. }
    unfold rounded in R. rewrite V2 in R. replace (Z.abs (1 * X) <? 2 ^ (1024 + 1074)) with true in R; [exact R|].
    symmetry. apply Z.ltb_lt. rewrite Z.mul_1_l. apply (valid_bound 53 1024) with (x := S754_finite t mm ex); try lia; auto.
  - cbn in Ns. injection Ns as <-. split; reflexivity.
  - assert (V2 : rnd 53 1024 2148 (-1 * sf_one * X) = -1 * X).
    { replace (-1 * sf_one * X) with (- (X * 2 ^ 1074)) by (rewrite sf_one_eq; ring). rewrite rnd_opp by (unfold emin; lia). change 2148 with (1074 + 1074). rewrite rnd_scale by (try lia; unfold emin; lia).
      rewrite (valid_rnd 53 1024) with (x := S754_finite t mm ex); try lia; auto. }
    unfold rounded in R. rewrite V2 in R. replace (Z.abs (-1 * X) <? 2 ^ (1024 + 1074)) with true in R; [exact R|].
    symmetry. apply Z.ltb_lt. replace (-1 * X) with (- X) by ring. rewrite Z.abs_opp. apply (valid_bound 53 1024) with (x := S754_finite t mm ex); try lia; auto.
Qed.
Lemma add_zero y X : db_ok y -> sf_num y = Some X ->
  db_ok (db_add y (db_of_fl (fl_of_Z 0))) /\ sf_num (db_add y (db_of_fl (fl_of_Z 0))) = Some X.
Proof.
  intros V N. change (db_of_fl (fl_of_Z 0)) with (S754_zero false). destruct y as [t| | |t mm ex]; try discriminate N.
  - destruct t; split; exact N || reflexivity.
  - split; assumption.
Qed.

Lemma part3_digits p e s : forall l fuel i ex r, digits l -> text_at s p i (digit_text l ++ r) -> 0 <= ex -> dec_from ex l <= 2147483599 ->
  part3 (length l + fuel) p i ex e s = part3 fuel p (i + Z.of_nat (length l)) (dec_from ex l) e s.
Proof.
  induction l as [|d l IH]; intros fuel i ex r D H V B; [cbn; rewrite Z.add_0_r; reflexivity|].
  apply digits_cons in D as [D DL]. cbn [digit_text map app] in H. apply text_cons in H as [H T]. cbn [length Nat.add part3].
  rewrite (bind_ret _ _ e s (d + 48) s) by (apply load8_byte; exact H).
  replace (d + 48 =? 0) with false by lia. unfold isdigit. replace (48 <=? d + 48) with true by lia. replace (d + 48 <=? 57) with true by lia. cbn [andb].
  pose proof (dec_from_ge l (10 * ex + d) DL ltac:(lia)) as G. cbn [dec_from fold_left] in B. fold (dec_from (10 * ex + d) l) in B.
  rewrite (bind_ret _ _ e s (10 * ex + d) s).
  2: { apply ev_ok. unfold csub, cadd, cmul, cop, ci, chk, in_int, INT_MIN, INT_MAX.
       replace ((-2147483648 <=? 10 * ex) && (10 * ex <=? 2147483647)) with true by lia.
       replace ((-2147483648 <=? 10 * ex + (d + 48)) && (10 * ex + (d + 48) <=? 2147483647)) with true by lia.
       replace ((-2147483648 <=? 10 * ex + (d + 48) - 48) && (10 * ex + (d + 48) - 48 <=? 2147483647)) with true by lia. f_equal. lia. }
  rewrite (IH fuel (i + 1) _ r DL T) by lia. cbn [dec_from fold_left]. f_equal. lia.
Qed.
Lemma part3_run p e s g l fuel i : digits l -> text_at s p i (sign_text g ++ digit_text l ++ [0]) -> dec_value l <= 2147483599 -> (length l + 2 <= fuel)%nat ->
  part3 fuel p i 0 e s = Ret (dec_value l) s.
Proof.
  intros D H B F.
  assert (Z0 : forall fuel i, text_at s p i (digit_text l ++ [0]) -> (length l + 1 <= fuel)%nat -> part3 fuel p i 0 e s = Ret (dec_value l) s).
  { intros f j Hj Hf. replace f with (length l + S (f - length l - 1))%nat by lia. rewrite (part3_digits p e s l _ j 0 [0] D Hj ltac:(lia) B).
    apply text_app in Hj. unfold digit_text in Hj. rewrite map_length in Hj. apply text_cons in Hj as [Hj _]. cbn [part3].
    rewrite (bind_ret _ _ e s _ s (load8_byte _ _ e _ _ Hj)). reflexivity. }
  destruct g as [b|]; [|apply Z0; [exact H|lia]].
  destruct fuel as [|fuel]; [lia|].
  assert (exists c, sign_text (Some b) = [c] /\ (c = 45 \/ c = 43)) as (c & E & C) by (destruct b; eexists; split; try reflexivity; lia).
  rewrite E in H. cbn [app] in H. apply text_cons in H as [H T]. cbn [part3]. rewrite (bind_ret _ _ e s _ s (load8_byte _ _ e _ _ H)).
  destruct C as [-> | ->]; cbn [Z.eqb isdigit Z.leb Z.compare Pos.compare Pos.compare_cont andb Pos.eqb]; apply Z0; [exact T|lia|exact T|lia].
Qed.

Lemma rounded_scaled prec emax X x : 1 < prec -> prec < emax -> -1074 <= 3 - emax - prec -> 0 <= X -> rounded prec emax 2148 (X * 2 ^ 1074) x -> rounded prec emax 1074 X x.
Proof.
  intros H1 H2 H3 HX R. unfold rounded in *. change 2148 with (1074 + 1074) in R. rewrite rnd_scale in R by (try lia; unfold emin; lia).
  replace (X * 2 ^ 1074 <? 0) with (X <? 0) in R; [exact R|]. rewrite !(proj2 (Z.ltb_ge _ 0)); [reflexivity| |exact HX].
  apply Z.mul_nonneg_nonneg; [exact HX|apply Z.pow_nonneg; lia].
Qed.

Notation STEP := (536870914 * U) (only parsing).
Lemma atof_fraction_exp : forall pw e s p n g l f bb g2 x b c,
  digits l -> l <> [] -> digits f -> digits x ->
  c_string s p (head_text n g l ++ 46 :: digit_text f ++ (if bb : bool then 69 else 101) :: sign_text g2 ++ digit_text x) ->
  (length f <= 22)%nat -> dec_value l <= 16777168 -> 1 <= b <= 24 -> dec_value l < 2 ^ b ->
  (forall j, 0 <= j <= Z.of_nat (length f) -> pow_exact pw j) -> pow_exact pw (dec_value x) ->
  2 ^ (b + 1) * 10 ^ dec_value x <= 2 ^ c -> c <= 127 ->
  exists v N, hypercv_atof pw p e s = Ret v s /\ fl_ok v /\ sf_num v = Some N
    /\ 2 ^ 24 * Z.abs (10 ^ Z.of_nat (length f) * N - sign_of g * ((dec_value l * 10 ^ Z.of_nat (length f) + dec_value f) * 10 ^ dec_value x) * sf_one)
       <= 10 ^ Z.of_nat (length f) * sf_one * (10 ^ dec_value x * (2 ^ b + Z.of_nat (length f) + 1) + 2 ^ c).
Proof.
  intros pw e s p n g l f bb g2 x b c D N DF DX H LF B Hb BB PW PX HC C127.
  destruct (atof_head pw p e s n g l _ D N H) as (f1 & f2 & pos & F1 & F2 & T & ->).
  assert (SG : sign_of g = 1 \/ sign_of g = -1) by (destruct g as [[|]|]; cbn; lia).
  pose proof (dec_nonneg l D) as VN. pose proof (dec_nonneg x DX) as XN. pose proof U_pos as HU. pose proof one_U as ET.
  assert (P10 : 0 < 10 ^ dec_value x) by (apply Z.pow_pos_nonneg; lia).
  assert (C0 : b + 1 <= c).
  { destruct (Z_le_gt_dec (b + 1) c) as [|G]; [assumption|]. exfalso. destruct (Z_lt_ge_dec c 0) as [Q|Q].
    - rewrite (Z.pow_neg_r 2 c) in HC by lia. pose proof (pow_pos (b + 1) ltac:(lia)). nia.
    - pose proof (pow_lt c (b + 1) ltac:(lia)). pose proof (pow_pos (b + 1) ltac:(lia)). nia. }
  assert (X22 : dec_value x <= 2147483599).
  { destruct (Z_le_gt_dec (dec_value x) 127) as [|G]; [lia|]. exfalso.
    assert (2 ^ 127 < 10 ^ dec_value x) by (apply Z.lt_le_trans with (10 ^ 128); [reflexivity|apply Z.pow_le_mono_r; lia]).
    pose proof (pow_le c 127 ltac:(lia)). pose proof (pow_pos (b + 1) ltac:(lia)). nia. }
  assert (I : isint 24 128 (ints (fl_of_Z 0) l) (dec_value l)).
  { apply (ints_int l (fl_of_Z 0) 0 D); [split; reflexivity|lia|exact B]. }
  destruct f1 as [|f1]; [lia|]. destruct f2 as [|f2]; [lia|]. cbn [app] in T. apply text_cons in T as [T1 T2].
  assert (P1 : part1 (S f1) p pos (ints (fl_of_Z 0) l) e s = Ret (inr (pos + 1, ints (fl_of_Z 0) l, true, false)) s).
  { cbn [part1]. rewrite (bind_ret _ _ e s _ s (load8_byte _ _ e _ _ T1)). reflexivity. }
  rewrite (bind_ret _ _ e s _ s P1). cbn [finish].
  assert (LE : length (digit_text f) = length f) by apply map_length. assert (LX : length (digit_text x) = length x) by apply map_length.
  cbn [length] in F2. rewrite app_length in F2. cbn [length] in F2. rewrite app_length, LE, LX in F2.
  set (dp := fst (decs pw (fl_of_Z 0) 1 f)). rewrite <- app_assoc in T2.
  pose proof (text_app _ _ _ _ _ T2) as T3. rewrite LE in T3. cbn [app] in T3. apply text_cons in T3 as [T3 T4]. rewrite <- app_assoc in T4.
  assert (P2 : part2 pw (S f2) p (pos + 1) (ints (fl_of_Z 0) l) (fl_of_Z 0) 1 0 true false e s
    = Ret (pos + 1 + Z.of_nat (length f) + 1, fl_add (ints (fl_of_Z 0) l) dp, fl_of_Z 0, 0, true) s).
  { replace (S f2) with (length f + (S f2 - length f))%nat by lia.
    rewrite (part2_frac p e s pw _ _ f _ (pos + 1) _ 1 _ DF T2) by lia. fold dp.
    destruct (S f2 - length f)%nat as [|f3] eqn:E3; [lia|]. cbn [part2]. rewrite (bind_ret _ _ e s _ s (load8_byte _ _ e _ _ T3)). destruct bb; reflexivity. }
  rewrite (bind_ret _ _ e s _ s P2). cbn [andb].
  assert (P3 : part3 (S f2) p (pos + 1 + Z.of_nat (length f) + 1) 0 e s = Ret (dec_value x) s).
  { apply (part3_run p e s g2 x); [exact DX|exact T4|exact X22|lia]. }
  rewrite (bind_ret _ _ e s _ s P3). clear P1 P2 P3 T1 T2 T3 T4.
  destruct (decs_err pw f (fl_of_Z 0) 0 0 0 0 DF eq_refl eq_refl ltac:(lia) ltac:(lia) ltac:(lia) ltac:(cbn; lia) ltac:(lia) ltac:(cbn; lia)) as (D' & Vd & Nd & D0 & FB & DE).
  { intros j Hj. apply PW. lia. }
  change (0 + 1) with 1 in Vd, Nd. fold dp in Vd, Nd. rewrite !Z.add_0_l in *. change (dec_from 0 f) with (dec_value f) in *.
  set (m := Z.of_nat (length f)) in *. set (TB := 10 ^ m) in *. assert (HTB : 0 < TB) by (apply Z.pow_pos_nonneg; lia).
  set (w := dec_value l) in *. set (P := 10 ^ dec_value x) in *.
  assert (DB : D' <= sf_one + 22 * STEP).
  { apply (Z.mul_le_mono_pos_l _ _ TB HTB). assert (dec_value f * sf_one <= TB * sf_one) by (apply Z.mul_le_mono_nonneg_r; lia).
    assert (TB * (m * STEP) <= TB * (22 * STEP)) by (apply Z.mul_le_mono_nonneg_l; [lia|]; apply Z.mul_le_mono_nonneg_r; lia). lia. }
  assert (P2b : 2 ^ (b + 1) = 2 ^ b * 2) by (rewrite pow_split by lia; reflexivity).
  assert (W1 : w * sf_one <= (2 ^ b - 1) * sf_one) by (apply Z.mul_le_mono_nonneg_r; lia).
  assert (P2e : 2 ^ (1074 + (b + 1)) = 2 ^ b * 2 * sf_one) by (rewrite pow_split, <- sf_one_eq by lia; rewrite P2b; ring).
  assert (P2c : 2 <= 2 ^ b <= 16777216).
  { change 2 with (2 ^ 1) at 1. change 16777216 with (2 ^ 24). split; apply pow_le; lia. }
  assert (W2 : 2 ^ b * sf_one + 2 * sf_one <= 2 ^ b * 2 * sf_one) by (clear - P2c HU ET; nia).
  destruct I as [Vi Ni].
  pose proof (SFadd_num 24 128 ltac:(lia) ltac:(lia) ltac:(lia) _ _ _ _ Vi Vd Ni Nd) as R.
  apply (round_error 24 128 ltac:(lia) ltac:(lia) ltac:(lia) _ (b + 1)) in R; [|lia|unfold emin; lia].
  destruct R as (Vs & Ns & S0 & SE). set (X := rnd 24 128 1074 (w * sf_one + D')) in *. fold (fl_add (ints (fl_of_Z 0) l) dp) in Vs, Ns.
  replace (1074 + (b + 1) - 24) with (b + (30 + 1021)) in SE by lia. rewrite (pow_split b) in SE by lia. rewrite (pow_split 30) in SE by lia. fold U in SE. change (2 ^ 30) with 1073741824 in SE.
  clearbody X. set (Bb := 2 ^ b) in *. set (Cc := 2 ^ c) in *.
  assert (X4 : 4 * X <= 5 * (Bb * sf_one)) by (clear - SE DB W1 ET HU P2c S0; nia).
  assert (XP : 8 * (X * P) <= 5 * (Cc * sf_one)).
  { clear - X4 HC P2b P10 S0 HU ET. fold Bb in P2b. rewrite P2b in HC. assert (4 * X * P <= 5 * (Bb * sf_one) * P) by (apply Z.mul_le_mono_nonneg_r; lia).
    assert (Bb * 2 * P * sf_one <= Cc * sf_one) by (apply Z.mul_le_mono_nonneg_r; lia). lia. }
  assert (XP0 : 0 <= X * P) by (apply Z.mul_nonneg_nonneg; lia).
  assert (CP : 0 < Cc) by (apply pow_pos; lia).
  assert (C74 : 2 ^ (1074 + c) = Cc * sf_one) by (rewrite pow_split, <- sf_one_eq by lia; unfold Cc; ring).
  (* the product *)
  destruct (db_of_fl_ok _ Vs) as [Ve Ne]. rewrite Ns in Ne. destruct PX as [Vp Np]. fold P in Np.
  pose proof (SFmul_num 53 1024 ltac:(lia) ltac:(lia) ltac:(lia) _ _ _ _ Ve Vp Ne Np) as R.
  replace (X * (P * sf_one)) with (X * P * 2 ^ 1074) in R by (rewrite sf_one_eq; ring).
  apply rounded_scaled in R; [|lia|lia|lia|exact XP0].
  assert (CS : 0 < Cc * sf_one) by (apply Z.mul_pos_pos; lia).
  apply (round_error 53 1024 ltac:(lia) ltac:(lia) ltac:(lia) _ c) in R; [|lia|unfold emin; lia].
  destruct R as (Vy & Ny & Y0 & YE). set (Y := rnd 53 1024 1074 (X * P)) in *. fold (db_mul (db_of_fl (fl_add (ints (fl_of_Z 0) l) dp)) (pw (dec_value x))) in Vy, Ny.
  replace (1074 + c - 53) with (c + 1021) in YE by lia. rewrite (pow_split c) in YE by lia. fold U Cc in YE. clearbody Y.
  destruct (add_zero _ _ Vy Ny) as [Vz Nz]. destruct (sign_exact (sign_of g) _ _ SG Y0 Vz Nz) as [Vt Nt].
  pose proof (fl_of_db_rounded _ _ Vt Nt) as RF.
  assert (CU : Cc * sf_one = 9007199254740992 * (Cc * U)) by (rewrite ET; ring). assert (CU0 : 0 < Cc * U) by (apply Z.mul_pos_pos; lia).
  apply (round_error_abs 24 128 _ c) in RF; [|lia|lia|lia| |unfold emin; lia].
  2: { rewrite C74. destruct SG as [E|E]; rewrite E; lia. }
  destruct RF as (Vr & Nr & RE). set (r := rnd 24 128 1074 (sign_of g * Y)) in *.
  eexists _, r. split; [reflexivity|]. split; [exact Vr|]. split; [exact Nr|].
  replace (1074 + c - 24) with (c + (29 + 1021)) in RE by lia. rewrite (pow_split c) in RE by lia. rewrite (pow_split 29) in RE by lia. fold U Cc in RE. change (2 ^ 29) with 536870912 in RE.
  set (sg := sign_of g) in *. clearbody r.
  replace (TB * r - sg * ((w * TB + dec_value f) * P) * sf_one)
    with (TB * ((r - sg * Y) + sg * (Y - X * P)) + sg * (P * (TB * (X - (w * sf_one + D')) + (TB * D' - dec_value f * sf_one)))) by ring.
  assert (SA : forall z, Z.abs (sg * z) = Z.abs z) by (intros z; rewrite Z.abs_mul; destruct SG as [E|E]; rewrite E; lia).
  assert (A1 : Z.abs (TB * ((r - sg * Y) + sg * (Y - X * P))) <= TB * (268435457 * (Cc * U))).
  { rewrite Z.abs_mul, (Z.abs_eq TB) by lia. apply Z.mul_le_mono_nonneg_l; [lia|]. specialize (SA (Y - X * P)). lia. }
  assert (A2 : Z.abs (sg * (P * (TB * (X - (w * sf_one + D')) + (TB * D' - dec_value f * sf_one)))) <= P * (TB * (Bb * (536870912 * U) + m * STEP))).
  { rewrite SA, Z.abs_mul, (Z.abs_eq P) by lia. apply Z.mul_le_mono_nonneg_l; [lia|].
    assert (Z.abs (TB * (X - (w * sf_one + D'))) <= TB * (Bb * (536870912 * U))) by (rewrite Z.abs_mul, (Z.abs_eq TB) by lia; apply Z.mul_le_mono_nonneg_l; lia). lia. }
  change (2 ^ 24) with 16777216.
  apply Z.le_trans with (16777216 * (TB * (268435457 * (Cc * U)) + P * (TB * (Bb * (536870912 * U) + m * STEP)))).
  { apply Z.mul_le_mono_nonneg_l; [clear; lia|]. eapply Z.le_trans; [apply Z.abs_triangle|]. apply Z.add_le_mono; assumption. }
  rewrite ET. assert (HM : 0 <= m <= 22) by (clear - LF; unfold m; lia).
  replace (TB * (9007199254740992 * U) * (P * (Bb + m + 1) + Cc)) with (TB * (9007199254740992 * (Cc * U)) + (P * TB) * (9007199254740992 * U * (Bb + m + 1))) by ring.
  replace (16777216 * (TB * (268435457 * (Cc * U)) + P * (TB * (Bb * (536870912 * U) + m * STEP))))
    with (TB * (16777216 * (268435457 * (Cc * U))) + (P * TB) * (16777216 * (Bb * (536870912 * U) + m * STEP))) by ring.
  apply Z.add_le_mono; apply Z.mul_le_mono_nonneg_l.
  - clear - HTB. lia.
  - clear - CU0. lia.
  - clear - HTB P10. apply Z.mul_nonneg_nonneg; lia.
  - clear - HM HU P2c. nia.
Qed.
