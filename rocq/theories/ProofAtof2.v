(** * hypercv_atof: wrong exponents and signs; the error of fractions. *)
From Verif Require Import Base Logic ModelFloat SpecBase SpecNum SpecAtof ModelAtof ProofCore ProofFloat ProofFloat2 ProofDiv ProofWeighted ProofGrad ProofErr ProofAtof.
From Coq Require Import Floats.SpecFloat ZifyBool ZifyNat.
Ltac Zify.zify_post_hook ::= Z.div_mod_to_equations.
Open Scope Z_scope.

(** ** What is not understood *)
Lemma atof_minus_exponent : forall pw e s p n g l b r,
  digits l -> l <> [] -> c_string s p (head_text n g l ++ (if b : bool then 69 else 101) :: 45 :: r) ->
  dec_value l <= 16777168 -> pow_exact pw 0 ->
  exists v, hypercv_atof pw p e s = Ret v s /\ denotes v (sign_of g * dec_value l).
Proof.
  intros pw e s p n g l b r D N H B PW. destruct (atof_head pw p e s n g l _ D N H) as (f1 & f2 & pos & F1 & F2 & T & ->).
  assert (SG : sign_of g = 1 \/ sign_of g = -1) by (destruct g as [[|]|]; cbn; lia).
  pose proof (dec_nonneg l D) as VN.
  assert (I : isint 24 128 (ints (fl_of_Z 0) l) (dec_value l)).
  { apply (ints_int l (fl_of_Z 0) 0 D); [split; reflexivity|lia|exact B]. }
  destruct f1 as [|f1]; [lia|]. destruct f2 as [|f2]; [lia|]. cbn [app] in T. apply text_cons in T as [T1 T]. apply text_cons in T as [T2 _].
  assert (P1 : part1 (S f1) p pos (ints (fl_of_Z 0) l) e s = Ret (inr (pos + 1, ints (fl_of_Z 0) l, false, true)) s).
  { cbn [part1]. rewrite (bind_ret _ _ e s _ s (load8_byte _ _ e _ _ T1)). destruct b; reflexivity. }
  rewrite (bind_ret _ _ e s _ s P1). cbn [finish].
  assert (P2 : part2 pw (S f2) p (pos + 1) (ints (fl_of_Z 0) l) (fl_of_Z 0) 1 0 false true e s = Ret (pos + 1, ints (fl_of_Z 0) l, fl_of_Z 0, 0, true) s).
  { cbn [part2]. rewrite (bind_ret _ _ e s _ s (load8_byte _ _ e _ _ T2)). reflexivity. }
  rewrite (bind_ret _ _ e s _ s P2). cbn [andb]. rewrite (bind_ret _ _ e s 0 s eq_refl).
  eexists. split; [reflexivity|]. replace (dec_value l) with (dec_value l * 10 ^ 0) by lia. apply final_int; auto; lia.
Qed.

Lemma atof_sign_lost : forall pw e s p n g l c r,
  digits l -> l <> [] -> c_string s p (head_text n g l ++ c :: r) ->
  dec_value l <= 16777168 -> c <> 0 -> ~ 48 <= c <= 57 -> c <> 46 -> c <> 69 -> c <> 101 ->
  exists v, hypercv_atof pw p e s = Ret v s /\ denotes v (dec_value l).
Proof.
  intros pw e s p n g l c r D N H B C0 C1 C2 C3 C4. destruct (atof_head pw p e s n g l _ D N H) as (f1 & f2 & pos & F1 & F2 & T & ->).
  pose proof (dec_nonneg l D) as VN.
  assert (I : isint 24 128 (ints (fl_of_Z 0) l) (dec_value l)).
  { apply (ints_int l (fl_of_Z 0) 0 D); [split; reflexivity|lia|exact B]. }
  destruct f1 as [|f1]; [lia|]. cbn [app] in T. apply text_cons in T as [T1 _].
  assert (P1 : part1 (S f1) p pos (ints (fl_of_Z 0) l) e s = Ret (inl (ints (fl_of_Z 0) l)) s).
  { cbn [part1]. rewrite (bind_ret _ _ e s _ s (load8_byte _ _ e _ _ T1)). unfold isdigit, is_e.
    replace (c =? 0) with false by lia. replace ((48 <=? c) && (c <=? 57)) with false by lia. replace (c =? 46) with false by lia.
    replace ((c =? 101) || (c =? 69)) with false by lia. reflexivity. }
  rewrite (bind_ret _ _ e s _ s P1). cbn [finish]. eexists. split; [reflexivity|]. destruct I as [V E].
  split; [exact V|]. rewrite E. symmetry. apply fl_of_Z_ok. lia.
Qed.

(** ** Fractions *)
Definition U : Z := 2 ^ 1021.
Lemma U_pos : 0 < U. Proof. apply pow_pos. lia. Qed.
Lemma one_U : sf_one = 9007199254740992 * U.
Proof. rewrite sf_one_eq. unfold U. change 1074 with (53 + 1021). rewrite pow_split by lia. reflexivity. Qed.

Lemma dig_div x y d b : isint 53 1024 x d -> isint 53 1024 y b -> 0 <= d -> d < b <= 2 ^ 80 ->
  exists q, db_ok (db_div x y) /\ sf_num (db_div x y) = Some q /\ 0 <= q /\ Z.abs (b * q - d * sf_one) <= b * U.
Proof.
  intros [Vx Nx] [Vy Ny] Hd [Hb Hb2]. pose proof sf_one_pos as HO. pose proof U_pos as HU.
  destruct (Z.eq_dec d 0) as [->|Hd0].
  { exists 0. assert (E : exists t, x = S754_zero t).
    { rewrite Z.mul_0_l in Nx. destruct x as [t| | |t m ex]; try discriminate Nx; [eauto|]. pose proof (db_emin _ _ _ Vx). cbn [sf_num] in Nx.
      pose proof (pow_pos (ex + 1074) ltac:(lia)). injection Nx as Nx. destruct t; cbn [cond_Zopp] in Nx; nia. }
    destruct E as [t ->]. destruct y as [t'| | |t' m ey]; try discriminate Ny.
    - cbn [sf_num] in Ny. injection Ny as Ny. nia.
    - repeat split; try reflexivity; lia. }
  assert (L1 : b * sf_one <= d * sf_one * 2 ^ 900).
  { assert (B9 : b <= 2 ^ 900) by (etransitivity; [exact Hb2|apply pow_le; clear; lia]).
    generalize dependent (2 ^ 900). clear - HO Hd Hd0 Hb. intros W B9. transitivity (sf_one * W); [rewrite Z.mul_comm; apply Z.mul_le_mono_nonneg_l; lia|].
    apply Z.mul_le_mono_nonneg_r; [lia|]. clear B9. nia. }
  assert (L2 : d * sf_one <= b * sf_one * 2 ^ 1000).
  { assert (P : 0 < 2 ^ 1000) by (apply pow_pos; clear; lia). generalize dependent (2 ^ 1000). clear - HO Hd Hb. intros W P.
    transitivity (b * sf_one); [apply Z.mul_le_mono_nonneg_r; lia|]. clear - HO Hd Hb P. assert (0 < b * sf_one) by nia. nia. }
  destruct (db_div_err x y (d * sf_one) (b * sf_one) Vx Vy Nx Ny ltac:(clear - Hd Hd0 HO; nia) ltac:(clear - Hb Hd HO; nia) L1 L2) as (V & q & Nq & Q0 & E).
  clear L1 L2. exists q. split; [exact V|]. split; [exact Nq|]. split; [exact Q0|]. rewrite <- sf_one_eq in E. change (2 ^ 53) with 9007199254740992 in E.
  pose proof one_U as EU. clear - E EU HU HO Hd Hb.
  assert (E2 : Z.abs (b * q - d * sf_one) * 9007199254740992 <= d * sf_one).
  { apply (Z.mul_le_mono_pos_r _ _ sf_one HO).
    replace (Z.abs (b * q - d * sf_one) * 9007199254740992 * sf_one) with (Z.abs (q * (b * sf_one) - d * sf_one * sf_one) * 9007199254740992); [exact E|].
    replace (q * (b * sf_one) - d * sf_one * sf_one) with ((b * q - d * sf_one) * sf_one) by ring. rewrite Z.abs_mul, (Z.abs_eq sf_one) by lia. ring. }
  assert (d * U <= b * U) by (apply Z.mul_le_mono_nonneg_r; lia).
  clear E. set (w := Z.abs (b * q - d * sf_one)) in *. clearbody w. rewrite EU in E2. lia.
Qed.

Lemma round_error_abs prec emax A d x : 1 < prec -> prec < emax -> -1074 <= 3 - emax - prec ->
  Z.abs A < 2 ^ (1074 + d) -> emin prec emax + prec <= d < emax -> rounded prec emax 1074 A x ->
  valid_binary prec emax x = true /\ sf_num x = Some (rnd prec emax 1074 A) /\ 2 * Z.abs (rnd prec emax 1074 A - A) <= 2 ^ (1074 + d - prec).
Proof.
  intros H1 H2 H3 HA Hd R. pose proof (rnd_error prec emax H3 A) as E.
  assert (Hr : rexp prec emax 1074 A + 1074 <= 1074 + d - prec).
  { unfold rexp, fexp. destruct (Z.eq_dec A 0) as [->|Hne]; [change (Zdigits2 0) with 0; unfold emin in *; lia|].
    assert (ED : Zdigits2 A = Zdigits2 (Z.abs A)).
    { destruct (Z.abs_spec A) as [[_ ->]|[_ ->]]; [reflexivity|]. symmetry. apply digits_opp. }
    rewrite ED. pose proof (digits_le (Z.abs A) (1074 + d) ltac:(lia) ltac:(lia)). lia. }
  pose proof (rexp_ge prec emax 1074 A) as Hg. unfold emin in *.
  pose proof (pow_le (rexp prec emax 1074 A + 1074) (1074 + d - prec) ltac:(lia)) as HP.
  unfold rounded in R. replace (Z.abs (rnd prec emax 1074 A) <? 2 ^ (emax + 1074)) with true in R.
  { destruct R as [V N]. repeat split; auto. lia. }
  symmetry. apply Z.ltb_lt. pose proof (pow_lt (1074 + d - prec) (1074 + d) ltac:(lia)).
  pose proof (pow_le (1074 + d + 1) (emax + 1074) ltac:(lia)) as HQ. rewrite pow_split in HQ by lia. change (2 ^ 1) with 2 in HQ. lia.
Qed.

Lemma fl_of_db_rounded x a : db_ok x -> sf_num x = Some a -> rounded 24 128 1074 a (fl_of_db x).
Proof.
  intros V N. destruct x as [t| | |t m ex]; try discriminate N.
  - cbn in N. injection N as <-. change (fl_of_db (S754_zero t)) with (S754_zero t). apply (rounded_valid 24 128); try lia; reflexivity.
  - pose proof (db_emin _ _ _ V) as He. cbn [sf_num] in N. injection N as <-. apply normalize_rounded; try lia. unfold emin. lia.
Qed.

Notation STEP := (536870914 * U) (only parsing).
Lemma dec_step_err pw dp D f K d k : fl_ok dp -> sf_num dp = Some D -> 0 <= D -> 0 <= d <= 9 -> 0 <= k < 22 -> 0 <= f < 10 ^ k ->
  0 <= K <= 1000 * STEP -> Z.abs (10 ^ k * D - f * sf_one) <= 10 ^ k * K -> pow_exact pw (k + 1) ->
  exists D', fl_ok (dec_step pw dp (d + 48) (k + 1)) /\ sf_num (dec_step pw dp (d + 48) (k + 1)) = Some D' /\ 0 <= D'
    /\ Z.abs (10 ^ (k + 1) * D' - (10 * f + d) * sf_one) <= 10 ^ (k + 1) * (K + STEP).
Proof.
  intros V N HD Hd Hk Hf HK HE PW. pose proof U_pos as HU. pose proof one_U as ET.
  unfold dec_step. replace (d + 48 - 48) with d by lia. 
  assert (EB : 10 ^ (k + 1) = 10 * 10 ^ k) by (rewrite Z.pow_add_r by lia; change (10 ^ 1) with 10; lia).
  assert (HB : 0 < 10 ^ k) by (apply Z.pow_pos_nonneg; lia).
  assert (HB2 : 10 ^ (k + 1) <= 2 ^ 80).
  { apply Z.le_trans with (10 ^ 22); [apply Z.pow_le_mono_r; lia|]. vm_compute. discriminate. }
  destruct (dig_div (db_of_Z d) (pw (k + 1)) d (10 ^ (k + 1))) as (q & Vq & Nq & Q0 & QE); [apply of_Z_int; try lia; change (2 ^ 53) with 9007199254740992; lia|exact PW|lia|lia|].
  destruct (db_of_fl_ok dp V) as [Vd Nd]. rewrite N in Nd.
  set (B := 10 ^ (k + 1)) in *. set (B0 := 10 ^ k) in *.
  assert (S1 : Z.abs (B * (D + q) - (10 * f + d) * sf_one) <= B * (K + U)).
  { replace (B * (D + q) - (10 * f + d) * sf_one) with (10 * (B0 * D - f * sf_one) + (B * q - d * sf_one)) by (rewrite EB; ring).
    rewrite EB in *. lia. }
  assert (S2 : D + q < 2 * sf_one - 8 * U).
  { assert ((10 * f + d) * sf_one <= (B - 1) * sf_one) by (apply Z.mul_le_mono_nonneg_r; lia).
    assert (B * (D + q) <= B * (sf_one + K + U)) by lia.
    assert (D + q <= sf_one + K + U) by (apply (Z.mul_le_mono_pos_l _ _ B); lia). lia. }
  pose proof (SFadd_num 53 1024 ltac:(lia) ltac:(lia) ltac:(lia) _ _ _ _ Vd Vq Nd Nq) as R.
  assert (P75 : 2 ^ (1074 + 1) = 2 * sf_one) by (rewrite pow_split by lia; rewrite <- sf_one_eq; change (2 ^ 1) with 2; lia).
  apply (round_error 53 1024 ltac:(lia) ltac:(lia) ltac:(lia) _ 1) in R; [|lia|unfold emin; lia].
  destruct R as (Vs & Ns & S0 & SE). set (S := rnd 53 1024 1074 (D + q)) in *.
  change (1074 + 1 - 53) with (1 + 1021) in SE. rewrite pow_split in SE by lia. fold U in SE. change (2 ^ 1) with 2 in SE.
  pose proof (fl_of_db_rounded _ _ Vs Ns) as R.
  apply (round_error 24 128 ltac:(lia) ltac:(lia) ltac:(lia) _ 1) in R; [|lia|unfold emin; lia].
  destruct R as (Vr & Nr & R0 & RE). set (r := rnd 24 128 1074 S) in *.
  change (1074 + 1 - 24) with (30 + 1021) in RE. rewrite pow_split in RE by lia. fold U in RE. change (2 ^ 30) with 1073741824 in RE.
  exists r. split; [exact Vr|]. split; [exact Nr|]. split; [exact R0|].
  assert (DR : Z.abs (r - (D + q)) <= 536870913 * U) by lia.
  replace (B * r - (10 * f + d) * sf_one) with (B * (r - (D + q)) + (B * (D + q) - (10 * f + d) * sf_one)) by ring.
  assert (Z.abs (B * (r - (D + q))) <= B * (536870913 * U)) by (rewrite Z.abs_mul, (Z.abs_eq B) by lia; apply Z.mul_le_mono_nonneg_l; lia).
  lia.
Qed.

Definition decs (pw : Z -> sf) (dp : sf) (dd : Z) (l : list Z) : sf * Z :=
  fold_left (fun x d => (dec_step pw (fst x) (d + 48) (snd x), snd x + 1)) l (dp, dd).

Lemma part2_frac p e s pw ip ex : forall l fuel i dp dd r, digits l -> text_at s p i (digit_text l ++ r) -> 0 <= dd -> dd + Z.of_nat (length l) <= 2147483647 ->
  part2 pw (length l + fuel) p i ip dp dd ex true false e s
  = part2 pw fuel p (i + Z.of_nat (length l)) ip (fst (decs pw dp dd l)) (dd + Z.of_nat (length l)) ex true false e s.
Proof.
  induction l as [|d l IH]; intros fuel i dp dd r D H V B; [cbn; rewrite !Z.add_0_r; reflexivity|].
  apply digits_cons in D as [D DL]. cbn [digit_text map app] in H. apply text_cons in H as [H T]. cbn [length Nat.add part2] in *.
  rewrite (bind_ret _ _ e s (d + 48) s) by (apply load8_byte; exact H).
  replace (d + 48 =? 0) with false by lia. unfold isdigit. replace (48 <=? d + 48) with true by lia. replace (d + 48 <=? 57) with true by lia. cbn [andb].
  rewrite (bind_ret _ _ e s (dd + 1) s).
  2: { apply ev_ok. unfold cadd, cop, ci, chk, in_int, INT_MIN, INT_MAX.
       replace ((-2147483648 <=? dd + 1) && (dd + 1 <=? 2147483647)) with true by lia. reflexivity. }
  rewrite (IH fuel (i + 1) _ (dd + 1) r DL T) by lia. unfold decs at 2. cbn [fold_left fst snd]. unfold decs. f_equal; lia.
Qed.

Lemma decs_err pw : forall l dp D f K k, digits l -> fl_ok dp -> sf_num dp = Some D -> 0 <= D -> 0 <= k -> k + Z.of_nat (length l) <= 22 -> 0 <= f < 10 ^ k ->
  0 <= K <= k * STEP -> Z.abs (10 ^ k * D - f * sf_one) <= 10 ^ k * K -> (forall j, 0 < j <= k + Z.of_nat (length l) -> pow_exact pw j) ->
  let n := k + Z.of_nat (length l) in
  exists D', fl_ok (fst (decs pw dp (k + 1) l)) /\ sf_num (fst (decs pw dp (k + 1) l)) = Some D' /\ 0 <= D'
    /\ 0 <= dec_from f l < 10 ^ n
    /\ Z.abs (10 ^ n * D' - dec_from f l * sf_one) <= 10 ^ n * (K + Z.of_nat (length l) * STEP).
Proof.
  pose proof U_pos as HU.
  induction l as [|d l IH]; intros dp D f K k DD V N HD Hk HL Hf HK HE PW n.
  - unfold n. cbn [length]. rewrite Z.add_0_r. exists D. cbn [decs fold_left fst dec_from]. split; [exact V|]. split; [exact N|]. split; [exact HD|]. split; [exact Hf|]. lia.
  - apply digits_cons in DD as [Hd DL]. cbn [length] in HL, PW.
    assert (KS : k * STEP <= 1000 * STEP) by (apply Z.mul_le_mono_nonneg_r; lia).
    destruct (dec_step_err pw dp D f K d k V N HD Hd ltac:(lia) Hf ltac:(lia) HE (PW (k + 1) ltac:(lia))) as (D1 & V1 & N1 & P1 & E1).
    assert (EB : 10 ^ (k + 1) = 10 * 10 ^ k) by (rewrite Z.pow_add_r by lia; change (10 ^ 1) with 10; lia).
    destruct (IH (dec_step pw dp (d + 48) (k + 1)) D1 (10 * f + d) (K + STEP) (k + 1) DL V1 N1 P1 ltac:(lia) ltac:(lia) ltac:(lia) ltac:(lia) E1) as (D2 & V2 & N2 & P2 & F2 & E2).
    { intros j Hj. apply PW. lia. }
    assert (En : k + 1 + Z.of_nat (length l) = n) by (unfold n; cbn [length]; lia). rewrite En in *.
    exists D2. unfold decs in *. cbn [fold_left fst snd dec_from] in *. fold (dec_from (10 * f + d) l).
    split; [exact V2|]. split; [exact N2|]. split; [exact P2|]. split; [exact F2|].
    replace (K + Z.of_nat (length (d :: l)) * STEP) with (K + STEP + Z.of_nat (length l) * STEP) by (cbn [length]; lia). exact E2.
Qed.

Lemma atof_fraction : forall pw e s p n g l f b,
  digits l -> l <> [] -> digits f -> c_string s p (head_text n g l ++ 46 :: digit_text f) ->
  (length f <= 22)%nat -> dec_value l <= 16777168 -> 1 <= b <= 24 -> dec_value l < 2 ^ b ->
  (forall j, 0 <= j <= Z.of_nat (length f) -> pow_exact pw j) ->
  exists v N, hypercv_atof pw p e s = Ret v s /\ fl_ok v /\ sf_num v = Some N
    /\ 2 ^ 24 * Z.abs (10 ^ Z.of_nat (length f) * N - sign_of g * (dec_value l * 10 ^ Z.of_nat (length f) + dec_value f) * sf_one)
       <= 10 ^ Z.of_nat (length f) * sf_one * (2 ^ b + Z.of_nat (length f) + 1).
Proof.
  intros pw e s p n g l f b D N DF H LF B Hb BB PW. destruct (atof_head pw p e s n g l _ D N H) as (f1 & f2 & pos & F1 & F2 & T & ->).
  assert (SG : sign_of g = 1 \/ sign_of g = -1) by (destruct g as [[|]|]; cbn; lia).
  pose proof (dec_nonneg l D) as VN. pose proof U_pos as HU. pose proof one_U as ET.
  assert (I : isint 24 128 (ints (fl_of_Z 0) l) (dec_value l)).
  { apply (ints_int l (fl_of_Z 0) 0 D); [split; reflexivity|lia|exact B]. }
  destruct f1 as [|f1]; [lia|]. destruct f2 as [|f2]; [lia|]. cbn [app] in T. apply text_cons in T as [T1 T2].
  assert (P1 : part1 (S f1) p pos (ints (fl_of_Z 0) l) e s = Ret (inr (pos + 1, ints (fl_of_Z 0) l, true, false)) s).
  { cbn [part1]. rewrite (bind_ret _ _ e s _ s (load8_byte _ _ e _ _ T1)). reflexivity. }
  rewrite (bind_ret _ _ e s _ s P1). cbn [finish].
  assert (LE : length (digit_text f) = length f) by apply map_length. cbn [length] in F2. rewrite LE in F2.
  set (dp := fst (decs pw (fl_of_Z 0) 1 f)).
  assert (P2 : exists i', part2 pw (S f2) p (pos + 1) (ints (fl_of_Z 0) l) (fl_of_Z 0) 1 0 true false e s
    = Ret (i', ints (fl_of_Z 0) l, dp, 0, false) s).
  { exists (pos + 1 + Z.of_nat (length f)). replace (S f2) with (length f + (S f2 - length f))%nat by lia.
    rewrite (part2_frac p e s pw _ _ f _ (pos + 1) _ 1 [0] DF T2) by lia. fold dp.
    apply text_app in T2. rewrite LE in T2. apply text_cons in T2 as [T2 _].
    destruct (S f2 - length f)%nat as [|f3] eqn:E3; [lia|]. cbn [part2]. rewrite (bind_ret _ _ e s _ s (load8_byte _ _ e _ _ T2)). reflexivity. }
  destruct P2 as (i' & P2). rewrite (bind_ret _ _ e s _ s P2). cbn [andb]. rewrite (bind_ret _ _ e s 0 s eq_refl).
  destruct (decs_err pw f (fl_of_Z 0) 0 0 0 0 DF eq_refl eq_refl ltac:(lia) ltac:(lia) ltac:(lia) ltac:(cbn; lia) ltac:(lia) ltac:(cbn; lia)) as (D' & Vd & Nd & D0 & FB & DE).
  { intros j Hj. apply PW. lia. }
  change (0 + 1) with 1 in Vd, Nd. fold dp in Vd, Nd. rewrite !Z.add_0_l in *. change (dec_from 0 f) with (dec_value f) in *.
  set (m := Z.of_nat (length f)) in *. set (TB := 10 ^ m) in *. assert (HTB : 0 < TB) by (apply Z.pow_pos_nonneg; lia).
  assert (I0 : isint 53 1024 (db_mul (db_of_fl (ints (fl_of_Z 0) l)) (pw 0)) (dec_value l)).
  { destruct I as [Vi Ni]. replace (dec_value l) with (dec_value l * 1) by lia. apply mul_int; try lia.
    - unfold isint. destruct (db_of_fl_ok _ Vi) as [A ->]. split; assumption.
    - exact (PW 0 ltac:(lia)). }
  destruct I0 as [Vm Nm]. destruct (db_of_fl_ok dp Vd) as [Ve Ne]. rewrite Nd in Ne.
  set (w := dec_value l) in *.
  assert (DB : D' <= sf_one + 22 * STEP).
  { apply (Z.mul_le_mono_pos_l _ _ TB HTB). assert (dec_value f * sf_one <= TB * sf_one) by (apply Z.mul_le_mono_nonneg_r; lia).
    assert (TB * (m * STEP) <= TB * (22 * STEP)) by (apply Z.mul_le_mono_nonneg_l; [lia|]; apply Z.mul_le_mono_nonneg_r; lia). lia. }
  assert (P2b : 2 ^ b * 2 = 2 ^ (b + 1)) by (rewrite pow_split by lia; reflexivity).
  assert (W1 : w * sf_one <= (2 ^ b - 1) * sf_one) by (apply Z.mul_le_mono_nonneg_r; lia).
  assert (P2e : 2 ^ (1074 + (b + 1)) = 2 ^ b * 2 * sf_one) by (rewrite pow_split, <- sf_one_eq by lia; rewrite P2b; ring).
  assert (P2c : 2 <= 2 ^ b <= 16777216).
  { change 2 with (2 ^ 1) at 1. change 16777216 with (2 ^ 24). split; apply pow_le; lia. }
  assert (W2 : 2 ^ b * sf_one + 2 * sf_one <= 2 ^ b * 2 * sf_one) by (clear - P2c HU ET; nia).
  pose proof (SFadd_num 53 1024 ltac:(lia) ltac:(lia) ltac:(lia) _ _ _ _ Vm Ve Nm Ne) as R.
  apply (round_error 53 1024 ltac:(lia) ltac:(lia) ltac:(lia) _ (b + 1)) in R; [|lia|unfold emin; lia].
  destruct R as (Vs & Ns & S0 & SE). set (X := rnd 53 1024 1074 (w * sf_one + D')) in *.
  assert (SE' : 2 * Z.abs (X - (w * sf_one + D')) <= 2 * (2 ^ 24 * U)).
  { eapply Z.le_trans; [exact SE|]. apply Z.le_trans with (2 ^ (25 + 1021)); [apply pow_le; lia|]. unfold U. rewrite pow_split by lia. change (2 ^ 25) with (2 * 2 ^ 24). lia. }
  clear SE. change (2 ^ 24) with 16777216 in *. clearbody X.
  (* the sign is exact *)
  pose proof (SFmul_num 53 1024 ltac:(lia) ltac:(lia) ltac:(lia) (db_of_Z (sign_of g)) _ (sign_of g * sf_one) X ltac:(apply db_of_Z_ok; lia) Vs ltac:(apply db_of_Z_ok; lia) Ns) as R.
  assert (RM : db_ok (db_mul (db_of_Z (sign_of g)) (db_add (db_mul (db_of_fl (ints (fl_of_Z 0) l)) (pw 0)) (db_of_fl dp)))
    /\ sf_num (db_mul (db_of_Z (sign_of g)) (db_add (db_mul (db_of_fl (ints (fl_of_Z 0) l)) (pw 0)) (db_of_fl dp))) = Some (sign_of g * X)).
  { clear - R Vs Ns SG S0. unfold db_add in *. set (y := SFadd 53 1024 _ _) in *. clearbody y. destruct SG as [E|E]; rewrite E in *; destruct y as [t| | |t mm ex]; try discriminate Ns.
    - cbn in Ns. injection Ns as <-. split; reflexivity.
    - assert (V2 : rnd 53 1024 2148 (1 * sf_one * X) = 1 * X).
      { replace (1 * sf_one * X) with (X * 2 ^ 1074) by (rewrite sf_one_eq; ring). change 2148 with (1074 + 1074). rewrite rnd_scale by (try lia; unfold emin; lia).
        rewrite (valid_rnd 53 1024) with (x := S754_finite t mm ex); try lia; auto. }
      unfold rounded in R. rewrite V2 in R. replace (Z.abs (1 * X) <? 2 ^ (1024 + 1074)) with true in R; [exact R|].
      symmetry. apply Z.ltb_lt. rewrite Z.mul_1_l. apply (valid_bound 53 1024) with (x := S754_finite t mm ex); try lia; auto.
    - cbn in Ns. injection Ns as <-. split; reflexivity.
    - assert (V2 : rnd 53 1024 2148 (-1 * sf_one * X) = -1 * X).
      { replace (-1 * sf_one * X) with (- (X * 2 ^ 1074)) by (rewrite sf_one_eq; ring). rewrite rnd_opp by (unfold emin; lia). change 2148 with (1074 + 1074). rewrite rnd_scale by (try lia; unfold emin; lia).
        rewrite (valid_rnd 53 1024) with (x := S754_finite t mm ex); try lia; auto. }
      unfold rounded in R. rewrite V2 in R. replace (Z.abs (-1 * X) <? 2 ^ (1024 + 1074)) with true in R; [exact R|].
      symmetry. apply Z.ltb_lt. replace (-1 * X) with (- X) by ring. rewrite Z.abs_opp. apply (valid_bound 53 1024) with (x := S754_finite t mm ex); try lia; auto. }
  destruct RM as [Vt Nt]. pose proof (fl_of_db_rounded _ _ Vt Nt) as RF.
  apply (round_error_abs 24 128 _ (b + 1)) in RF; [|lia|lia|lia| |unfold emin; lia].
  2: { rewrite P2e. destruct SG as [E|E]; rewrite E; lia. }
  destruct RF as (Vr & Nr & RE). set (r := rnd 24 128 1074 (sign_of g * X)) in *.
  eexists _, r. split; [reflexivity|]. split; [exact Vr|]. split; [exact Nr|].
  replace (1074 + (b + 1) - 24) with (b + 1051) in RE by lia. rewrite pow_split in RE by lia. change 1051 with (30 + 1021) in RE. rewrite (pow_split 30) in RE by lia. fold U in RE. change (2 ^ 30) with 1073741824 in RE.
  set (sg := sign_of g) in *.
  assert (A1 : Z.abs (r - sg * (w * sf_one + D')) <= 2 ^ b * (536870912 * U) + 16777216 * U).
  { replace (r - sg * (w * sf_one + D')) with ((r - sg * X) + sg * (X - (w * sf_one + D'))) by ring.
    assert (Z.abs (sg * (X - (w * sf_one + D'))) = Z.abs (X - (w * sf_one + D'))) by (rewrite Z.abs_mul; destruct SG as [E|E]; rewrite E; lia). lia. }
  replace (TB * r - sg * (w * TB + dec_value f) * sf_one) with (TB * (r - sg * (w * sf_one + D')) + sg * (TB * D' - dec_value f * sf_one)) by ring.
  assert (A2 : Z.abs (sg * (TB * D' - dec_value f * sf_one)) <= TB * (m * STEP)) by (rewrite Z.abs_mul; destruct SG as [E|E]; rewrite E; lia).
  assert (A3 : Z.abs (TB * (r - sg * (w * sf_one + D'))) <= TB * (2 ^ b * (536870912 * U) + 16777216 * U)) by (rewrite Z.abs_mul, (Z.abs_eq TB) by lia; apply Z.mul_le_mono_nonneg_l; lia).
  apply Z.le_trans with (16777216 * (TB * (2 ^ b * (536870912 * U) + 16777216 * U) + TB * (m * STEP))); [lia|].
  rewrite ET. assert (HM : 0 <= m <= 22) by lia. 
  replace (TB * (9007199254740992 * U) * (2 ^ b + m + 1)) with (TB * ((9007199254740992 * U) * (2 ^ b + m + 1))) by ring.
  replace (16777216 * (TB * (2 ^ b * (536870912 * U) + 16777216 * U) + TB * (m * STEP))) with (TB * (16777216 * (2 ^ b * (536870912 * U) + 16777216 * U + m * STEP))) by ring.
  apply Z.mul_le_mono_nonneg_l; [lia|]. clear - HM HU P2c. nia.
Qed.
