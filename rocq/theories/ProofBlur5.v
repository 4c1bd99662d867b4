(** * The kernels the blur builds have unit weights. *)
From Verif Require Import Base ModelFloat ModelDouble ModelConv ModelMatrix ModelGauss SpecBase SpecNum SpecMatrix SpecGauss.
From Verif Require Import ProofMatrix ProofFold ProofFloat ProofFloat2 ProofErr ProofFilter ProofBlur ProofBlur2 ProofBlur3 ProofBlur4.
From Coq Require Import Floats.SpecFloat Lia ZifyBool ZifyNat.
Open Scope Z_scope.

(** ** Signs of products and quotients *)
Definition signed (b : bool) (x : sf) : Prop :=
  match x with S754_zero s | S754_infinity s | S754_finite s _ _ => s = b | S754_nan => False end.
Definition finite_sf (x : sf) : Prop := exists a, sf_num x = Some a.

Lemma round_aux_sign prec emax s m ex l :
  signed s (binary_round_aux prec emax s m ex l) \/ binary_round_aux prec emax s m ex l = S754_nan.
Proof.
  unfold binary_round_aux. destruct (shr_fexp prec emax m ex l) as [r1 e1].
  destruct (shr_fexp prec emax (round_nearest_even (shr_m r1) (loc_of_shr_record r1)) e1 loc_Exact) as [r2 e2].
  destruct (shr_m r2); cbn; auto. destruct (e2 <=? emax - prec); cbn; auto.
Qed.

Lemma mul_signed p x s s2 : db_ok p -> db_ok x -> signed s p -> signed s2 x -> finite_sf x ->
  (forall b, x = S754_zero b -> finite_sf p) -> signed (xorb s s2) (db_mul p x).
Proof.
  intros Vp Vx Sp Sx [a Na] Hz. unfold db_mul.
  destruct x as [bx|bx| |bx mx ex]; try discriminate Na; cbn in Sx; subst bx.
  - destruct (Hz s2 eq_refl) as [c Nc]. destruct p as [bp|bp| |bp mp ep]; try discriminate Nc; cbn in Sp |- *; now subst.
  - destruct p as [bp|bp| |bp mp ep]; try contradiction; cbn in Sp; subst bp; try reflexivity.
    pose proof (SFmul_num 53 1024 ltac:(lia) ltac:(lia) ltac:(lia) _ _ _ _ Vp Vx eq_refl eq_refl) as R.
    cbn [SFmul] in R |- *. destruct (round_aux_sign 53 1024 (xorb s s2) (Zpos (mp * mx)) (ep + ex) loc_Exact) as [H|H]; auto.
    rewrite H in R. unfold rounded in R. destruct (_ <? _) in R; [destruct R as [_ R]; discriminate R|discriminate R].
Qed.

Lemma div_opp_l x y : db_div (SFopp x) y = SFopp (db_div x y).
Proof.
  unfold db_div. destruct x as [[|]|[|]| |sx mx ex], y as [[|]|[|]| |sy my ey]; try reflexivity;
    cbn [SFopp SFdiv]; try (now destruct sx); try (now destruct sy).
  destruct (SFdiv_core_binary 53 1024 (Zpos mx) ex (Zpos my) ey) as [[mz ez] lz].
  rewrite <- round_aux_opp. f_equal. now destruct sx, sy.
Qed.

(** ** The factor -1 / (2 sigma^2) *)
Lemma scale_ok x a : db_ok x -> sf_num x = Some a -> 2 ^ 674 <= a <= 2 ^ 1474 ->
  let sc := db_div db_mhalf (db_mul x x) in db_ok sc /\ signed true sc /\ finite_sf sc.
Proof.
  intros V N [Ha1 Ha2]. cbv zeta. assert (A0 : 0 < 2 ^ 674) by (apply pow_pos; lia).
  destruct (db_mul_err x x a a V V N N) as (Vc & c & Nc & Pc & Ec).
  { rewrite Z.abs_eq by (apply Z.mul_nonneg_nonneg; clear - A0 Ha1; lia).
    apply Z.le_trans with (2 ^ 1474 * 2 ^ 1474); [apply Z.mul_le_mono_nonneg; auto; clear - A0 Ha1; lia|].
    rewrite <- Z.pow_add_r by lia. apply Z.pow_le_mono_r; lia. }
  rewrite (Z.abs_eq (a * a)) in Ec by (apply Z.mul_nonneg_nonneg; clear - A0 Ha1; lia).
  assert (L1 : 2 ^ 1348 <= a * a).
  { replace (2 ^ 1348) with (2 ^ 674 * 2 ^ 674) by (rewrite <- Z.pow_add_r by lia; reflexivity).
    apply Z.mul_le_mono_nonneg; auto; clear - A0; lia. }
  assert (L2 : a * a <= 2 ^ 2948).
  { replace (2 ^ 2948) with (2 ^ 1474 * 2 ^ 1474) by (rewrite <- Z.pow_add_r by lia; reflexivity).
    apply Z.mul_le_mono_nonneg; auto; clear - A0 Ha1; lia. }
  assert (L3 : 2 ^ 1126 <= 2 ^ 1348) by (apply Z.pow_le_mono_r; lia).
  assert (C1 : 2 ^ 1347 <= c * 2 ^ 1074).
  { assert (2 ^ 1348 = 2 * 2 ^ 1347) by (rewrite <- Z.pow_succ_r by lia; reflexivity).
    assert (0 < 2 ^ 1347) by (apply pow_pos; lia).
    set (aa := a * a) in *. set (cc := c * 2 ^ 1074) in *. set (y := 2 ^ 1126) in *. set (z := 2 ^ 1348) in *. set (z1 := 2 ^ 1347) in *.
    clearbody aa cc y z z1. clear - Ec L1 L3 H H0. lia. }
  assert (C2 : c * 2 ^ 1074 <= 2 ^ 2949).
  { assert (2 ^ 2949 = 2 * 2 ^ 2948) by (rewrite <- Z.pow_succ_r by lia; reflexivity).
    set (aa := a * a) in *. set (cc := c * 2 ^ 1074) in *. set (y := 2 ^ 1126) in *. set (z := 2 ^ 1348) in *. set (z1 := 2 ^ 2948) in *. set (z2 := 2 ^ 2949) in *.
    clearbody aa cc y z z1 z2. clear - Ec L1 L2 L3 H. lia. }
  assert (P74 : 0 < 2 ^ 1074) by (apply pow_pos; lia).
  assert (C3 : 2 ^ 273 <= c).
  { apply (Z.mul_le_mono_pos_r _ _ (2 ^ 1074) P74). rewrite <- Z.pow_add_r by lia. exact C1. }
  assert (C4 : c <= 2 ^ 1875).
  { apply (Z.mul_le_mono_pos_r _ _ (2 ^ 1074) P74). rewrite <- Z.pow_add_r by lia. exact C2. }
  assert (Vh : db_ok (dlit 1 2)) by (vm_compute; reflexivity).
  assert (Nh : sf_num (dlit 1 2) = Some (2 ^ 1073)) by (vm_compute; reflexivity).
  assert (C0 : 0 < c) by (assert (0 < 2 ^ 273) by (apply pow_pos; lia); clear - C3 H; lia).
  destruct (db_div_err (dlit 1 2) (db_mul x x) (2 ^ 1073) c Vh Vc Nh Nc) as (Vy & y & Ny & Py & Ey).
  { apply pow_pos. lia. }
  { exact C0. }
  { rewrite <- Z.pow_add_r by lia. apply Z.le_trans with (2 ^ 1875); [exact C4|apply Z.pow_le_mono_r; lia]. }
  { apply Z.le_trans with (2 ^ 273 * 2 ^ 1000); [rewrite <- Z.pow_add_r by lia; apply Z.pow_le_mono_r; lia|].
    apply Z.mul_le_mono_nonneg_r; [apply Z.pow_nonneg; lia|exact C3]. }
  assert (Y0 : y <> 0).
  { intros ->. rewrite Z.mul_0_l, Z.sub_0_l, Z.abs_opp in Ey. assert (0 < 2 ^ 1073 * 2 ^ 1074) by (apply Z.mul_pos_pos; apply pow_pos; lia).
    set (q := 2 ^ 1073 * 2 ^ 1074) in *. clearbody q. clear - Ey H. lia. }
  assert (EO : db_div db_mhalf (db_mul x x) = SFopp (db_div (dlit 1 2) (db_mul x x))).
  { rewrite <- div_opp_l. f_equal. }
  rewrite EO. split; [now apply ok_opp|]. split.
  - destruct (db_div (dlit 1 2) (db_mul x x)) as [s|s| |s m ex]; try discriminate Ny; [cbn in Ny; congruence|].
    cbn [sf_num] in Ny. destruct s; [|reflexivity]. exfalso. injection Ny as Ny. cbn [cond_Zopp] in Ny.
    assert (0 <= 2 ^ (ex + 1074)) by (apply Z.pow_nonneg; lia). set (w := 2 ^ (ex + 1074)) in *. clearbody w. clear - Ny H Py Y0. destruct w; lia.
  - exists (- y). apply sf_num_opp. exact Ny.
Qed.

(** ** The arguments of exp *)
Lemma signed_num x a : sf_num x = Some a -> exists s, signed s x.
Proof. destruct x as [s|s| |s m e]; try discriminate; intros; exists s; reflexivity. Qed.

Lemma arg_negative n sc i : 0 <= i < n -> n <= 2147483647 -> db_ok sc -> signed true sc -> finite_sf sc ->
  let y := db_mul (db_mul sc (gauss_x n i)) (gauss_x n i) in db_ok y /\ negative y /\ (2 * i = n - 1 -> y = S754_zero true).
Proof.
  intros Hi Hn V S F. cbv zeta. destruct (gauss_x_num n i Hi Hn) as [Vx Nx]. destruct (signed_num _ _ Nx) as [s Sx].
  set (x := gauss_x n i) in *. assert (Fx : finite_sf x) by (eexists; exact Nx).
  pose proof (mul_signed sc x true s V Vx S Sx Fx (fun _ _ => F)) as S1. pose proof (db_mul_ok sc x V Vx) as V1.
  assert (S2 : signed true (db_mul (db_mul sc x) x)).
  { replace true with (xorb (xorb true s) s) by (now destruct s). apply mul_signed; auto.
    intros b E. rewrite E. destruct F as [f Nf]. destruct sc as [t| | |t m ex]; try discriminate Nf; exists 0; reflexivity. }
  split; [now apply db_mul_ok|]. split.
  - destruct (db_mul (db_mul sc x) x); auto.
  - intros E. assert (X0 : exists b, x = S754_zero b).
    { replace (2 * i - (n - 1)) with 0 in Nx by lia. destruct x as [b| | |b m ex]; try discriminate Nx; [eauto|].
      exfalso. cbn [sf_num] in Nx. injection Nx as Nx. destruct (valid_finite 53 1024 b m ex Vx) as [B _].
      assert (0 < 2 ^ (ex + 1074)) by (apply pow_pos; unfold emin in B; lia). destruct b; cbn [cond_Zopp] in Nx; clear - Nx H; nia. }
    destruct X0 as [b X0]. rewrite X0 in *. destruct F as [f Nf].
    destruct sc as [t| | |t m ex]; try discriminate Nf; cbn in S; subst t; now destruct b.
Qed.

(** ** The standard deviation chosen for larger kernels *)
Lemma auto_sigma n : 9 <= n <= 2048 ->
  let x := db_add (db_mul (db_sub (db_mul (db_of_Z (n - 1)) db_half) (db_of_Z 1)) db_03) db_08 in
  db_ok x /\ exists a, sf_num x = Some a /\ U1 <= 4 * a /\ a <= 2048 * U1.
Proof.
  intros Hn. cbv zeta. pose proof U1_pos as HU.
  destruct (db_of_Z_ok (n - 1) ltac:(lia)) as [Vn Nn]. destruct (db_of_Z_ok 1 ltac:(lia)) as [V1 N1].
  assert (Vh : db_ok (dlit 1 2)) by (vm_compute; reflexivity).
  assert (Nh : sf_num (dlit 1 2) = Some (2 ^ 1073)) by (vm_compute; reflexivity).
  rewrite sf_one_eq in *. unfold db_half.
  pose proof (SFmul_num 53 1024 ltac:(lia) ltac:(lia) ltac:(lia) _ _ _ _ Vn Vh Nn Nh) as Rm.
  apply (rounded_exact 53 1024 2148 _ (n - 1) (-1)) in Rm as [Vm Nm]; try (clear - Hn; unfold emin; lia).
  pose proof (SFsub_num 53 1024 ltac:(lia) ltac:(lia) ltac:(lia) _ _ _ _ Vm V1 Nm N1) as Rs.
  apply (rounded_exact 53 1024 1074 _ (n - 3) (-1)) in Rs as [Vs Ns]; try (clear - Hn; unfold emin; lia).
  change (SFsub 53 1024 (SFmul 53 1024 (db_of_Z (n - 1)) (dlit 1 2)) (db_of_Z 1))
    with (db_sub (db_mul (db_of_Z (n - 1)) (dlit 1 2)) (db_of_Z 1)) in Vs, Ns.
  set (h := db_sub _ _) in *. clearbody h. change (-1 + 1074) with 1073 in Ns.
  assert (V3 : db_ok db_03) by (vm_compute; reflexivity). assert (V8 : db_ok db_08) by (vm_compute; reflexivity).
  assert (N3 : exists z, sf_num db_03 = Some z /\ U1 <= 4 * z /\ 3 * z <= U1).
  { eexists. split; [vm_compute; reflexivity|]. split; apply Z.leb_le; vm_compute; reflexivity. }
  assert (N8 : exists z, sf_num db_08 = Some z /\ 0 <= z <= U1).
  { eexists. split; [vm_compute; reflexivity|]. split; apply Z.leb_le; vm_compute; reflexivity. }
  destruct N3 as (z3 & N3 & B3 & B3'). destruct N8 as (z8 & N8 & B8).
  assert (U2 : U1 = 2 * 2 ^ 1073) by (unfold U1; rewrite <- Z.pow_succ_r by lia; reflexivity).
  assert (H1 : 3 * U1 <= (n - 3) * 2 ^ 1073 <= 1024 * U1).
  { rewrite U2. assert (0 < 2 ^ 1073) by (apply pow_pos; lia). set (q := 2 ^ 1073) in *. clearbody q. clear - H Hn. nia. }
  set (hn := (n - 3) * 2 ^ 1073) in *. clearbody hn. clear U2.
  assert (UU : 0 < U1 * U1) by (apply Z.mul_pos_pos; exact HU).
  assert (M1 : 3 * (U1 * U1) <= 4 * (hn * z3)).
  { replace (3 * (U1 * U1)) with (3 * U1 * U1) by ring. replace (4 * (hn * z3)) with (hn * (4 * z3)) by ring.
    apply Z.mul_le_mono_nonneg; try apply H1; try exact B3; clear - HU; lia. }
  assert (M2 : 3 * (hn * z3) <= 1024 * (U1 * U1)).
  { replace (3 * (hn * z3)) with (hn * (3 * z3)) by ring. replace (1024 * (U1 * U1)) with (1024 * U1 * U1) by ring.
    apply Z.mul_le_mono_nonneg; try apply H1; try exact B3'; [destruct H1 as [H1 _]|]; clear - HU H1 B3; lia. }
  assert (P0 : 0 <= hn * z3) by (clear - M1 UU; lia).
  destruct (db_mul_err h db_03 hn z3 Vs V3 Ns N3) as (Vp & p & Np & Pp & Ep).
  { rewrite Z.abs_eq by exact P0. apply Z.le_trans with (1024 * (U1 * U1)); [clear - M2 P0; lia|].
    unfold U1. rewrite <- Z.pow_add_r by lia. change 1024 with (2 ^ 10) at 1. rewrite <- Z.pow_add_r by lia. apply Z.pow_le_mono_r; lia. }
  specialize (Pp P0). fold U1 in Ep. rewrite (Z.abs_eq (hn * z3)) in Ep by exact P0.
  assert (PB : U1 <= 2 * p /\ p <= 512 * U1).
  { pose proof pow_1126 as Q. split; apply (Z.mul_le_mono_pos_r _ _ U1 HU).
    - replace (2 * p * U1) with (2 * (p * U1)) by ring. set (y := 2 ^ 1126) in *. set (pU := p * U1) in *. set (X := U1 * U1) in *. set (hz := hn * z3) in *.
      clearbody y pU X hz. clear - Ep Q M1 M2 UU. lia.
    - replace (512 * U1 * U1) with (512 * (U1 * U1)) by ring. set (y := 2 ^ 1126) in *. set (pU := p * U1) in *. set (X := U1 * U1) in *. set (hz := hn * z3) in *.
      clearbody y pU X hz. clear - Ep Q M1 M2 UU. lia. }
  destruct (db_add_err (db_mul h db_03) db_08 p z8 Vp V8 Np N8) as (Va & a & Na & Pa & Ea).
  { apply small_2000. clear - PB B8 HU. lia. }
  split; auto. exists a. split; auto. pose proof pow_52 as Q. set (y := 2 ^ 52) in *. rewrite (Z.abs_eq (p + z8)) in Ea by (clear - PB B8 HU; lia).
  clearbody y. clear - Ea PB B8 HU Q. lia.
Qed.

(** ** Unit weights *)
Lemma exp_unit exp_ n sigma a : exp_like exp_ -> 0 < n <= 2048 -> Z.odd n = true ->
  db_ok sigma -> sf_num sigma = Some a -> 2 ^ 674 <= a <= 2 ^ 1474 ->
  unit_weights n (weight4 n (gauss_t exp_ false n (db_div db_mhalf (db_mul sigma sigma)))).
Proof.
  intros [[Z1 Z2] HN] Hn Ho V N B. destruct (scale_ok sigma a V N B) as (Vs & Ss & Fs). set (sc := db_div _ _) in *. clearbody sc.
  set (t := fun i => match sf_num (gauss_t exp_ false n sc i) with Some a => a | None => 0 end).
  apply (weight4_unit n _ t Hn).
  - intros i Hi. destruct (arg_negative n sc i Hi ltac:(clear - Hn; lia) Vs Ss Fs) as (Va & Na & _).
    destruct (HN _ Va Na) as (Ve & e & Ne & Be). unfold t, gauss_t. rewrite Ne. rewrite sf_one_eq in Be. auto.
  - apply Z.odd_spec in Ho as [q Hq]. exists q. split; [clear - Hq Hn; lia|].
    destruct (arg_negative n sc q ltac:(clear - Hq Hn; lia) ltac:(clear - Hn; lia) Vs Ss Fs) as (_ & _ & E).
    unfold t, gauss_t. rewrite E by (clear - Hq; lia). rewrite Z2. exact sf_one_eq.
Qed.

Definition table_num (n i : Z) : Z := nth (Z.to_nat i) (small_gaussian_tab (n / 2)) 0 * 2 ^ 1067.

Lemma table_weights exp_ n sc i : n = 1 \/ n = 3 \/ n = 5 \/ n = 7 -> 0 <= i < n ->
  sf_num (fl_of_bits (weight4 n (gauss_t exp_ true n sc) i)) = Some (table_num n i)
  /\ sf_num (db_of_bits (weight5 n (gauss_t exp_ true n sc) i)) = Some (table_num n i).
Proof.
  intros [-> |[-> |[-> | ->]]] Hi.
  - assert (i = 0) as -> by lia. split; vm_compute; reflexivity.
  - assert (C : i = 0 \/ i = 1 \/ i = 2) by lia. destruct C as [-> |[-> | ->]]; split; vm_compute; reflexivity.
  - assert (C : i = 0 \/ i = 1 \/ i = 2 \/ i = 3 \/ i = 4) by lia.
    destruct C as [-> |[-> |[-> |[-> | ->]]]]; split; vm_compute; reflexivity.
  - assert (C : i = 0 \/ i = 1 \/ i = 2 \/ i = 3 \/ i = 4 \/ i = 5 \/ i = 6) by lia.
    destruct C as [-> |[-> |[-> |[-> |[-> |[-> | ->]]]]]]; split; vm_compute; reflexivity.
Qed.

Lemma table_total n : n = 1 \/ n = 3 \/ n = 5 \/ n = 7 -> total n (table_num n) = U1.
Proof. intros [-> |[-> |[-> | ->]]]; vm_compute; reflexivity. Qed.

Lemma table_nonneg n i : 0 <= table_num n i.
Proof.
  unfold table_num. apply Z.mul_nonneg_nonneg; [|apply Z.pow_nonneg; lia].
  unfold small_gaussian_tab. destruct (Z.to_nat (n / 2)) as [|[|[|[|[|]]]]]; destruct (Z.to_nat i) as [|[|[|[|[|[|[|[|]]]]]]]]; cbn; lia.
Qed.

Lemma table_unit exp_ n sc : n = 1 \/ n = 3 \/ n = 5 \/ n = 7 -> unit_weights n (weight4 n (gauss_t exp_ true n sc)).
Proof.
  intros Hn. exists (table_num n). split.
  - intros k Hk. split; [unfold weight4, fl_word; apply Z.mod_pos_bound; lia|]. split; [now apply table_weights|apply table_nonneg].
  - rewrite table_total by auto. rewrite Z.sub_diag. pose proof U1_pos. cbn [Z.abs Z.mul]. lia.
Qed.

Lemma leb_zero x a : db_ok x -> sf_num x = Some a -> SFleb x (db_of_Z 0) = (a <=? 0).
Proof.
  intros V N. destruct (db_of_Z_ok 0 ltac:(lia)) as [V0 N0]. unfold SFleb.
  rewrite (compare_num 53 1024 ltac:(lia) ltac:(lia) ltac:(lia) x _ a _ V V0 N N0). cbn [Z.mul].
  unfold Z.leb. destruct (a ?= 0); reflexivity.
Qed.

Theorem kernel_unit exp_ n sigma : exp_like exp_ -> 0 < n <= 2048 -> Z.odd n = true -> good_sigma sigma ->
  unit_weights n (weight4 n (gauss_t exp_ (gauss_fixed n sigma) n (gauss_scale n sigma))).
Proof.
  intros He Hn Ho (V & a & N & B). unfold gauss_fixed. rewrite (leb_zero sigma a V N).
  destruct (db_of_Z_ok 0 ltac:(lia)) as [V0 N0].
  assert (Er : (Z.rem n 2 =? 1) = true).
  { rewrite Z.rem_mod_nonneg by lia. rewrite Zmod_odd, Ho. reflexivity. }
  rewrite Er. unfold gauss_scale. rewrite (db_ltb _ _ _ _ V0 V N0 N). cbn [andb Z.mul].
  destruct B as [B|B].
  - replace (a <=? 0) with true by lia. replace (0 <? a) with false by lia. rewrite andb_true_r.
    destruct (Z.leb_spec n 7).
    + apply table_unit. apply Z.odd_spec in Ho as [q Hq]. lia.
    + assert (9 <= n <= 2048) by (apply Z.odd_spec in Ho as [q Hq]; lia).
      destruct (auto_sigma n H0) as (Va & x & Nx & B1 & B2). eapply exp_unit; eauto. unfold U1 in B1, B2. split.
      * apply Z.le_trans with (2 ^ 1072); [apply Z.pow_le_mono_r; lia|]. replace (2 ^ 1074) with (4 * 2 ^ 1072) in B1; [lia|].
        change 4 with (2 ^ 2). rewrite <- Z.pow_add_r by lia. reflexivity.
      * etransitivity; [exact B2|]. change 2048 with (2 ^ 11). rewrite <- Z.pow_add_r by lia. apply Z.pow_le_mono_r; lia.
  - assert (0 < 2 ^ 674) by (apply pow_pos; lia). replace (a <=? 0) with false by (clear - B H; lia). rewrite andb_false_r.
    replace (0 <? a) with true by (clear - B H; lia). eapply exp_unit; eauto.
Qed.
