(** * Proofs: exact values of the float transforms. *)
From Verif Require Import Base Logic ModelFloat ModelConv SpecBase SpecNum SpecMatrix SpecStat SpecFilter SpecNorm SpecFourier
  ProofFloat ProofFloat2 ProofConv ProofDiv ProofErr ProofFold ProofFilter ProofGrad ProofValid ProofMatrix ProofStat ProofSpectral4 ProofNorm.
From Coq Require Import Floats.SpecFloat ZifyBool ZifyNat.
Ltac Zify.zify_post_hook ::= Z.div_mod_to_equations.
Open Scope Z_scope.

Lemma num_zero p em x : valid_binary p em x = true -> -1074 <= emin p em -> sf_num x = Some 0 -> exists b, x = S754_zero b.
Proof.
  intros V He N. destruct x as [s|s| |s m e]; try discriminate N; [eauto|]. exfalso.
  apply (valid_finite p em) in V as [V C]. cbn [sf_num] in N. injection N as N.
  assert (0 <= e + 1074) by (unfold fexp in C; lia).
  pose proof (pow_pos (e + 1074) ltac:(lia)) as HP. clear - N HP. generalize dependent (2 ^ (e + 1074)). intros u N HP.
  destruct s; cbn [cond_Zopp] in N; nia.
Qed.

Lemma db_zero_mul x y b : db_ok x -> db_ok y -> sf_num x = Some 0 -> sf_num y = Some b -> isint 53 1024 (db_mul x y) 0.
Proof.
  intros Vx Vy Nx Ny. split; [now apply db_mul_ok|].
  destruct (num_zero 53 1024 x Vx ltac:(unfold emin; lia) Nx) as (s & ->).
  destruct y as [t|t| |t m e]; try discriminate Ny; reflexivity.
Qed.
Lemma db_mul_zero x y a : db_ok x -> db_ok y -> sf_num x = Some a -> sf_num y = Some 0 -> isint 53 1024 (db_mul x y) 0.
Proof.
  intros Vx Vy Nx Ny. split; [now apply db_mul_ok|].
  destruct (num_zero 53 1024 y Vy ltac:(unfold emin; lia) Ny) as (s & ->).
  destruct x as [t|t| |t m e]; try discriminate Nx; reflexivity.
Qed.
Lemma db_Z z : Z.abs z <= 9007199254740992 -> isint 53 1024 (db_of_Z z) z.
Proof. intros H. apply (of_Z_int 53 1024); try lia. Qed.

Lemma step_int a p z w : fint a z -> isint 53 1024 p w -> Z.abs (z + w) <= 16777216 ->
  fint (fl_of_db (db_add (db_of_fl a) p)) (z + w).
Proof.
  intros A P H. apply fl_of_db_int; [|exact H]. apply (add_int 53 1024); try lia; auto. now apply db_of_fl_int.
Qed.

(** ** Angles are finite, and zero where they should be *)
Lemma fl_div_zero x y m : fint x 0 -> fint y m -> m <> 0 -> fint (fl_div x y) 0.
Proof. intros X Y H. apply (div_int 24 128 ltac:(lia) ltac:(lia) ltac:(lia) ltac:(lia) x y 0 m 0); auto; lia. Qed.

Section Angle.
  Variables (cos_ sin_ : sf -> sf) (R C : Z).
  Notation mach := (machine cos_ sin_).

  Definition turn (i j x y : Z) : sf :=
    fl_add (fl_div (fl_mul (fl_of_Z i) (fl_of_Z x)) (fl_of_Z R)) (fl_div (fl_mul (fl_of_Z j) (fl_of_Z y)) (fl_of_Z C)).
  Definition circle (sign : Z) : sf := db_mul (db_of_Z (sign * 2)) (dlit 31415926 10000000).
  Lemma angle_eq sign i j x y : angle mach R C sign i j x y = db_mul (circle sign) (db_of_fl (turn i j x y)).
  Proof. reflexivity. Qed.

  Lemma circle_num sign : sign = 1 \/ sign = -1 -> db_ok (circle sign) /\ exists a, sf_num (circle sign) = Some a /\ Z.abs a <= 2 ^ 1077.
  Proof.
    intros [->| ->]; (split; [vm_compute; reflexivity|]).
    - exists (7074237631354954 * 2 ^ 1024). split; [vm_compute; reflexivity|vm_compute; discriminate].
    - exists (- 7074237631354954 * 2 ^ 1024). split; [vm_compute; reflexivity|vm_compute; discriminate].
  Qed.

  Hypotheses (HR : 0 < R <= 16777216) (HC : 0 < C <= 16777216).

  Lemma turn_zero i j x y : Z.abs i <= 16777216 -> Z.abs j <= 16777216 -> Z.abs x <= 16777216 -> Z.abs y <= 16777216 ->
    i * x = 0 -> j * y = 0 -> fint (turn i j x y) 0.
  Proof.
    intros Hi Hj Hx Hy E1 E2. unfold turn. replace 0 with (0 + 0) by reflexivity. apply fint_add; [| |lia].
    - apply (fl_div_zero _ _ R); [|apply fint_Z; lia|lia]. rewrite <- E1. apply fint_mul; try (apply fint_Z; lia). lia.
    - apply (fl_div_zero _ _ C); [|apply fint_Z; lia|lia]. rewrite <- E2. apply fint_mul; try (apply fint_Z; lia). lia.
  Qed.

  Lemma angle_zero sign i j x y : sign = 1 \/ sign = -1 ->
    Z.abs i <= 16777216 -> Z.abs j <= 16777216 -> Z.abs x <= 16777216 -> Z.abs y <= 16777216 ->
    i * x = 0 -> j * y = 0 -> db_ok (angle mach R C sign i j x y) /\ sf_num (angle mach R C sign i j x y) = Some 0.
  Proof.
    intros Hs Hi Hj Hx Hy E1 E2. rewrite angle_eq. destruct (circle_num sign Hs) as (V & a & N & _).
    destruct (db_of_fl_int _ _ (turn_zero i j x y Hi Hj Hx Hy E1 E2)) as [Vt Nt].
    exact (db_mul_zero _ _ a V Vt N Nt).
  Qed.

  Lemma quotient_num n m x y : fint x n -> fint y m -> 0 <= n < 4194304 -> 0 < m <= 16777216 ->
    exists c, fl_ok (fl_div x y) /\ sf_num (fl_div x y) = Some c /\ 0 <= c <= 8388608 * sf_one.
  Proof.
    intros X Y Hn Hm. destruct (fint_div x y n m X Y Hn Hm) as (V & c & N & C0 & E & _). exists c. split; auto. split; auto. split; auto.
    change (2 ^ 24) with 16777216 in E. pose proof sf_one_pos as HU. clear - E C0 Hn Hm HU. generalize dependent sf_one. intros u E HU.
    assert (c * m <= 2 * (n * u)) by nia. nia.
  Qed.

  Lemma angle_num sign i j x y : sign = 1 \/ sign = -1 -> 0 <= i < 2048 -> 0 <= j < 2048 -> 0 <= x < 2048 -> 0 <= y < 2048 ->
    exists a, db_ok (angle mach R C sign i j x y) /\ sf_num (angle mach R C sign i j x y) = Some a.
  Proof.
    intros Hs Hi Hj Hx Hy. rewrite angle_eq. destruct (circle_num sign Hs) as (V & a & N & Ba). pose proof sf_one_pos as HU.
    destruct (quotient_num (i * x) R (fl_mul (fl_of_Z i) (fl_of_Z x)) (fl_of_Z R)) as (c1 & V1 & N1 & B1);
      [apply fint_mul; try (apply fint_Z; lia); nia|apply fint_Z; lia|nia|lia|].
    destruct (quotient_num (j * y) C (fl_mul (fl_of_Z j) (fl_of_Z y)) (fl_of_Z C)) as (c2 & V2 & N2 & B2);
      [apply fint_mul; try (apply fint_Z; lia); nia|apply fint_Z; lia|nia|lia|].
    destruct big_facts as (B & K & EB & EK & HB & HK & HK0).
    destruct (fl_add_err _ _ c1 c2 V1 V2 N1 N2) as (V3 & c3 & N3 & P3 & E3).
    { rewrite <- EB. assert (Z.abs (c1 + c2) = c1 + c2) as -> by (clear - B1 B2; lia).
      assert (F : 16777216 * sf_one <= B).
      { rewrite EB, sf_one_eq. change 16777216 with (2 ^ 24). rewrite <- Z.pow_add_r by (clear; lia). apply Z.pow_le_mono_r; clear; lia. }
      clear - B1 B2 F. lia. }
    rewrite <- EK in E3. change (2 ^ 24) with 16777216 in E3.
    assert (B3 : 0 <= c3 <= 2 ^ 1100).
    { assert (F : 33554432 * sf_one <= 2 ^ 1100).
      { rewrite sf_one_eq. change 33554432 with (2 ^ 25). rewrite <- Z.pow_add_r by (clear; lia). apply Z.pow_le_mono_r; clear; lia. }
      split; [apply P3; clear - B1 B2; lia|]. clear - B1 B2 E3 HK HK0 F HU. generalize dependent (2 ^ 1100). intros. lia. }
    destruct (db_of_fl_ok _ V3) as [V4 N4]. rewrite N3 in N4. fold (turn i j x y) in V4, N4.
    destruct (db_mul_err _ _ a c3 V V4 N N4) as (V5 & c5 & N5 & _).
    { rewrite Z.abs_mul, (Z.abs_eq c3) by apply B3.
      assert (F : 2 ^ 1077 * 2 ^ 1100 <= 2 ^ 3170) by (rewrite <- Z.pow_add_r by (clear; lia); apply Z.pow_le_mono_r; clear; lia).
      eapply Z.le_trans; [|exact F]. apply Z.mul_le_mono_nonneg; [apply Z.abs_nonneg|exact Ba|apply B3|apply B3]. }
    eauto.
  Qed.
End Angle.

(** ** Sums of whole numbers *)
Lemma sum2_nonneg R C g : 0 <= R -> 0 <= C -> (forall x y, 0 <= x < R -> 0 <= y < C -> 0 <= g x y) ->
  forall x, 0 <= x < R -> 0 <= sumz C (g x).
Proof. intros HR HC H x Hx. apply sumz_nonneg'; auto. Qed.

Lemma grid_int cos_ sin_ R C g w : 0 <= R -> 0 <= C -> (forall x y, 0 <= x < R -> 0 <= y < C -> isint 53 1024 (g x y) (w x y) /\ 0 <= w x y) ->
  sumz R (fun x => sumz C (w x)) <= 16777216 ->
  fint (grid_sum (machine cos_ sin_) R C g) (sumz R (fun x => sumz C (w x))).
Proof.
  intros HR HC H HS. unfold grid_sum.
  apply (foldz_int _ (fun x => sumz C (w x)) (fl_of_Z 0) 0); try lia.
  - apply fint_Z. lia.
  - intros x Hx. apply sumz_nonneg'; auto. intros y Hy. now apply H.
  - intros x b z Hx Hb Hz Hs. apply (foldz_int _ (w x) b z); auto.
    + intros y Hy. now apply H.
    + intros y b' z' Hy Hb' Hz' Hs'. apply step_int; [auto|now apply H|]. pose proof (proj2 (H x y Hx Hy)). lia.
Qed.

Lemma grid_zero cos_ sin_ R C g : 0 <= R -> 0 <= C -> (forall x y, 0 <= x < R -> 0 <= y < C -> isint 53 1024 (g x y) 0) ->
  fint (grid_sum (machine cos_ sin_) R C g) 0.
Proof.
  intros HR HC H. assert (E : sumz R (fun x => sumz C (fun _ => 0)) = 0).
  { rewrite (sumz_ext R _ (fun _ => 0)) by (intros; rewrite sumz_const; lia). rewrite sumz_const; lia. }
  rewrite <- E. apply (grid_int cos_ sin_ R C g (fun _ _ => 0)); auto; [|rewrite E; lia]. intros x y Hx Hy. split; [auto|lia].
Qed.

Section Values.
  Variables (cos_ sin_ : sf -> sf).
  Hypothesis T : trig_like cos_ sin_.
  Notation mach := (machine cos_ sin_).

  Lemma cos_at0 x v : db_ok x -> sf_num x = Some 0 -> Z.abs v <= 9007199254740992 -> isint 53 1024 (db_mul (db_of_Z v) (cos_ x)) v.
  Proof.
    intros V N Hv. destruct (T x 0 V N) as (V1 & V2 & _ & _ & E). destruct (E eq_refl) as [E1 E2].
    refine (eq_ind _ (isint 53 1024 _) _ _ (Z.mul_1_r v)). apply (mul_int 53 1024); try lia; [now apply db_Z|]. split; [exact V1|]. rewrite E1, Z.mul_1_l. reflexivity.
  Qed.
  Lemma sin_at0 x v : db_ok x -> sf_num x = Some 0 -> Z.abs v <= 9007199254740992 -> isint 53 1024 (db_mul (db_of_Z v) (sin_ x)) 0.
  Proof.
    intros V N Hv. destruct (T x 0 V N) as (V1 & V2 & _ & _ & E). destruct (E eq_refl) as [E1 E2].
    destruct (db_Z v Hv) as [Vv Nv]. eapply db_mul_zero; eauto.
  Qed.
  Lemma zero_times x a : db_ok x -> sf_num x = Some a ->
    isint 53 1024 (db_mul (db_of_Z 0) (cos_ x)) 0 /\ isint 53 1024 (db_mul (db_of_Z 0) (sin_ x)) 0.
  Proof.
    intros V N. destruct (T x a V N) as (V1 & V2 & (c & Nc) & (d & Nd) & _). destruct (db_Z 0 ltac:(lia)) as [Vz Nz].
    split; eapply db_zero_mul; eauto.
  Qed.

  (** The first value of the transform is the sum of the image. *)
  Lemma first_value R C P : 0 < R <= 16777216 -> 0 < C <= 16777216 ->
    (forall x y, 0 <= x < R -> 0 <= y < C -> 0 <= P x y) -> sumz R (fun x => sumz C (P x)) <= 16777216 ->
    fint (dft_re mach R C P 0 0) (sumz R (fun x => sumz C (P x))) /\ fint (dft_im mach R C P 0 0) 0.
  Proof.
    intros HR HC HP HS. unfold dft_re, dft_im.
    assert (Pb : forall x y, 0 <= x < R -> 0 <= y < C -> P x y <= 16777216).
    { intros x y Hx Hy.
      assert (L : forall n f k, 0 <= n -> (forall i, 0 <= i < n -> 0 <= f i) -> 0 <= k < n -> f k <= sumz n f).
      { clear. intros n f k Hn. revert k. pattern n. apply natlike_ind; auto; [intros; lia|]. intros m Hm IH k Hf Hk. unfold Z.succ in *. rewrite sumz_S by lia.
        assert (0 <= sumz m f) by (apply sumz_nonneg'; auto; intros; apply Hf; lia).
        destruct (Z.eq_dec k m) as [->|]; [pose proof (Hf m ltac:(lia)); lia|]. pose proof (IH k (fun i Hi => Hf i ltac:(lia)) ltac:(lia)). pose proof (Hf m ltac:(lia)). lia. }
      pose proof (L C (P x) y ltac:(lia) (fun i Hi => HP x i Hx Hi) Hy) as L1.
      pose proof (L R (fun x => sumz C (P x)) x ltac:(lia) (fun i Hi => sumz_nonneg' C (P i) ltac:(lia) (fun j Hj => HP i j Hi Hj)) Hx) as L2. cbv beta in L2. lia. }
    split.
    - apply grid_int; try lia. intros x y Hx Hy. split; [|auto]. specialize (HP x y Hx Hy). specialize (Pb x y Hx Hy).
      destruct (angle_zero cos_ sin_ R C HR HC (-1) 0 0 x y) as [V N]; auto; try lia.
      apply cos_at0; auto. lia.
    - apply grid_zero; try lia. intros x y Hx Hy. specialize (HP x y Hx Hy). specialize (Pb x y Hx Hy).
      destruct (angle_zero cos_ sin_ R C HR HC (-1) 0 0 x y) as [V N]; auto; try lia.
      apply sin_at0; auto. lia.
  Qed.

  (** An image with a single point, the first one, has a constant transform. *)
  Definition spike (v x y : Z) : Z := if (x =? 0) && (y =? 0) then v else 0.

  Lemma sum_first n v : 0 < n -> sumz n (fun x => if x =? 0 then v else 0) = v.
  Proof.
    intros Hn. replace n with ((n - 1) + 1) by lia. generalize (n - 1) (ltac:(lia) : 0 <= n - 1). clear n Hn. intros n Hn.
    pattern n. apply natlike_ind; auto. intros k Hk IH. unfold Z.succ. rewrite sumz_S by lia.
    rewrite IH. replace (k + 1 =? 0) with false by lia. lia.
  Qed.
  Lemma sum_spike R C v : 0 < R -> 0 < C -> sumz R (fun x => sumz C (spike v x)) = v.
  Proof.
    intros HR HC. rewrite (sumz_ext R _ (fun x => if x =? 0 then v else 0)); [now apply sum_first|].
    intros x Hx. unfold spike. destruct (x =? 0); cbn [andb]; [now apply sum_first|]. rewrite sumz_const; lia.
  Qed.

  Lemma spike_value R C v i j : 0 < R <= 2048 -> 0 < C <= 2048 -> 0 <= v <= 65535 -> 0 <= i < R -> 0 <= j < C ->
    fint (dft_re mach R C (spike v) i j) v /\ fint (dft_im mach R C (spike v) i j) 0.
  Proof.
    intros HR HC Hv Hi Hj. unfold dft_re, dft_im. split.
    - refine (eq_ind _ (fint _) _ _ (sum_spike R C v ltac:(lia) ltac:(lia))). apply grid_int; try lia; [|rewrite sum_spike; lia].
      intros x y Hx Hy. split; [|unfold spike; destruct (_ && _); lia]. unfold spike.
      destruct (Z.eqb_spec x 0) as [->|Nx]; [destruct (Z.eqb_spec y 0) as [->|Ny]|]; cbn [andb].
      + destruct (angle_zero cos_ sin_ R C ltac:(lia) ltac:(lia) (-1) i j 0 0) as [V N]; auto; try lia. apply cos_at0; auto. lia.
      + destruct (angle_num cos_ sin_ R C ltac:(lia) ltac:(lia) (-1) i j 0 y) as (a & V & N); auto; try lia. eapply zero_times; eauto.
      + destruct (angle_num cos_ sin_ R C ltac:(lia) ltac:(lia) (-1) i j x y) as (a & V & N); auto; try lia. eapply zero_times; eauto.
    - apply grid_zero; try lia. intros x y Hx Hy. unfold spike.
      destruct (Z.eqb_spec x 0) as [->|Nx]; [destruct (Z.eqb_spec y 0) as [->|Ny]|]; cbn [andb].
      + destruct (angle_zero cos_ sin_ R C ltac:(lia) ltac:(lia) (-1) i j 0 0) as [V N]; auto; try lia. apply sin_at0; auto. lia.
      + destruct (angle_num cos_ sin_ R C ltac:(lia) ltac:(lia) (-1) i j 0 y) as (a & V & N); auto; try lia. eapply zero_times; eauto.
      + destruct (angle_num cos_ sin_ R C ltac:(lia) ltac:(lia) (-1) i j x y) as (a & V & N); auto; try lia. eapply zero_times; eauto.
  Qed.

  (** ... and comes back n times as large from a transform of n * n points. *)
  Lemma flat_back R C v n re im : 0 < R <= 2048 -> 0 < C <= 2048 -> 0 <= v -> R * C = n * n -> 0 < n -> R * C * v < 4194304 ->
    (forall x y, 0 <= x < R -> 0 <= y < C -> fint (re x y) v /\ fint (im x y) 0) ->
    saturate_cast_float2uchar (dft_inverse mach R C re im 0 0) = clamp 0 255 (n * v).
  Proof.
    intros HR HC Hv Hn Hn0 Hb H. unfold dft_inverse. cbn [machine narrow d_div widen d_root d_int d_sub d_mul d_cos d_sin].
    apply (double_quotient _ _ (R * C * v) n); try nia.
    - replace (R * C * v) with (sumz R (fun x => sumz C (fun _ => v))).
      2:{ rewrite (sumz_ext R _ (fun _ => C * v)) by (intros; rewrite sumz_const; lia). rewrite sumz_const by lia. ring. }
      apply grid_int; try lia.
      2:{ rewrite (sumz_ext R _ (fun _ => C * v)) by (intros; rewrite sumz_const; lia). rewrite sumz_const by lia. nia. }
      intros x y Hx Hy. split; [|lia]. destruct (H x y Hx Hy) as [A B].
      destruct (angle_zero cos_ sin_ R C ltac:(lia) ltac:(lia) 1 0 0 x y) as [V N]; auto; try lia.
      destruct (T _ 0 V N) as (V1 & V2 & _ & _ & E). destruct (E eq_refl) as [E1 E2].
      apply db_of_fl_int in A, B. destruct A as [Va Na]. destruct B as [Vb Nb].
      assert (Hv' : v <= 4194304) by nia.
      refine (eq_ind _ (isint 53 1024 _) _ _ (Z.sub_0_r v)). apply (sub_int 53 1024); try lia.
      + refine (eq_ind _ (isint 53 1024 _) _ _ (Z.mul_1_r v)). apply (mul_int 53 1024); try lia; [split; auto|]. split; [exact V1|]. rewrite E1, Z.mul_1_l. reflexivity.
      + eapply db_mul_zero; eauto.
    - apply sqrt_whole; [nia|]. rewrite Hn. apply db_Z. nia.
    - unfold nearest_even. split; [nia|]. nia.
  Qed.
End Values.
