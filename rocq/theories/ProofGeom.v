(** * Exact float arithmetic on small dyadic numbers, and the five-tap filter. *)
From Verif Require Import Base ModelFloat ModelDouble ModelConv ModelMatrix ModelGauss Logic SpecBase SpecNum SpecMatrix SpecGauss SpecGeom.
From Verif Require Import ProofFloat ProofFloat2 ProofErr ProofFold ProofBlur ProofBlur2 ProofBlur5 ProofConv.
From Coq Require Import Floats.SpecFloat Lia ZifyBool ZifyNat.
Open Scope Z_scope.

(** The float x is w * 2^g. *)
Definition fdy (g : Z) (x : sf) (w : Z) : Prop := fl_ok x /\ sf_num x = Some (w * 2 ^ (g + 1074)).

Lemma small_pow g w : -100 <= g <= 0 -> Z.abs w <= 16777216 -> Z.abs w * 2 ^ (g + 1074) < 2 ^ (128 + 1074).
Proof.
  intros Hg Hw. assert (2 ^ (g + 1074) <= 2 ^ 1074) by (apply Z.pow_le_mono_r; lia).
  assert (0 < 2 ^ (g + 1074)) by (apply pow_pos; lia).
  apply Z.le_lt_trans with (2 ^ 24 * 2 ^ 1074); [change (2 ^ 24) with 16777216; nia|].
  rewrite <- Z.pow_add_r by lia. apply Z.pow_lt_mono_r; lia.
Qed.

Lemma fdy_add g x y a b : -100 <= g <= 0 -> fdy g x a -> fdy g y b -> Z.abs (a + b) <= 16777216 -> fdy g (fl_add x y) (a + b).
Proof.
  intros Hg [Vx Nx] [Vy Ny] Hb.
  pose proof (SFadd_num 24 128 ltac:(lia) ltac:(lia) ltac:(lia) x y _ _ Vx Vy Nx Ny) as R.
  refine (rounded_exact 24 128 1074 _ (a + b) g _ _ _ _ _ _ _ _ _ R); try (unfold emin; lia).
  apply small_pow; auto.
Qed.

Lemma fdy_mul g h x y a b : -50 <= g <= 0 -> -50 <= h <= 0 -> fdy g x a -> fdy h y b -> Z.abs (a * b) <= 16777216 ->
  fdy (g + h) (fl_mul x y) (a * b).
Proof.
  intros Hg Hh [Vx Nx] [Vy Ny] Hb.
  pose proof (SFmul_num 24 128 ltac:(lia) ltac:(lia) ltac:(lia) x y _ _ Vx Vy Nx Ny) as R.
  refine (rounded_exact 24 128 2148 _ (a * b) (g + h) _ _ _ _ _ _ _ _ _ R); try (unfold emin; lia).
  - replace (g + h + 2148) with ((g + 1074) + (h + 1074)) by lia. rewrite (Z.pow_add_r 2 (g + 1074)) by lia. ring.
  - apply small_pow; auto; lia.
Qed.

Lemma fdy_Z z : Z.abs z <= 16777216 -> fdy 0 (fl_of_Z z) z.
Proof. intros H. destruct (fl_of_Z_ok z H) as [V N]. split; auto. Qed.

Lemma pow_unit g : -100 <= g <= 0 -> 2 ^ (- g) * 2 ^ (g + 1074) = sf_one.
Proof. intros. rewrite sf_one_eq, <- Z.pow_add_r by lia. f_equal. lia. Qed.

Lemma fdy_lift g x z : -100 <= g <= 0 -> fdy 0 x z -> fdy g x (z * 2 ^ (- g)).
Proof. intros Hg [V N]. split; auto. rewrite N. f_equal. rewrite <- Z.mul_assoc, pow_unit by auto. reflexivity. Qed.

Lemma fdy_limit g x w : -100 <= g <= 0 -> fdy g x w -> 0 <= w -> fdy g (limit x) (Z.min (255 * 2 ^ (- g)) w).
Proof.
  intros Hg [V N] Hw. unfold limit.
  destruct (fl_of_Z_ok 0 ltac:(lia)) as [V0 N0]. destruct (fl_of_Z_ok 255 ltac:(lia)) as [V1 N1].
  rewrite (fl_ltb _ _ _ _ V V0 N N0). rewrite (fl_ltb _ _ _ _ V1 V N1 N).
  assert (P : 0 < 2 ^ (g + 1074)) by (apply pow_pos; lia).
  replace (w * 2 ^ (g + 1074) <? 0 * sf_one) with false by (symmetry; apply Z.ltb_ge; nia).
  rewrite <- (pow_unit g Hg) in *. destruct (Z.ltb_spec (255 * (2 ^ (- g) * 2 ^ (g + 1074))) (w * 2 ^ (g + 1074))) as [L|L].
  - rewrite Z.min_l by nia. split; auto. rewrite N1. f_equal. ring.
  - rewrite Z.min_r by nia. split; auto.
Qed.

Definition b5 (k : Z) : Z := nth (Z.to_nat k) [1; 4; 6; 4; 1] 0.

Lemma foldz5 {T} (f : T -> Z -> T) a : foldz 5 f a = f (f (f (f (f a 0) 1) 2) 3) 4.
Proof. reflexivity. Qed.

Lemma smooth5 g h K line p v M : -10 <= g <= 0 -> -10 <= h <= 0 -> M <= 1048576 ->
  (forall k, 0 <= k < 5 -> fdy g (fl_of_bits (K k)) (b5 k)) ->
  (forall a, -2 <= a <= 2 -> fdy h (line (p + a)) (v a) /\ 0 <= v a <= M) ->
  fdy (g + h) (smooth 5 K line p) (Z.min (255 * 2 ^ (- (g + h))) (sum5 v)).
Proof.
  intros Hg Hh HM HK HL.
  assert (T : forall k, 0 <= k < 5 -> fdy (g + h) (fl_mul (fl_of_bits (K k)) (line (p + k - 5 / 2))) (b5 k * v (k - 2))
              /\ 0 <= b5 k * v (k - 2) <= b5 k * M).
  { intros k Hk. assert (B : 0 <= b5 k <= 6).
    { assert (k = 0 \/ k = 1 \/ k = 2 \/ k = 3 \/ k = 4) as C by lia. destruct C as [-> |[-> |[-> |[-> | ->]]]]; vm_compute; split; discriminate. }
    destruct (HL (k - 2) ltac:(lia)) as [F V]. change (5 / 2) with 2. replace (p + k - 2) with (p + (k - 2)) by lia.
    split; [|nia]. apply fdy_mul; auto; try lia. nia. }
  unfold smooth. apply fdy_limit; [lia| |].
  - assert (F0 : fdy (g + h) (fl_of_Z 0) 0).
    { pose proof (fdy_lift (g + h) _ _ ltac:(lia) (fdy_Z 0 ltac:(lia))) as F. exact F. }
    replace (foldz 5 _ _) with
      (fl_add (fl_add (fl_add (fl_add (fl_add (fl_of_Z 0) (fl_mul (fl_of_bits (K 0)) (line (p + 0 - 5 / 2))))
         (fl_mul (fl_of_bits (K 1)) (line (p + 1 - 5 / 2)))) (fl_mul (fl_of_bits (K 2)) (line (p + 2 - 5 / 2))))
         (fl_mul (fl_of_bits (K 3)) (line (p + 3 - 5 / 2)))) (fl_mul (fl_of_bits (K 4)) (line (p + 4 - 5 / 2)))).
    2:{ symmetry. apply foldz5. }
    destruct (T 0 ltac:(lia)) as [T0 B0]. destruct (T 1 ltac:(lia)) as [T1 B1]. destruct (T 2 ltac:(lia)) as [T2 B2].
    destruct (T 3 ltac:(lia)) as [T3 B3]. destruct (T 4 ltac:(lia)) as [T4 B4]. clear T.
    change (b5 0) with 1 in *. change (b5 1) with 4 in *. change (b5 2) with 6 in *. change (b5 3) with 4 in *. change (b5 4) with 1 in *.
    change (0 - 2) with (-2) in *. change (1 - 2) with (-1) in *. change (2 - 2) with 0 in *. change (3 - 2) with 1 in *. change (4 - 2) with 2 in *.
    unfold sum5. replace (v (-2) + 4 * v (-1) + 6 * v 0 + 4 * v 1 + v 2) with (0 + 1 * v (-2) + 4 * v (-1) + 6 * v 0 + 4 * v 1 + 1 * v 2) by ring.
    repeat (apply fdy_add; [lia| |auto|]); auto; lia.
  - unfold sum5. pose proof (HL (-2) ltac:(lia)) as [_ ?]. pose proof (HL (-1) ltac:(lia)) as [_ ?]. pose proof (HL 0 ltac:(lia)) as [_ ?].
    pose proof (HL 1 ltac:(lia)) as [_ ?]. pose proof (HL 2 ltac:(lia)) as [_ ?]. lia.
Qed.

(** ** Two passes *)
Lemma sum5_bounds f M : (forall a, -2 <= a <= 2 -> 0 <= f a <= M) -> 0 <= sum5 f <= 16 * M.
Proof.
  intros H. unfold sum5. pose proof (H (-2) ltac:(lia)). pose proof (H (-1) ltac:(lia)). pose proof (H 0 ltac:(lia)).
  pose proof (H 1 ltac:(lia)). pose proof (H 2 ltac:(lia)). lia.
Qed.

Lemma sum5_ext f f' : (forall a, -2 <= a <= 2 -> f a = f' a) -> sum5 f = sum5 f'.
Proof. intros H. unfold sum5. now rewrite !H by lia. Qed.

(** With the weights b5 * 2^g along rows and columns. *)
Definition passes (g : Z) (Q : Z -> Z -> Z) (i j : Z) : Z :=
  Z.min (255 * 2 ^ (- (g + g))) (sum5 (fun a => Z.min (255 * 2 ^ (- g)) (sum5 (fun b => Q (i + a) (j + b))))).

Lemma smooth2_5 g K ixr ixc P c i j : -5 <= g <= 0 ->
  (forall k, 0 <= k < 5 -> fdy g (fl_of_bits (K k)) (b5 k)) ->
  (forall a b, -2 <= a <= 2 -> -2 <= b <= 2 -> 0 <= P (ixr (i + a)) (ixc (j + b)) c < 256) ->
  fdy (g + g) (smooth2 5 5 K K ixr ixc P c i j) (passes g (fun a b => P (ixr a) (ixc b) c) i j).
Proof.
  intros Hg HK HP. unfold smooth2, passes.
  assert (P2 : 1 <= 2 ^ (- g) <= 32).
  { split; [apply (pow_le 0 (- g)); lia|]. change 32 with (2 ^ 5). apply Z.pow_le_mono_r; lia. }
  apply (smooth5 g g K _ i (fun a => Z.min (255 * 2 ^ (- g)) (sum5 (fun b => P (ixr (i + a)) (ixc (j + b)) c))) 8160); auto; try lia.
  intros a Ha. split.
  - pose proof (smooth5 g 0 K (fun b => fl_of_Z (P (ixr (i + a)) (ixc b) c)) j (fun b => P (ixr (i + a)) (ixc (j + b)) c) 255) as F.
    rewrite Z.add_0_r in F. apply F; auto; try lia.
    intros b Hb. pose proof (HP a b Ha Hb). split; [apply fdy_Z|]; lia.
  - pose proof (sum5_bounds (fun b => P (ixr (i + a)) (ixc (j + b)) c) 255) as B.
    assert (0 <= sum5 (fun b => P (ixr (i + a)) (ixc (j + b)) c) <= 16 * 255).
    { apply B. intros b Hb. pose proof (HP a b Ha Hb). lia. }
    lia.
Qed.

(** What is shown for such a number. *)
Lemma fdy_shown g x w b : -20 <= g <= 0 -> fdy g x w -> 0 <= w <= 255 * 2 ^ (- g) -> shown_as x b ->
  nearest_even w (2 ^ (- g)) b.
Proof.
  intros Hg [V N] Hw S. assert (D : 0 < 2 ^ (- g)) by (apply pow_pos; lia).
  pose proof (rne_nearest w _ D) as NE. set (z := rne w (2 ^ (- g))) in *.
  assert (Hz : 0 <= z <= 255) by (apply (rne_bounds w (2 ^ (- g)) 0 255); auto; lia).
  rewrite (S _ z N).
  - replace (clamp 0 255 z) with z by (unfold clamp; lia). exact NE.
  - rewrite <- (pow_unit g) by lia. assert (P : 0 < 2 ^ (g + 1074)) by (apply pow_pos; lia).
    set (u := 2 ^ (g + 1074)) in *. set (d := 2 ^ (- g)) in *. clearbody u d z. clear - NE P D. destruct NE as [A B].
    unfold nearest_even. replace (w * u - z * (d * u)) with ((w - z * d) * u) by ring. rewrite Z.abs_mul, (Z.abs_eq u) by lia.
    split; [nia|]. intros E. apply B. nia.
Qed.

Lemma passes_bounds g Q i j : -5 <= g <= 0 -> (forall a b, -2 <= a <= 2 -> -2 <= b <= 2 -> 0 <= Q (i + a) (j + b) < 256) ->
  0 <= passes g Q i j <= 255 * 2 ^ (- (g + g)).
Proof.
  intros Hg HQ. unfold passes. assert (0 < 2 ^ (- g)) by (apply pow_pos; lia). assert (0 < 2 ^ (- (g + g))) by (apply pow_pos; lia).
  pose proof (sum5_bounds (fun a => Z.min (255 * 2 ^ (- g)) (sum5 (fun b => Q (i + a) (j + b)))) (255 * 2 ^ (- g))) as B.
  assert (B' : forall a, -2 <= a <= 2 -> 0 <= sum5 (fun b => Q (i + a) (j + b)) <= 16 * 255).
  { intros a Ha. apply sum5_bounds. intros b Hb. pose proof (HQ a b Ha Hb). lia. }
  assert (0 <= sum5 (fun a => Z.min (255 * 2 ^ (- g)) (sum5 (fun b => Q (i + a) (j + b)))) <= 16 * (255 * 2 ^ (- g))).
  { apply B. intros a Ha. pose proof (B' a Ha). lia. }
  lia.
Qed.

(** In units of 1/16 nothing is limited. *)
Lemma passes_binomial Q i j : (forall a b, -2 <= a <= 2 -> -2 <= b <= 2 -> 0 <= Q (i + a) (j + b) < 256) ->
  passes (-4) Q i j = binomial Q i j.
Proof.
  intros HQ. unfold passes, binomial. change (2 ^ (- (-4))) with 16. change (2 ^ (- (-4 + -4))) with 256.
  assert (B' : forall a, -2 <= a <= 2 -> 0 <= sum5 (fun b => Q (i + a) (j + b)) <= 16 * 255).
  { intros a Ha. apply sum5_bounds. intros b Hb. pose proof (HQ a b Ha Hb). lia. }
  rewrite (sum5_ext (fun a => Z.min (255 * 16) (sum5 (fun b => Q (i + a) (j + b)))) (fun a => sum5 (fun b => Q (i + a) (j + b)))).
  - pose proof (sum5_bounds (fun a => sum5 (fun b => Q (i + a) (j + b))) (16 * 255) B'). lia.
  - intros a Ha. pose proof (B' a Ha). lia.
Qed.

(** The weights of size 5. *)
Lemma weights5 exp_ sc k : 0 <= k < 5 -> fdy (-4) (fl_of_bits (weight4 5 (gauss_t exp_ true 5 sc) k)) (b5 k).
Proof.
  intros Hk. split; [apply fl_of_bits_ok; unfold weight4, fl_word; apply Z.mod_pos_bound; lia|].
  destruct (table_weights exp_ 5 sc k ltac:(auto) Hk) as [-> _]. f_equal.
  assert (E : nth (Z.to_nat k) (small_gaussian_tab (5 / 2)) 0 = b5 k * 8).
  { assert (k = 0 \/ k = 1 \/ k = 2 \/ k = 3 \/ k = 4) as C by lia. destruct C as [-> |[-> |[-> |[-> | ->]]]]; reflexivity. }
  unfold table_num. rewrite E. change (-4 + 1074) with (3 + 1067). rewrite (Z.pow_add_r 2 3 1067) by lia. change (2 ^ 3) with 8. ring.
Qed.
