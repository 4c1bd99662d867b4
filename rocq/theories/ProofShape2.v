(** * Proofs: exact moments, moved shapes, comparison, rotations. *)
From Verif Require Import Base ModelFloat ModelDouble SpecBase SpecNum SpecMatrix SpecShape
  ProofFloat ProofFloat2 ProofDiv ProofErr ProofMatrix ProofFold ProofFourier3 ProofStat ProofFilter ProofShape.
From Coq Require Import Floats.SpecFloat ZifyBool ZifyNat.
Ltac Zify.zify_post_hook ::= Z.div_mod_to_equations.
Open Scope Z_scope.

(** ** Exact moments *)
Lemma dmul x y a b : dint x a -> dint y b -> Z.abs (a * b) <= 9007199254740992 -> dint (db_mul x y) (a * b).
Proof. intros X Y H. apply (mul_int 53 1024); auto; lia. Qed.

Definition third (p q : nat) : bool :=
  match p, q with 2, 0 | 1, 1 | 0, 2 | 3, 0 | 2, 1 | 1, 2 | 0, 3 => true | _, _ => false end%nat.

Lemma abs_mul_le a b A B : Z.abs a <= A -> Z.abs b <= B -> Z.abs (a * b) <= A * B.
Proof. intros Ha Hb. rewrite Z.abs_mul. apply Z.mul_le_mono_nonneg; lia. Qed.

Lemma monomial_exact p q x y D : third p q = true -> Z.abs x <= D -> Z.abs y <= D -> 1 <= D -> D * D * D <= 9007199254740992 ->
  dint (monomial doubles p q (db_of_Z x) (db_of_Z y)) (x ^ Z.of_nat p * y ^ Z.of_nat q)
  /\ Z.abs (x ^ Z.of_nat p * y ^ Z.of_nat q) <= D * D * D.
Proof.
  intros T Hx Hy HD HB. assert (H2 : D * D <= D * D * D) by nia. assert (H1 : D <= D * D) by nia.
  pose proof (db_Z x ltac:(lia)) as X. pose proof (db_Z y ltac:(lia)) as Y.
  assert (G2 : forall a b u v, dint u a -> dint v b -> Z.abs a <= D -> Z.abs b <= D -> dint (db_mul u v) (a * b) /\ Z.abs (a * b) <= D * D).
  { intros a b u v U V A B. pose proof (abs_mul_le a b D D A B). split; [apply dmul; auto; lia|lia]. }
  assert (G3 : forall a b c u v w, dint u a -> dint v b -> dint w c -> Z.abs a <= D -> Z.abs b <= D -> Z.abs c <= D ->
    dint (db_mul (db_mul u v) w) (a * b * c) /\ Z.abs (a * b * c) <= D * D * D).
  { intros a b c u v w U V W A B C. destruct (G2 _ _ _ _ U V A B) as [E L]. pose proof (abs_mul_le _ c (D * D) D L C). split; [apply dmul; auto; lia|lia]. }
  destruct p as [|[|[|[|]]]]; destruct q as [|[|[|[|]]]]; try discriminate T; unfold monomial; cbn [repeat app fold_left doubles a_mul];
    repeat match goal with |- context [?z ^ Z.of_nat 0] => change (z ^ Z.of_nat 0) with 1 end;
    repeat match goal with |- context [?z ^ Z.of_nat 1] => change (z ^ Z.of_nat 1) with (z * 1) end;
    repeat match goal with |- context [?z ^ Z.of_nat 2] => change (z ^ Z.of_nat 2) with (z * (z * 1)) end;
    repeat match goal with |- context [?z ^ Z.of_nat 3] => change (z ^ Z.of_nat 3) with (z * (z * (z * 1))) end.
  - destruct (G2 _ _ _ _ Y Y Hy Hy) as [E L]. replace (1 * (y * (y * 1))) with (y * y) by ring. split; [exact E|lia].
  - destruct (G3 _ _ _ _ _ _ Y Y Y Hy Hy Hy) as [E L]. replace (1 * (y * (y * (y * 1)))) with (y * y * y) by ring. split; [exact E|lia].
  - destruct (G2 _ _ _ _ X Y Hx Hy) as [E L]. replace (x * 1 * (y * 1)) with (x * y) by ring. split; [exact E|lia].
  - destruct (G3 _ _ _ _ _ _ X Y Y Hx Hy Hy) as [E L]. replace (x * 1 * (y * (y * 1))) with (x * y * y) by ring. split; [exact E|lia].
  - destruct (G2 _ _ _ _ X X Hx Hx) as [E L]. replace (x * (x * 1) * 1) with (x * x) by ring. split; [exact E|lia].
  - destruct (G3 _ _ _ _ _ _ X X Y Hx Hx Hy) as [E L]. replace (x * (x * 1) * (y * 1)) with (x * x * y) by ring. split; [exact E|lia].
  - destruct (G3 _ _ _ _ _ _ X X X Hx Hx Hx) as [E L]. replace (x * (x * (x * 1)) * 1) with (x * x * x) by ring. split; [exact E|lia].
Qed.

Section Image.
  Variables (R C : Z) (P : Z -> Z -> Z).
  Hypotheses (HR : 0 < R) (HC : 0 < C) (HP : forall j i, 0 <= j < R -> 0 <= i < C -> 0 <= P j i < 256).

  Lemma mass_exact : 255 * (R * C) <= 9007199254740992 -> mass doubles R C P = db_of_Z (weight_of R C P).
  Proof.
    intros H. apply (sum_exact R C _ P 255); try lia. intros j i Hj Hi. specialize (HP j i Hj Hi). cbn [doubles a_int]. split; [apply db_Z; lia|lia].
  Qed.
  Lemma mass_xy_exact : middling_image R C ->
    mass_x doubles R C P = db_of_Z (isum R C (fun j i => i * P j i)) /\ mass_y doubles R C P = db_of_Z (isum R C (fun j i => j * P j i)).
  Proof.
    intros H. unfold middling_image in H. change (2 ^ 49) with 562949953421312 in H. set (D := Z.max R C) in *.
    assert (HD : 1 <= D) by (unfold D; lia). assert (DR : R <= D /\ C <= D) by (unfold D; lia). clearbody D.
    assert (RC : 1 <= R * C) by nia. assert (B1 : D * 255 <= 562949953421312) by nia.
    split; apply (sum_exact R C _ _ (D * 255)); try lia; intros j i Hj Hi; specialize (HP j i Hj Hi); cbn [doubles a_int].
    - assert (0 <= i * P j i <= D * 255) by (split; [nia|apply Z.mul_le_mono_nonneg; lia]). split; [apply db_Z; lia|lia].
    - assert (0 <= j * P j i <= D * 255) by (split; [nia|apply Z.mul_le_mono_nonneg; lia]). split; [apply db_Z; lia|lia].
  Qed.

  Lemma weight_pos : (exists j i, 0 <= j < R /\ 0 <= i < C /\ P j i <> 0) -> 0 < weight_of R C P.
  Proof.
    intros (j & i & Hj & Hi & H).
    assert (S : forall f n k, 0 <= n -> (forall t, 0 <= t < n -> 0 <= f t) -> 0 <= k < n -> f k <= sumz n f).
    { intros f n k Hn. revert k. pattern n. apply natlike_ind; [|intros u Hu IH k Hf Hk|exact Hn]; [intros; lia|].
      unfold Z.succ in *. rewrite sumz_S by lia. destruct (Z.eq_dec k u) as [->|].
      - pose proof (sumz_nonneg' u f Hu ltac:(intros; apply Hf; lia)). lia.
      - specialize (IH k ltac:(intros; apply Hf; lia) ltac:(lia)). pose proof (Hf u ltac:(lia)). lia. }
    unfold weight_of, isum. apply Z.lt_le_trans with (P j i); [specialize (HP j i Hj Hi); lia|].
    apply Z.le_trans with (sumz C (P j)).
    - apply S; [lia| |exact Hi]. intros t Ht. apply HP; auto.
    - apply (S (fun j => sumz C (P j)) R j); [lia| |exact Hj]. intros t Ht. apply sumz_nonneg'; [lia|]. intros u Hu. apply HP; auto.
  Qed.

  Lemma centres_exact : middling_image R C -> 0 < weight_of R C P ->
    int_of_sf (db_add (db_div (mass_x doubles R C P) (mass doubles R C P)) (dlit 1 2)) = Some (centre_x R C P)
    /\ int_of_sf (db_add (db_div (mass_y doubles R C P) (mass doubles R C P)) (dlit 1 2)) = Some (centre_y R C P)
    /\ 0 <= centre_x R C P < C /\ 0 <= centre_y R C P < R.
  Proof.
    intros H HW. destruct (mass_xy_exact H) as [EX EY]. unfold middling_image in H. change (2 ^ 49) with 562949953421312 in H.
    set (D := Z.max R C) in *. assert (HD : 1 <= D) by (unfold D; lia). assert (DR : R <= D /\ C <= D) by (unfold D; lia).
    assert (RC : D <= R * C) by (unfold D; nia). clearbody D.
    assert (B0 : 255 * (R * C) <= 562949953421312) by nia.
    assert (BD : D <= 4194304) by nia.
    rewrite EX, EY, mass_exact by lia. clear EX EY.
    assert (HP0 : forall j i, 0 <= j < R -> 0 <= i < C -> 0 <= P j i) by (intros; apply HP; auto).
    assert (WB : weight_of R C P <= 255 * (R * C)).
    { pose proof (isum_bound R C P 255 ltac:(lia) ltac:(lia)) as B. unfold weight_of. destruct B; [intros j i Hj Hi; specialize (HP j i Hj Hi); lia|lia]. }
    destruct (centre_in R C P (fun j i => i) C HR HC HP0 HW ltac:(auto)) as [[S0 S1] CX].
    destruct (centre_in R C P (fun j i => j) R HR HC HP0 HW ltac:(auto)) as [[T0 T1] CY]. cbv beta in *.
    fold (centre_x R C P) in CX. fold (centre_y R C P) in CY.
    assert (W1 : (C - 1) * weight_of R C P <= D * (255 * (R * C))) by (apply Z.mul_le_mono_nonneg; lia).
    assert (W2 : (R - 1) * weight_of R C P <= D * (255 * (R * C))) by (apply Z.mul_le_mono_nonneg; lia).
    assert (W3 : (C - 1) * weight_of R C P <= 4194304 * weight_of R C P) by (apply Z.mul_le_mono_nonneg_r; lia).
    assert (W4 : (R - 1) * weight_of R C P <= 4194304 * weight_of R C P) by (apply Z.mul_le_mono_nonneg_r; lia).
    split; [|split; [|split; [exact CX|exact CY]]]; apply centre_exact; lia.
  Qed.

  Lemma moment_exact p q cx cy : third p q = true -> small_image R C -> 0 <= cx < C -> 0 <= cy < R ->
    moment doubles p q R C cx cy P = db_of_Z (imoment R C cx cy P p q).
  Proof.
    intros T H Hx Hy. unfold small_image in H. change (2 ^ 53) with 9007199254740992 in H. set (D := Z.max R C) in *.
    assert (HD : 1 <= D) by (unfold D; lia). assert (DR : R <= D /\ C <= D) by (unfold D; lia). clearbody D.
    assert (RC : 1 <= R * C) by nia. set (D3 := D * D * D) in *. assert (H3 : 1 <= D3) by (unfold D3; nia).
    assert (B3 : D3 * 255 <= 9007199254740992) by nia.
    apply (sum_exact R C _ _ (D3 * 255)); try lia. intros j i Hj Hi. specialize (HP j i Hj Hi). cbn [doubles a_int a_mul].
    destruct (monomial_exact p q (i - cx) (j - cy) D T ltac:(lia) ltac:(lia) HD ltac:(fold D3; lia)) as [E L]. fold D3 in L.
    pose proof (abs_mul_le _ (P j i) D3 255 L ltac:(lia)). split; [|lia]. apply dmul; [exact E|apply db_Z; lia|lia].
  Qed.

End Image.

Lemma small_middling R C : 0 < R -> 0 < C -> small_image R C -> middling_image R C.
Proof.
  intros HR HC. unfold small_image, middling_image. change (2 ^ 53) with 9007199254740992. change (2 ^ 49) with 562949953421312.
  set (D := Z.max R C). assert (DR : 1 <= D /\ R <= D /\ C <= D) by (unfold D; lia). clearbody D. intros H.
  destruct (Z_le_gt_dec 4 D) as [L|L]; [|assert (R * C <= 3 * 3) by nia; nia].
  assert (16 * (255 * (R * C) * D) <= 255 * (R * C) * (D * D * D)); [|lia].
  replace (255 * (R * C) * (D * D * D)) with ((255 * (R * C) * D) * (D * D)) by ring.
  assert (A0 : 0 <= 255 * (R * C) * D) by (repeat apply Z.mul_nonneg_nonneg; lia). assert (D2 : 16 <= D * D) by (apply (Z.mul_le_mono_nonneg 4 D 4 D); lia).
  rewrite (Z.mul_comm 16). apply Z.mul_le_mono_nonneg_l; lia.
Qed.


Lemma shape_exact pow_ R C P cx cy : 0 < R -> 0 < C -> (forall j i, 0 <= j < R -> 0 <= i < C -> 0 <= P j i < 256) -> small_image R C ->
  0 < weight_of R C P -> cx = centre_x R C P -> cy = centre_y R C P ->
  shape_values pow_ (mass doubles R C P) (fun p q => moment doubles p q R C cx cy P) = shape_of pow_ R C P.
Proof.
  intros HR HC HP HS HW -> ->. pose proof (small_middling R C HR HC HS) as HM.
  destruct (centres_exact R C P HR HC HP HM HW) as (_ & _ & CX & CY).
  unfold shape_of, shape_values, hu_values, scaled. cbv zeta.
  rewrite (mass_exact R C P HR HC HP) by (unfold middling_image in HM; change (2 ^ 49) with 562949953421312 in HM; assert (1 <= Z.max R C) by lia; assert (0 <= 255 * (R * C)) by nia; nia).
  pose proof (fun p q T => moment_exact R C P HR HC HP p q _ _ T HS CX CY) as E.
  rewrite (E 2%nat 0%nat eq_refl), (E 1%nat 1%nat eq_refl), (E 0%nat 2%nat eq_refl), (E 3%nat 0%nat eq_refl), (E 2%nat 1%nat eq_refl), (E 1%nat 2%nat eq_refl), (E 0%nat 3%nat eq_refl).
  reflexivity.
Qed.

(** ** Moved shapes *)
Lemma sumz_embed n f a N : 0 <= n -> 0 <= a -> a + n <= N ->
  sumz N (fun t => if (a <=? t) && (t <? a + n) then f (t - a) else 0) = sumz n f.
Proof.
  intros Hn Ha HN.
  assert (Z0 : forall m, 0 <= m -> m <= a -> sumz m (fun t => if (a <=? t) && (t <? a + n) then f (t - a) else 0) = 0).
  { intros m Hm. pattern m. apply natlike_ind; [intros; apply sumz_0|intros u Hu IH H|exact Hm]. unfold Z.succ in *. rewrite sumz_S by lia.
    rewrite IH by lia. replace ((a <=? u) && (u <? a + n)) with false by lia. reflexivity. }
  assert (Z1 : forall m, 0 <= m -> m <= n -> sumz (a + m) (fun t => if (a <=? t) && (t <? a + n) then f (t - a) else 0) = sumz m f).
  { intros m Hm. pattern m. apply natlike_ind; [intros; rewrite Z.add_0_r, sumz_0; apply Z0; lia|intros u Hu IH H|exact Hm]. unfold Z.succ in *.
    rewrite Z.add_assoc, !sumz_S by lia. rewrite IH by lia. replace ((a <=? a + u) && (a + u <? a + n)) with true by lia. do 2 f_equal. lia. }
  assert (Z2 : forall m, 0 <= m -> sumz (a + n + m) (fun t => if (a <=? t) && (t <? a + n) then f (t - a) else 0) = sumz n f).
  { intros m Hm. pattern m. apply natlike_ind; [rewrite Z.add_0_r; apply Z1; lia|intros u Hu IH|exact Hm]. unfold Z.succ in *.
    rewrite Z.add_assoc, sumz_S by lia. rewrite IH. replace ((a <=? a + n + u) && (a + n + u <? a + n)) with false by lia. lia. }
  replace N with (a + n + (N - (a + n))) by lia. apply Z2. lia.
Qed.
Lemma isum_embed R C f a b N K : 0 <= R -> 0 <= C -> 0 <= a -> a + R <= N -> 0 <= b -> b + C <= K ->
  isum R C f = isum N K (fun y x => if (a <=? y) && (y <? a + R) && ((b <=? x) && (x <? b + C)) then f (y - a) (x - b) else 0).
Proof.
  intros HR HC Ha HN Hb HK. unfold isum. rewrite <- (sumz_embed R _ a N) by lia. apply sumz_ext. intros y Hy.
  destruct ((a <=? y) && (y <? a + R)); cbn [andb].
  - rewrite <- (sumz_embed C _ b K) by lia. apply sumz_ext. reflexivity.
  - clear. unfold sumz. induction (Z.to_nat K) as [|m IH]; cbn [sum_to]; [reflexivity|]. rewrite <- IH. reflexivity.
Qed.
Lemma isum_moved P Q R C R' C' dy dx f : 0 <= R -> 0 <= C -> 0 <= R' -> 0 <= C' -> moved P Q R C R' C' dy dx ->
  isum R' C' (fun j i => f j i * Q j i) = isum R C (fun j i => f (j + dy) (i + dx) * P j i).
Proof.
  intros HR HC HR' HC' (M1 & M2 & M3). set (a := Z.abs dy). set (b := Z.abs dx).
  rewrite (isum_embed R' C' _ (a - dy) (b - dx) (R + R' + 2 * a) (C + C' + 2 * b)) by lia.
  rewrite (isum_embed R C _ a b (R + R' + 2 * a) (C + C' + 2 * b)) by lia.
  apply isum_ext. intros y x Hy Hx.
  destruct ((a - dy <=? y) && (y <? a - dy + R') && ((b - dx <=? x) && (x <? b - dx + C'))) eqn:B1;
    destruct ((a <=? y) && (y <? a + R) && ((b <=? x) && (x <? b + C))) eqn:B2.
  - replace (y - (a - dy)) with (y - a + dy) by lia. replace (x - (b - dx)) with (x - b + dx) by lia. rewrite M1 by lia. reflexivity.
  - rewrite M3 by lia. ring.
  - rewrite (M2 (y - a) (x - b)) by lia. ring.
  - reflexivity.
Qed.

Lemma shape_moved pow_ P Q R C R' C' dy dx : 0 < R -> 0 < C -> 0 < R' -> 0 < C' -> moved P Q R C R' C' dy dx -> 0 < weight_of R C P ->
  weight_of R' C' Q = weight_of R C P /\ centre_x R' C' Q = centre_x R C P + dx /\ centre_y R' C' Q = centre_y R C P + dy
  /\ shape_of pow_ R' C' Q = shape_of pow_ R C P.
Proof.
  intros HR HC HR' HC' M HW.
  assert (W : weight_of R' C' Q = weight_of R C P).
  { pose proof (isum_moved P Q R C R' C' dy dx (fun _ _ => 1) ltac:(lia) ltac:(lia) ltac:(lia) ltac:(lia) M) as E. cbv beta in E.
    unfold weight_of. rewrite (isum_ext R' C' Q (fun j i => 1 * Q j i)) by (intros; ring). rewrite E. apply isum_ext. intros; ring. }
  assert (X : centre_x R' C' Q = centre_x R C P + dx).
  { pose proof (isum_moved P Q R C R' C' dy dx (fun _ i => i) ltac:(lia) ltac:(lia) ltac:(lia) ltac:(lia) M) as E. cbv beta in E.
    unfold centre_x. rewrite E, W. rewrite (isum_ext R C _ (fun j i => i * P j i + dx * P j i)) by (intros; ring).
    rewrite isum_add, isum_scale. fold (weight_of R C P).
    replace (2 * (isum R C (fun j i => i * P j i) + dx * weight_of R C P) + weight_of R C P)
      with (2 * isum R C (fun j i => i * P j i) + weight_of R C P + dx * (2 * weight_of R C P)) by ring. rewrite Z.div_add by lia. reflexivity. }
  assert (Y : centre_y R' C' Q = centre_y R C P + dy).
  { pose proof (isum_moved P Q R C R' C' dy dx (fun j _ => j) ltac:(lia) ltac:(lia) ltac:(lia) ltac:(lia) M) as E. cbv beta in E.
    unfold centre_y. rewrite E, W. rewrite (isum_ext R C _ (fun j i => j * P j i + dy * P j i)) by (intros; ring).
    rewrite isum_add, isum_scale. fold (weight_of R C P).
    replace (2 * (isum R C (fun j i => j * P j i) + dy * weight_of R C P) + weight_of R C P)
      with (2 * isum R C (fun j i => j * P j i) + weight_of R C P + dy * (2 * weight_of R C P)) by ring. rewrite Z.div_add by lia. reflexivity. }
  split; [exact W|]. split; [exact X|]. split; [exact Y|].
  assert (MM : forall p q, imoment R' C' (centre_x R' C' Q) (centre_y R' C' Q) Q p q = imoment R C (centre_x R C P) (centre_y R C P) P p q).
  { intros p q. unfold imoment. rewrite X, Y.
    rewrite (isum_moved P Q R C R' C' dy dx (fun j i => (i - (centre_x R C P + dx)) ^ Z.of_nat p * (j - (centre_y R C P + dy)) ^ Z.of_nat q)) by (lia || exact M).
    apply isum_ext. intros j i _ _. do 2 f_equal; f_equal; lia. }
  unfold shape_of, shape_values, hu_values, scaled. cbv zeta. rewrite W, !MM. reflexivity.
Qed.
