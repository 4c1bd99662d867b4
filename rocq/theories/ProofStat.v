(** * Proofs: statistics of an image. *)
From Verif Require Import Base Logic ModelCore ModelFloat ModelPixel ModelStat SpecBase SpecCore SpecImage SpecImage2 SpecPixel SpecNum SpecMatrix
  SpecFilter SpecStat ProofCore ProofLayout ProofHM ProofCore2 ProofImage3 ProofImage4 ProofBorder ProofPixel ProofColor ProofFloat ProofWord
  ProofArr ProofFloat2 ProofConv ProofMath ProofMatrix ProofFold ProofDiv ProofGrad ProofHist.
From Coq Require Import Floats.SpecFloat ZifyBool ZifyNat.
Ltac Zify.zify_post_hook ::= Z.div_mod_to_equations.
Open Scope Z_scope.

(** A loop that only reads. *)
Lemma forS_pure {S} e s n (body : Z -> S -> M S) (g : S -> Z -> S) x : 0 <= n ->
  (forall i y, 0 <= i < n -> body i y e s = Ret (g y i) s) -> forS 0 n body x e s = Ret (foldz n g x) s.
Proof.
  intros Hn H. destruct (forS_inv e 0 n body (fun i y s' => s' = s /\ y = foldz i g x) s x) as (y & s' & E & -> & ->); auto.
  intros i y s' Hi [-> ->]. exists (g (foldz i g x) i), s. split; [now apply H|]. split; auto. now rewrite foldz_S by lia.
Qed.

(** ** Pairs of neighbours *)
Definition in01 (b : bool) : Z := if b then 1 else 0.
Lemma neighbours_length R C i j : 0 <= i < R -> 0 <= j < C ->
  Z.of_nat (List.length (neighbours R C i j)) = in01 (0 <? j) + in01 (j <? C - 1) + in01 (0 <? i) + in01 (i <? R - 1).
Proof.
  intros Hi Hj. unfold neighbours. cbn [filter fst snd].
  replace (_ && (j - 1 <? C)) with (0 <? j) by lia. replace (_ && (j + 1 <? C)) with (j <? C - 1) by lia.
  replace ((0 <=? i - 1) && _ && _ && _) with (0 <? i) by lia. replace ((0 <=? i + 1) && _ && _ && _) with (i <? R - 1) by lia.
  destruct (0 <? j), (j <? C - 1), (0 <? i), (i <? R - 1); reflexivity.
Qed.
Lemma neighbours_list R C i j : 0 <= i < R -> 0 <= j < C ->
  neighbours R C i j = (if negb (j =? 0) then [(i, j - 1)] else []) ++ (if negb (j =? C - 1) then [(i, j + 1)] else [])
    ++ (if negb (i =? 0) then [(i - 1, j)] else []) ++ (if negb (i =? R - 1) then [(i + 1, j)] else []).
Proof.
  intros Hi Hj. unfold neighbours. cbn [filter fst snd].
  replace (_ && (j - 1 <? C)) with (negb (j =? 0)) by lia. replace (_ && (j + 1 <? C)) with (negb (j =? C - 1)) by lia.
  replace ((0 <=? i - 1) && _ && _ && _) with (negb (i =? 0)) by lia. replace ((0 <=? i + 1) && _ && _ && _) with (negb (i =? R - 1)) by lia.
  destruct (negb (j =? 0)), (negb (j =? C - 1)), (negb (i =? 0)), (negb (i =? R - 1)); reflexivity.
Qed.

Lemma sumz_const n c : 0 <= n -> sumz n (fun _ => c) = n * c.
Proof. intros Hn. pattern n. apply natlike_ind; auto. intros k Hk IH. unfold Z.succ. rewrite sumz_S, IH by lia. ring. Qed.
Lemma sumz_not_first n : 0 < n -> sumz n (fun j => in01 (0 <? j)) = n - 1.
Proof.
  intros Hn. replace n with (Z.succ (n - 1)) at 1 by lia. assert (H : 0 <= n - 1) by lia. revert H. generalize (n - 1). intros k Hk.
  pattern k. apply natlike_ind; auto. intros u Hu IH. unfold Z.succ in *. rewrite sumz_S, IH by lia.
  replace (0 <? u + 1) with true by lia. cbn [in01]. lia.
Qed.
Lemma sumz_not_last n : 0 < n -> sumz n (fun j => in01 (j <? n - 1)) = n - 1.
Proof.
  intros Hn. replace n with (n - 1 + 1) at 1 by lia. rewrite sumz_S by lia. replace (n - 1 <? n - 1) with false by lia. cbn [in01].
  rewrite (sumz_eq _ _ (fun _ => 1)), sumz_const by lia || (intros j Hj; now replace (j <? n - 1) with true by lia). lia.
Qed.
Theorem pairs_formula : forall R C, 0 < R -> 0 < C -> pairs R C = 4 * R * C - 2 * R - 2 * C.
Proof.
  intros R C HR HC. unfold pairs.
  rewrite (sumz_eq R _ (fun i => (2 * C - 2) + C * (in01 (0 <? i) + in01 (i <? R - 1)))).
  - rewrite sumz_add, sumz_const by lia.
    rewrite (sumz_eq R _ (fun i => C * in01 (0 <? i) + C * in01 (i <? R - 1))) by (intros; ring). rewrite sumz_add by lia.
    assert (X : forall f, sumz R (fun i => C * f i) = C * sumz R f).
    { intros f. assert (K : 0 <= R) by lia. revert K. generalize R. intros n Hn. pattern n. apply natlike_ind; [cbn; lia| |auto].
      intros k Hk IH. unfold Z.succ. rewrite !sumz_S, IH by lia. ring. }
    rewrite !X, sumz_not_first, sumz_not_last by lia. ring.
  - intros i Hi. rewrite (sumz_eq C _ (fun j => in01 (0 <? j) + in01 (j <? C - 1) + (in01 (0 <? i) + in01 (i <? R - 1)))).
    + rewrite !sumz_add, sumz_not_first, sumz_not_last, !sumz_const by lia. ring.
    + intros j Hj. rewrite neighbours_length by lia. ring.
Qed.

(** ** Contrast of a one-channel plane *)
Lemma contrast_pair_ok pow2 e s q n f x y a b res : isb s q n f -> x = Some a -> y = Some b -> 0 <= a < n -> 0 <= b < n ->
  contrast_pair pow2 (Some q) x y res e s = Ret (contrast_add pow2 res (f a mod 256) (f b mod 256)) s.
Proof.
  intros I -> -> Ha Hb. unfold contrast_pair. rewrite (bind_ret _ _ _ _ _ _ (ev_ok _ _ e s eq_refl)).
  rewrite (bind_ret _ _ _ _ _ _ (load8_ok e s q n f a I Ha)). rewrite (bind_ret _ _ _ _ _ _ (ev_ok _ _ e s eq_refl)).
  rewrite (bind_ret _ _ _ _ _ _ (load8_ok e s q n f b I Hb)). reflexivity.
Qed.

Section Contrast.
  Variables (pow2 : sf -> sf) (e : env) (s : st) (q : nat) (n : Z) (f : Z -> Z) (R C : Z) (P : Z -> Z -> Z).
  Hypothesis (I : isb s q n f) (HR : 0 < R) (HC : 0 < C) (Hn : R * C <= n) (Hm : R * C <= 2147483647).
  Hypothesis HP : forall i j, 0 <= i < R -> 0 <= j < C -> f (i * C + j) mod 256 = P i j.

  Definition contrast_loop : M sf :=
   forS 0 R (fun i res =>
    forS 0 C (fun j res =>
      res <- (if negb (j =? 0) then contrast_pair pow2 (Some q) (i * C + j)%C (i * C + j - 1)%C res else ret res) ;;
      c1 <- ev (C - 1)%C ;;
      res <- (if negb (j =? c1) then contrast_pair pow2 (Some q) (i * C + j)%C (i * C + j + 1)%C res else ret res) ;;
      res <- (if negb (i =? 0) then contrast_pair pow2 (Some q) (i * C + j)%C ((i - 1) * C + j)%C res else ret res) ;;
      r1 <- ev (R - 1)%C ;;
      (if negb (i =? r1) then contrast_pair pow2 (Some q) (i * C + j)%C ((i + 1) * C + j)%C res else ret res)) res)
    (fl_of_Z 0).

  Lemma pair_at i j i' j' res y : 0 <= i < R -> 0 <= j < C -> 0 <= i' < R -> 0 <= j' < C -> y = Some (i' * C + j') ->
    contrast_pair pow2 (Some q) (i * C + j)%C y res e s = Ret (contrast_add pow2 res (P i j) (P i' j')) s.
  Proof.
    intros Hi Hj Hi' Hj' ->. rewrite <- (HP i j), <- (HP i' j') by auto.
    assert (B : forall a b, 0 <= a < R -> 0 <= b < C -> 0 <= a * C + b < R * C) by (intros a b Ha Hb; clear - Ha Hb; nia).
    pose proof (B i j Hi Hj). pose proof (B i' j' Hi' Hj').
    apply (contrast_pair_ok pow2 e s q n f); auto; try lia. apply (idx2_c R); auto.
  Qed.

  Lemma contrast_loop_ok : contrast_loop e s = Ret (float_contrast pow2 R C P) s.
  Proof.
    unfold contrast_loop, float_contrast.
    assert (RR : R <= R * C) by (clear - HR HC; nia). assert (CC : C <= R * C) by (clear - HR HC; nia).
    apply forS_pure; [lia|]. intros i a Hi. apply forS_pure; [lia|]. intros j b Hj. rewrite neighbours_list by auto.
    rewrite !fold_left_app.
    assert (S1 : forall (c : bool) i' j' res y, (c = true -> 0 <= i' < R /\ 0 <= j' < C /\ y = Some (i' * C + j')) ->
      (if c then contrast_pair pow2 (Some q) (i * C + j)%C y res else ret res) e s
      = Ret (fold_left (fun a p => fl_of_db (db_add (db_of_fl a) (pow2 (db_of_Z (P i j - P (fst p) (snd p)))))) (if c then [(i', j')] else []) res) s).
    { intros c i' j' res y Hc. destruct c; [|reflexivity]. destruct (Hc eq_refl) as (A & B & E). now apply pair_at. }
    assert (B0 : 0 <= i * C + j < R * C) by (clear - Hi Hj; nia).
    assert (Ex : (i * C + j)%C = Some (i * C + j)) by (apply (idx2_c R); auto).
    assert (Ei : forall k, 0 <= k < R -> (k * C + j)%C = Some (k * C + j)) by (intros k Hk; apply (idx2_c R); auto).
    assert (Y1 : negb (j =? 0) = true -> 0 <= i < R /\ 0 <= j - 1 < C /\ (i * C + j - 1)%C = Some (i * C + (j - 1))).
    { intros H. split; [lia|]. split; [lia|]. rewrite Ex. unfold ci. rewrite csub_ok by lia. f_equal. lia. }
    assert (Y2 : negb (j =? C - 1) = true -> 0 <= i < R /\ 0 <= j + 1 < C /\ (i * C + j + 1)%C = Some (i * C + (j + 1))).
    { intros H. split; [lia|]. split; [lia|]. assert (i * C + j + 1 < R * C) by (assert (j + 1 < C) by lia; clear - H0 Hi Hj; nia).
      rewrite Ex. unfold ci. rewrite cadd_ok by lia. f_equal. lia. }
    assert (Y3 : negb (i =? 0) = true -> 0 <= i - 1 < R /\ 0 <= j < C /\ ((i - 1) * C + j)%C = Some ((i - 1) * C + j)).
    { intros H. split; [lia|]. split; [lia|]. rewrite <- Ei by lia. unfold ci. rewrite csub_ok by lia. reflexivity. }
    assert (Y4 : negb (i =? R - 1) = true -> 0 <= i + 1 < R /\ 0 <= j < C /\ ((i + 1) * C + j)%C = Some ((i + 1) * C + j)).
    { intros H. split; [lia|]. split; [lia|]. rewrite <- Ei by lia. unfold ci. rewrite cadd_ok by lia. reflexivity. }
    assert (E1 : (C - 1)%C = Some (C - 1)) by (apply csub_ok; lia).
    assert (E2 : (R - 1)%C = Some (R - 1)) by (apply csub_ok; lia).
    rewrite (bind_ret _ _ _ _ _ _ (S1 _ _ _ _ _ Y1)). rewrite (bind_ret _ _ _ _ _ _ (ev_ok _ _ e s E1)).
    rewrite (bind_ret _ _ _ _ _ _ (S1 _ _ _ _ _ Y2)). rewrite (bind_ret _ _ _ _ _ _ (S1 _ _ _ _ _ Y3)).
    rewrite (bind_ret _ _ _ _ _ _ (ev_ok _ _ e s E2)). exact (S1 _ _ _ _ _ Y4).
  Qed.

End Contrast.

  Lemma contrast_divisor R C : 0 < R -> 0 < C -> 4 * (R * C) <= 2147483647 -> 6 * R <= 2147483647 -> 6 * C <= 2147483647 ->
    (4 * (C - 2) * (R - 2) + 3 * 2 * (R - 2) + 3 * 2 * (C - 2) + 2 * 4)%C = Some (pairs R C).
  Proof.
    intros HR HC H4 H6 H6'. unfold ci. rewrite !csub_ok by lia.
    change (cmul (Some 3) (Some 2)) with (Some 6). change (cmul (Some 2) (Some 4)) with (Some 8).
    rewrite (cmul_ok 4) by lia. rewrite !(cmul_ok 6) by lia.
    assert (B1 : -2147483648 <= 4 * (C - 2) * (R - 2) <= 2147483647).
    { assert (E : 4 * (C - 2) * (R - 2) = 4 * (R * C) - 8 * C - 8 * R + 16) by ring.
      assert (RC : R + C <= R * C + 1) by (clear - HR HC; nia). rewrite E. lia. }
    assert (E : 4 * (C - 2) * (R - 2) = 4 * (R * C) - 8 * C - 8 * R + 16) by ring.
    assert (RC : R + C <= R * C + 1) by (clear - HR HC; nia).
    rewrite cmul_ok by auto. rewrite E in *. rewrite cadd_ok by lia. rewrite cadd_ok by lia. rewrite cadd_ok by lia.
    rewrite pairs_formula by auto. f_equal. ring.
  Qed.

Theorem contrast_exact : forall pow2 e s p m P, image s p m 1 -> sm_type m = 1 -> sm_chan m = 1 -> grey s m P ->
  4 * (sm_rows m * sm_cols m) <= 2147483647 -> 6 * sm_rows m <= 2147483647 -> 6 * sm_cols m <= 2147483647 ->
  simple_mat_contrast_ratio pow2 p e s
  = Ret (fl_div (float_contrast pow2 (sm_rows m) (sm_cols m) P) (fl_of_Z (pairs (sm_rows m) (sm_cols m)))) s.
Proof.
  intros pow2 e s p m P IM HT H1 G H4 H6 H6'. unfold simple_mat_contrast_ratio.
  destruct (image_pixels _ _ _ IM) as (q & n & f & Px). destruct Px as [D I HR HC _ Hn Hx].
  rewrite bind_assert by (destruct p; [reflexivity|discriminate (im_hdr _ _ _ _ IM)]).
  rewrite (bind_ret _ _ _ _ _ _ (sget_ok _ _ e _ (im_hdr _ _ _ _ IM))). rewrite bind_assert by lia.
  replace (negb (sm_chan m =? 1)) with false by lia. rewrite bind_ret_l.
  rewrite (bind_ret _ _ _ _ _ _ (sget_ok _ _ e _ (im_hdr _ _ _ _ IM))). cbv zeta. rewrite D.
  rewrite H1, Z.mul_1_r in *.
  assert (HP : forall i j, 0 <= i < sm_rows m -> 0 <= j < sm_cols m -> f (i * sm_cols m + j) mod 256 = P i j).
  { intros i j Hi Hj. apply (near_grey s m q n f P i j); auto. destruct (image_pixels _ _ _ IM) as (q' & n' & f' & Px).
    constructor; auto; rewrite H1, ?Z.mul_1_r; lia. }
  pose proof (contrast_loop_ok pow2 e s q n f _ _ P I HR HC Hn ltac:(lia) HP) as L. unfold contrast_loop in L.
  rewrite (bind_ret _ _ _ _ _ _ L).
  rewrite (bind_ret _ _ _ _ _ _ (ev_ok _ _ e s (contrast_divisor _ _ HR HC H4 H6 H6'))). reflexivity.
Qed.

(** Too many pixels for the divisor. *)
Theorem contrast_overflow : forall pow2 e s p m P, image s p m 1 -> sm_type m = 1 -> sm_chan m = 1 -> grey s m P ->
  2 <= sm_rows m -> 2 <= sm_cols m -> 2147483647 < 4 * (sm_cols m - 2) * (sm_rows m - 2) ->
  simple_mat_contrast_ratio pow2 p e s = UB.
Proof.
  intros pow2 e s p m P IM HT H1 G HR2 HC2 Hbig. unfold simple_mat_contrast_ratio.
  destruct (image_pixels _ _ _ IM) as (q & n & f & Px). destruct Px as [D I HR HC _ Hn Hx].
  rewrite bind_assert by (destruct p; [reflexivity|discriminate (im_hdr _ _ _ _ IM)]).
  rewrite (bind_ret _ _ _ _ _ _ (sget_ok _ _ e _ (im_hdr _ _ _ _ IM))). rewrite bind_assert by lia.
  replace (negb (sm_chan m =? 1)) with false by lia. rewrite bind_ret_l.
  rewrite (bind_ret _ _ _ _ _ _ (sget_ok _ _ e _ (im_hdr _ _ _ _ IM))). cbv zeta. rewrite D.
  rewrite H1, Z.mul_1_r in *.
  assert (HP : forall i j, 0 <= i < sm_rows m -> 0 <= j < sm_cols m -> f (i * sm_cols m + j) mod 256 = P i j).
  { intros i j Hi Hj. apply (near_grey s m q n f P i j); auto. constructor; auto; rewrite H1, ?Z.mul_1_r; lia. }
  pose proof (contrast_loop_ok pow2 e s q n f _ _ P I HR HC Hn ltac:(lia) HP) as L. unfold contrast_loop in L.
  rewrite (bind_ret _ _ _ _ _ _ L). apply bind_ub. unfold ev, ci. rewrite !csub_ok by lia.
  assert (X : cmul (cmul (Some 4) (Some (sm_cols m - 2))) (Some (sm_rows m - 2)) = None).
  { unfold cmul at 2. unfold cop, chk. destruct (in_int _); [|reflexivity]. cbn [cmul cop]. now apply chk_ub. }
  rewrite X. reflexivity.
Qed.

(** Three channels: the rounded average of the channels is used. *)
Theorem contrast_colour : forall pow2 e s p m P, env_ok e -> heap_ok s -> image s p m 1 -> sm_type m = 1 -> sm_chan m = 3 ->
  colours s m P ->
  4 * (sm_rows m * sm_cols m) <= 2147483647 -> 6 * sm_rows m <= 2147483647 -> 6 * sm_cols m <= 2147483647 ->
  exists s', simple_mat_contrast_ratio pow2 p e s
    = Ret (fl_div (float_contrast pow2 (sm_rows m) (sm_cols m) (fun i j => nearest (P i j 0 + P i j 1 + P i j 2) 3))
             (fl_of_Z (pairs (sm_rows m) (sm_cols m)))) s'
    /\ old_unchanged s s' /\ files s' = files s.
Proof.
  intros pow2 e s p m P He Hs IM HT H3 G H4 H6 H6'. unfold simple_mat_contrast_ratio.
  pose proof (im_rows _ _ _ _ IM) as HR. pose proof (im_cols _ _ _ _ IM) as HC.
  rewrite bind_assert by (destruct p; [reflexivity|discriminate (im_hdr _ _ _ _ IM)]).
  rewrite (bind_ret _ _ _ _ _ _ (sget_ok _ _ e _ (im_hdr _ _ _ _ IM))). rewrite bind_assert by lia.
  replace (negb (sm_chan m =? 1)) with true by lia. cbv zeta.
  destruct (rgb2gray_average e s p m He Hs IM H3 0 ltac:(lia) ltac:(lia)) as (p' & s' & X & m' & IM' & E1 & E2 & E3 & E4 & V & _ & _ & OU & FS & _).
  exists s'. split; [|auto]. rewrite (bind_ret _ _ _ _ _ _ X).
  rewrite (bind_ret _ _ _ _ _ _ (sget_ok _ _ e _ (im_hdr _ _ _ _ IM'))).
  destruct (image_pixels _ _ _ IM') as (q & n & f & Px). pose proof Px as Px0. destruct Px as [D I _ _ _ Hn Hx].
  rewrite E1, E2, E4, Z.mul_1_r in *.
  rewrite D.
  assert (HP : forall i j, 0 <= i < sm_rows m -> 0 <= j < sm_cols m ->
     f (i * sm_cols m + j) mod 256 = nearest (P i j 0 + P i j 1 + P i j 2) 3).
  { intros i j Hi Hj. rewrite <- E2. apply (near_grey s' m' q n f (fun i j => nearest (P i j 0 + P i j 1 + P i j 2) 3) i j); auto; try lia.
    intros a b Ha Hb. rewrite V by (unfold in_image; lia). rewrite !G by (unfold in_image; lia). reflexivity. }
  pose proof (contrast_loop_ok pow2 e s' q n f _ _ _ I HR HC Hn ltac:(lia) HP) as L. unfold contrast_loop in L.
  rewrite (bind_ret _ _ _ _ _ _ L).
  rewrite (bind_ret _ _ _ _ _ _ (ev_ok _ _ e s' (contrast_divisor _ _ HR HC H4 H6 H6'))). reflexivity.
Qed.

(** ** Exact sums *)
Lemma fl_of_db_int x z : isint 53 1024 x z -> Z.abs z <= 16777216 -> fint (fl_of_db x) z.
Proof.
  intros [V N] Hz. apply fl_of_db_num in N; auto.
  apply (rounded_exact 24 128 1074 _ z 0) in N; try lia; try (unfold emin; lia).
  - destruct N as [V' N']. split; [exact V'|]. rewrite N'. now rewrite sf_one_eq.
  - now rewrite sf_one_eq.
Qed.

Lemma add_square pow2 B a z d : squares pow2 B -> Z.abs d <= B -> fint a z -> 0 <= z -> z + d * d <= 16777216 ->
  fint (fl_of_db (db_add (db_of_fl a) (pow2 (db_of_Z d)))) (z + d * d).
Proof.
  intros Sq Hd [Va Na] Hz Hs. destruct (Sq d Hd) as [V N]. destruct (db_of_fl_ok _ Va) as [Vd Nd].
  apply fl_of_db_int; [|nia]. apply (add_int 53 1024); try lia.
  - split; [exact Vd|]. now rewrite Nd.
  - split; auto.
Qed.

Lemma sumz_nonneg' n f : 0 <= n -> (forall i, 0 <= i < n -> 0 <= f i) -> 0 <= sumz n f.
Proof.
  intros Hn. pattern n. apply natlike_ind; auto; [intros; cbn; lia|]. intros k Hk IH H. unfold Z.succ in *. rewrite sumz_S by lia.
  assert (0 <= sumz k f) by (apply IH; intros; apply H; lia). specialize (H k ltac:(lia)). lia.
Qed.

(** Additions of natural numbers up to 2^24 are exact. *)
Lemma foldz_int (f : sf -> Z -> sf) (g : Z -> Z) a z : fint a z -> 0 <= z -> forall n, 0 <= n ->
  (forall i, 0 <= i < n -> 0 <= g i) -> z + sumz n g <= 16777216 ->
  (forall i b y, 0 <= i < n -> fint b y -> 0 <= y -> y + g i <= 16777216 -> fint (f b i) (y + g i)) ->
  fint (foldz n f a) (z + sumz n g).
Proof.
  intros Ha Hz n Hn. pattern n. apply natlike_ind; auto.
  - intros _ _ _. change (fint a (z + 0)). now rewrite Z.add_0_r.
  - intros k Hk IH Hg Hs Hf. unfold Z.succ in *. rewrite foldz_S, sumz_S in * by lia. rewrite Z.add_assoc in *.
    assert (0 <= sumz k g) by (apply sumz_nonneg'; auto; intros; apply Hg; lia). pose proof (Hg k ltac:(lia)).
    apply Hf; try lia. apply IH; [intros; apply Hg; lia|lia|intros; apply Hf; auto; lia].
Qed.

Lemma fold_left_int {T} (f : sf -> T -> sf) (g : T -> Z) : forall l a z, fint a z -> 0 <= z ->
  (forall x, In x l -> 0 <= g x) -> z + fold_right Z.add 0 (map g l) <= 16777216 ->
  (forall x b y, In x l -> fint b y -> 0 <= y -> y + g x <= 16777216 -> fint (f b x) (y + g x)) ->
  fint (fold_left f l a) (z + fold_right Z.add 0 (map g l)).
Proof.
  induction l as [|x l IH]; intros a z Ha Hz Hg Hs Hf; cbn [fold_left map fold_right] in *.
  - now rewrite Z.add_0_r.
  - assert (N : 0 <= fold_right Z.add 0 (map g l)).
    { clear - Hg. induction l as [|y l IHl]; cbn; [lia|]. pose proof (Hg y ltac:(cbn; auto)).
      assert (0 <= fold_right Z.add 0 (map g l)) by (apply IHl; intros u [<-|Hu]; apply Hg; cbn; auto). lia. }
    pose proof (Hg x ltac:(cbn; auto)). rewrite Z.add_assoc in *. apply IH; auto; try lia.
    + apply Hf; cbn; auto. lia.
    + intros; apply Hg; cbn; auto.
    + intros; apply Hf; cbn; auto.
Qed.

(** The contrast of an image whose squared differences sum up to at most 2^24. *)
Theorem contrast_int : forall pow2 R C P, 0 < R -> 0 < C -> squares pow2 255 ->
  (forall i j, 0 <= i < R -> 0 <= j < C -> 0 <= P i j < 256) -> contrast_sum R C P <= 16777216 ->
  is_int (float_contrast pow2 R C P) (contrast_sum R C P).
Proof.
  intros pow2 R C P HR HC Sq HP Hs. unfold float_contrast. change is_int with fint. rewrite <- (Z.add_0_l (contrast_sum R C P)).
  assert (NN : forall i j, 0 <= fold_right Z.add 0 (map (sq_diff P i j) (neighbours R C i j))).
  { intros i j. induction (neighbours R C i j) as [|x l IH]; cbn [map fold_right]; [lia|]. pose proof (Z.square_nonneg (P i j - P (fst x) (snd x))). unfold sq_diff at 1. lia. }
  assert (IN : forall i j x, In x (neighbours R C i j) -> 0 <= fst x < R /\ 0 <= snd x < C).
  { intros i j x Hx. apply filter_In in Hx as [_ Hx]. lia. }
  apply foldz_int; try lia.
  - apply fint_Z. lia.
  - intros i Hi. apply sumz_nonneg'; [lia|]. auto.
  - exact Hs.
  - intros i b y Hi Hb Hy Hm. apply foldz_int; auto; try lia.
    intros j b' y' Hj Hb' Hy' Hm'. apply fold_left_int; auto.
    + intros x _. unfold sq_diff. apply Z.square_nonneg.
    + intros x b2 y2 Hx Hb2 Hy2 Hm2. destruct (IN i j x Hx) as [I1 I2]. unfold sq_diff in *.
      apply (add_square pow2 255); auto. pose proof (HP i j Hi Hj). pose proof (HP _ _ I1 I2). lia.
Qed.

(** ** Statistics and entropy *)
Theorem statistics_exit : forall e s p t m, sm_at s p = Some m -> simple_mat_grayscale_statistics p t e s = Exit.
Proof.
  intros e s p t m H. unfold simple_mat_grayscale_statistics.
  rewrite bind_assert by (destruct p; [reflexivity|discriminate H]). rewrite (bind_ret _ _ _ _ _ _ (sget_ok _ _ e _ H)).
  destruct (sm_type m =? 1) eqn:E; [rewrite bind_assert by reflexivity|]; now apply bind_assert_false.
Qed.
Theorem statistics_null : forall e s t, simple_mat_grayscale_statistics None t e s = Exit.
Proof. reflexivity. Qed.

Theorem entropy_exit : forall log_ e s p m, env_ok e -> heap_ok s -> image s p m 1 -> simple_mat_entropy log_ p e s = Exit.
Proof.
  intros log_ e s p m He Hs IM. pose proof (im_hdr _ _ _ _ IM) as H. unfold simple_mat_entropy.
  rewrite bind_assert by (destruct p; [reflexivity|discriminate H]). rewrite (bind_ret _ _ _ _ _ _ (sget_ok _ _ e _ H)).
  destruct (sm_type m =? 1) eqn:ET; [rewrite bind_assert by reflexivity|now apply bind_assert_false].
  assert (K : forall s1 t m1, sm_at s1 t = Some m1 -> sm_at s1 p = Some m ->
    (_ <- sget t ;; gray_statist <- malloc 1024 ;; memset gray_statist 0 0 1024 ;;;
     simple_mat_grayscale_statistics p gray_statist ;;;
     forS 0 256 (fun i res => x <- loadle gray_statist (4 * i) 4 ;;
       ret (entropy_term log_ (sm_rows m) (sm_cols m) res (sgn 32 x))) (fl_of_Z 0)) e s1 = Exit).
  { intros s1 t m1 H1 H2. rewrite (bind_ret _ _ _ _ _ _ (sget_ok _ _ e _ H1)).
    assert (HM : malloc 1024 e s1 = Ret (Some (List.length (objs s1)))
      (mkSt (objs s1 ++ [mkObj (e_addr e (List.length (objs s1))) 1024 (List.length (objs s1)) true (CBytes (e_junk e (List.length (objs s1))))]) (files s1)))
      by reflexivity.
    rewrite (bind_ret _ _ _ _ _ _ HM). set (k := List.length (objs s1)) in *.
    set (s2 := mkSt _ _).
    assert (B : bytes_at s2 (Some k) = Some (k, 1024, e_junk e k)).
    { unfold bytes_at, s2. cbn [objs]. rewrite nth_error_app2 by lia. unfold k. rewrite Nat.sub_diag. reflexivity. }
    unfold bind at 1. unfold memset. rewrite B. replace ((0 <=? 1024) && (0 <=? 0) && (0 + 1024 <=? 1024)) with true by lia.
    apply bind_exit. apply (statistics_exit e _ p _ m). unfold sm_at in *. destruct p as [pp|]; [|discriminate H2].
    unfold putd, s2. cbn [objs]. destruct (nth_error (objs s1) pp) as [o|] eqn:En; [|discriminate H2].
    pose proof (nth_error_lt _ _ _ En) as Hl. rewrite lupd_nth_ne by (fold k in Hl; lia).
    rewrite nth_error_app1 by lia. rewrite En. exact H2. }
  destruct (Z.eq_dec (sm_chan m) 1) as [H1|H1].
  - replace (negb (sm_chan m =? 1)) with false by lia. rewrite bind_ret_l. apply (K s p m); auto.
  - replace (negb (sm_chan m =? 1)) with true by lia. destruct (Z.eq_dec (sm_chan m) 3) as [H3|H3].
    + destruct (rgb2gray_average e s p m He Hs IM H3 0 ltac:(lia) ltac:(lia)) as (p' & s' & X & m' & IM' & _ & _ & _ & _ & _ & _ & _ & OU & _).
      rewrite (bind_ret _ _ _ _ _ _ X). apply (K s' p' m' (im_hdr _ _ _ _ IM')).
      destruct p as [pp|]; [|discriminate H]. unfold sm_at in *. rewrite OU; auto.
      destruct (nth_error (objs s) pp) eqn:En; [|discriminate H]. apply nth_error_lt in En. exact En.
    + apply bind_exit. unfold sm_rgb2gray. rewrite (bind_ret _ _ _ _ _ _ (sget_ok _ _ e _ H)). apply bind_assert_false. lia.
Qed.
Theorem entropy_never : forall log_ e s p x s', simple_mat_entropy log_ p e s <> Ret x s'.
Proof.
  assert (S : forall e s p t x s', simple_mat_grayscale_statistics p t e s <> Ret x s').
  { intros e s p t x s'. unfold simple_mat_grayscale_statistics, bind, assert, sizeof_ptr. change (8 =? 256) with false.
    destruct (nonnull p); cbn; [|discriminate]. destruct (sget p e s); try discriminate. destruct (sm_type a =? 1); discriminate. }
  intros log_ e s p x s' H. unfold simple_mat_entropy in H.
  repeat (match type of H with bind ?m ?k e ?s0 = _ => unfold bind at 1 in H; destruct (m e s0) eqn:?; try discriminate H end).
  eapply S. eassumption.
Qed.

(** ** Mean and variance *)
Lemma stat_load_ok e s m p es i w : image s p m es -> stat_type (sm_type m) = true -> sm_chan m = 1 ->
  0 <= i < sm_rows m * sm_cols m -> word_at s (sm_data m) (i * es) (Z.to_nat es) = Some w ->
  stat_load (sm_type m) (sm_data m) i e s = Ret (unsigned_reading (sm_type m) w) s.
Proof.
  intros IM HT H1 Hi Hw. pose proof (im_type _ _ _ _ IM) as Hty. pose proof (im_data _ _ _ _ IM) as Hd. rewrite H1, Z.mul_1_r in Hd.
  apply readable_isb in Hd as (q & n & f & E & I & N). rewrite E in *.
  assert (K : forall k, es = Z.of_nat k -> forall A (g : Z -> A), (x <- loadle (Some q) (es * i) k ;; ret (g x)) e s = Ret (g w) s).
  { intros k Ek A g. clear Hty. subst es. rewrite Nat2Z.id in Hw.
    assert (B : 0 <= i * Z.of_nat k /\ i * Z.of_nat k + Z.of_nat k <= n) by (clear - Hi N; nia).
    rewrite (word_at_isb s q n f _ I) in Hw by lia. injection Hw as Hw. rewrite (Z.mul_comm (Z.of_nat k) i).
    rewrite (bind_ret _ _ _ _ _ _ (loadle_ok e s q n f k I (i * Z.of_nat k) ltac:(lia) ltac:(lia))). rewrite Hw. reflexivity. }
  unfold stat_load, stat_type, unsigned_reading in *.
  destruct (sm_type m =? 1) eqn:T1.
  { assert (sm_type m = 1) by lia. rewrite H in *. injection Hty as <-. replace (1 =? 4) with false by lia.
    specialize (K 1%nat eq_refl sf fl_of_Z). cbn [loadle] in K. rewrite <- K. rewrite Z.mul_1_l. unfold bind.
    destruct (load8 (Some q) i e s); auto. cbn. repeat f_equal. lia. }
  destruct ((sm_type m =? 2) || (sm_type m =? 12)) eqn:T2.
  { assert (es = 2 /\ (sm_type m =? 4) = false) as [-> ->].
    { destruct (Z.eq_dec (sm_type m) 2) as [e2|e2]; [|assert (e12 : sm_type m = 12) by lia]; rewrite ?e2, ?e12 in *; injection Hty as <-; auto. }
    apply (K 2%nat eq_refl). }
  destruct (sm_type m =? 3) eqn:T3.
  { assert (H : sm_type m = 3) by lia. rewrite H in *. injection Hty as <-. apply (K 4%nat eq_refl). }
  assert (H : sm_type m = 4) by lia. rewrite H in *. injection Hty as <-. apply (K 4%nat eq_refl).
Qed.

Section Mean.
  Variables (e : env) (s : st) (p : ptr) (m : smat) (es : Z) (W : Z -> Z).
  Hypothesis (IM : image s p m es) (HT : stat_type (sm_type m) = true) (H1 : sm_chan m = 1).
  Hypothesis HW : elements_of s (sm_data m) es (sm_rows m * sm_cols m) W.
  Let v i := unsigned_reading (sm_type m) (W i).

  Lemma stat_size : (sm_rows m * sm_cols m)%C = Some (sm_rows m * sm_cols m) /\ 0 <= sm_rows m * sm_cols m.
  Proof.
    destruct IM as [Hh Hty HR HC Hch Hsz Hd]. pose proof (type_size_range _ _ Hty).
    assert (0 < sm_rows m * sm_cols m) by (clear - HR HC; nia).
    assert (sm_rows m * sm_cols m <= sm_rows m * sm_cols m * sm_chan m * es) by (rewrite H1; clear - H H0; nia).
    split; [|lia]. apply cmul_ok. lia.
  Qed.
  Lemma stat_loop (g : sf -> sf -> sf) a :
    forS 0 (sm_rows m * sm_cols m) (fun i res => x <- stat_load (sm_type m) (sm_data m) i ;; ret (g res x)) a e s
    = Ret (foldz (sm_rows m * sm_cols m) (fun a i => g a (v i)) a) s.
  Proof.
    destruct stat_size as [_ N]. apply forS_pure; [lia|]. intros i y Hi.
    rewrite (bind_ret _ _ _ _ _ _ (stat_load_ok e s m p es i (W i) IM HT H1 Hi (HW i Hi))). reflexivity.
  Qed.
  Lemma mean_run : simple_mat_mean p e s = Ret (float_mean (sm_rows m) (sm_cols m) v) s.
  Proof.
    destruct stat_size as [Es N]. pose proof (im_hdr _ _ _ _ IM) as Hh. unfold simple_mat_mean.
    rewrite bind_assert by (destruct p; [reflexivity|discriminate Hh]). rewrite (bind_ret _ _ _ _ _ _ (sget_ok _ _ e _ Hh)).
    rewrite bind_assert by lia. cbv zeta. rewrite HT. rewrite bind_assoc.
    rewrite (bind_ret _ _ _ _ _ _ (ev_ok _ _ e s Es)). rewrite (bind_ret _ _ _ _ _ _ (stat_loop fl_add _)). reflexivity.
  Qed.
  Lemma variance_run pow2 : simple_mat_variance pow2 p e s = Ret (float_variance pow2 (sm_rows m) (sm_cols m) v) s.
  Proof.
    destruct stat_size as [Es N]. pose proof (im_hdr _ _ _ _ IM) as Hh. unfold simple_mat_variance.
    rewrite bind_assert by (destruct p; [reflexivity|discriminate Hh]). rewrite (bind_ret _ _ _ _ _ _ (sget_ok _ _ e _ Hh)).
    rewrite bind_assert by lia. cbv zeta. rewrite (bind_ret _ _ _ _ _ _ mean_run). rewrite HT. rewrite bind_assoc.
    rewrite (bind_ret _ _ _ _ _ _ (ev_ok _ _ e s Es)).
    rewrite (bind_ret _ _ _ _ _ _ (stat_loop (fun res x => fl_of_db (db_add (db_of_fl res) (pow2 (db_of_fl (fl_sub (float_mean (sm_rows m) (sm_cols m) v) x))))) _)).
    reflexivity.
  Qed.
End Mean.

Theorem mean_exact : forall e s p m es W, image s p m es -> sm_chan m = 1 -> In (sm_type m) [1; 2; 3; 4; 12] ->
  elements_of s (sm_data m) es (sm_rows m * sm_cols m) W ->
  simple_mat_mean p e s = Ret (float_mean (sm_rows m) (sm_cols m) (fun i => unsigned_reading (sm_type m) (W i))) s.
Proof. intros e s p m es W IM H1 HT HW. apply (mean_run e s p m es W); auto. cbn in HT. unfold stat_type. lia. Qed.
Theorem variance_exact : forall pow2 e s p m es W, image s p m es -> sm_chan m = 1 -> In (sm_type m) [1; 2; 3; 4; 12] ->
  elements_of s (sm_data m) es (sm_rows m * sm_cols m) W ->
  simple_mat_variance pow2 p e s
  = Ret (float_variance pow2 (sm_rows m) (sm_cols m) (fun i => unsigned_reading (sm_type m) (W i))) s.
Proof. intros pow2 e s p m es W IM H1 HT HW. apply (variance_run e s p m es W); auto. cbn in HT. unfold stat_type. lia. Qed.

(** Sums up to 2^24 that the number of elements divides. *)
Theorem mean_int : forall R C v z mu, 0 < R <= 16777216 -> 0 < C <= 16777216 -> (forall i, 0 <= i < R * C -> is_int (v i) (z i) /\ 0 <= z i) ->
  sumz (R * C) z = mu * (R * C) -> sumz (R * C) z <= 16777216 -> is_int (float_mean R C v) mu.
Proof.
  intros R C v z mu HR HC Hv Hs Hb. assert (HN : 0 < R * C) by (clear - HR HC; nia). unfold float_mean.
  assert (Hz : forall i, 0 <= i < R * C -> 0 <= z i) by (intros i Hi; now apply Hv).
  assert (F : fint (foldz (R * C) (fun a i => fl_add a (v i)) (fl_of_Z 0)) (0 + sumz (R * C) z)).
  { apply foldz_int; auto; try lia. - apply fint_Z. lia. - intros i b y Hi Fb Hy Hm. apply fint_add; auto; [now apply Hv|].
    pose proof (Hz i Hi). lia. }
  rewrite Z.add_0_l, Hs in F. pose proof (sumz_nonneg' (R * C) z ltac:(lia) Hz) as Hn. rewrite Hs in Hn, Hb.
  assert (Hmu : 0 <= mu) by (clear - Hn HN; nia).
  assert (B1 : mu * C <= mu * (R * C)) by (clear - Hmu HR HC; nia). assert (B2 : mu <= mu * C) by (clear - Hmu HC; nia).
  assert (D : forall x y a b w, fint x a -> fint y b -> b <> 0 -> a = w * b -> 0 <= w <= 16777216 -> fint (fl_div x y) w).
  { intros x y a b w Fx Fy Hb0 Ea Hw. apply (div_int 24 128 ltac:(lia) ltac:(lia) ltac:(lia) ltac:(lia) x y a b w); auto.
    change (2 ^ 24) with 16777216. lia. }
  assert (B3 : 0 <= mu * C) by (clear - Hmu HC; nia).
  assert (FR : fint (fl_of_Z R) R) by (apply fint_Z; lia). assert (FC : fint (fl_of_Z C) C) by (apply fint_Z; lia).
  assert (FX : fint (fl_div (foldz (R * C) (fun a i => fl_add a (v i)) (fl_of_Z 0)) (fl_of_Z R)) (mu * C)).
  { apply (D _ _ (mu * (R * C)) R (mu * C) F FR); [lia|ring|lia]. }
  apply (D _ _ (mu * C) C mu FX FC); lia.
Qed.

(** Ones: the sum stops growing at 2^24. *)
Lemma foldz_fixed {A} (f : A -> Z -> A) a x N k : 0 <= N -> 0 <= k -> foldz N f a = x -> (forall i, f x i = x) -> foldz (N + k) f a = x.
Proof.
  intros HN Hk B F. pattern k. apply natlike_ind; [now rewrite Z.add_0_r| |exact Hk].
  intros u Hu IH. replace (N + Z.succ u) with (N + u + 1) by lia. rewrite foldz_S by lia. rewrite IH. apply F.
Qed.
Theorem ones_stall : forall n, 16777216 <= n -> foldz n (fun a _ => fl_add a (fl_of_Z 1)) (fl_of_Z 0) = fl_of_Z 16777216.
Proof.
  assert (B : foldz 16777216 (fun a _ => fl_add a (fl_of_Z 1)) (fl_of_Z 0) = fl_of_Z 16777216).
  { assert (F : fint (foldz 16777216 (fun a _ => fl_add a (fl_of_Z 1)) (fl_of_Z 0)) (0 + sumz 16777216 (fun _ => 1))).
    { apply foldz_int; try lia. - apply fint_Z. lia. - rewrite sumz_const by lia. lia.
      - intros i b y _ Fb Hy Hm. apply fint_add; auto; [apply fint_Z; lia|lia]. }
    rewrite sumz_const in F by lia. change (0 + 16777216 * 1) with 16777216 in F. destruct F as [V N].
    destruct (fl_of_Z_ok 16777216 ltac:(lia)) as [V' N']. apply (num_canonical _ _ _ V V' N N'). pose proof sf_one_pos. nia. }
  assert (St : fl_add (fl_of_Z 16777216) (fl_of_Z 1) = fl_of_Z 16777216) by (vm_compute; reflexivity).
  intros n Hn. replace n with (16777216 + (n - 16777216)) by lia. apply foldz_fixed; [lia|lia|exact B|intros; exact St].
Qed.

(** Variance of whole numbers with a whole mean, as long as no sum exceeds 2^24. *)
Theorem variance_int : forall pow2 R C v z mu va, 0 < R <= 16777216 -> 0 < C <= 16777216 ->
  (forall i, 0 <= i < R * C -> is_int (v i) (z i) /\ 0 <= z i) ->
  (forall x d, Z.abs d <= 16777216 -> is_int x d -> db_ok (pow2 (db_of_fl x)) /\ sf_num (pow2 (db_of_fl x)) = Some (d * d * sf_one)) ->
  sumz (R * C) z = mu * (R * C) -> sumz (R * C) z <= 16777216 ->
  sumz (R * C) (fun i => (mu - z i) * (mu - z i)) = va * (R * C) -> sumz (R * C) (fun i => (mu - z i) * (mu - z i)) <= 16777216 ->
  is_int (float_variance pow2 R C v) va.
Proof.
  intros pow2 R C v z mu va HR HC Hv Hp Hs Hb Hs2 Hb2. assert (HN : 0 < R * C) by (clear - HR HC; nia).
  pose proof (mean_int R C v z mu HR HC Hv Hs Hb) as FM. unfold float_variance. set (mean := float_mean R C v) in *. clearbody mean.
  assert (Hz : forall i, 0 <= i < R * C -> 0 <= z i) by (intros i Hi; now apply Hv).
  pose proof (sumz_nonneg' (R * C) z ltac:(lia) Hz) as Hn. 
  assert (Hmu : 0 <= mu <= 16777216) by (clear - Hn HN Hs Hb; nia).
  assert (G : forall i k (h : Z -> Z), 0 <= i < k -> (forall i, 0 <= i < k -> 0 <= h i) -> h i <= sumz k h).
  { intros i k h Hi. assert (K : 0 <= k) by lia. revert Hi. pattern k. apply natlike_ind; [lia| |exact K].
    intros u Hu IH Hi Hh. unfold Z.succ in *. rewrite sumz_S by lia. pose proof (Hh u ltac:(lia)).
    assert (0 <= sumz u h) by (apply sumz_nonneg'; auto; intros; apply Hh; lia).
    destruct (Z.eq_dec i u) as [->|Hne]; [lia|]. assert (h i <= sumz u h) by (apply IH; [lia|intros; apply Hh; lia]). lia. }
  assert (Zi : forall i, 0 <= i < R * C -> z i <= 16777216).
  { intros i Hi. pose proof (G i (R * C) z Hi Hz). lia. }
  assert (F : fint (foldz (R * C) (fun a i => fl_of_db (db_add (db_of_fl a) (pow2 (db_of_fl (fl_sub mean (v i)))))) (fl_of_Z 0))
     (0 + sumz (R * C) (fun i => (mu - z i) * (mu - z i)))).
  { apply foldz_int; auto; try lia.
    - apply fint_Z. lia.
    - intros i Hi. apply Z.square_nonneg.
    - intros i b y Hi Fb Hy Hm. destruct (Hv i Hi) as [Fi Ni]. pose proof (Zi i Hi) as Bi.
      assert (FD : is_int (fl_sub mean (v i)) (mu - z i)).
      { apply (sub_int 24 128 ltac:(lia) ltac:(lia) ltac:(lia)); auto. change (2 ^ 24) with 16777216. lia. }
      assert (Ab : Z.abs (mu - z i) <= 16777216) by (pose proof (Hz i Hi); lia). destruct (Hp _ _ Ab FD) as [V N]. destruct Fb as [Vb Nb]. destruct (db_of_fl_ok _ Vb) as [Vd Nd].
      pose proof (Z.square_nonneg (mu - z i)) as Sq.
      apply fl_of_db_int; [|lia]. apply (add_int 53 1024 ltac:(lia) ltac:(lia) ltac:(lia)).
      + split; [exact Vd|]. now rewrite Nd.
      + split; auto.
      + change (2 ^ 53) with 9007199254740992. lia. }
  assert (Hn2 : 0 <= sumz (R * C) (fun i => (mu - z i) * (mu - z i))) by (apply sumz_nonneg'; [lia|intros; apply Z.square_nonneg]).
  rewrite Z.add_0_l, Hs2 in F. rewrite Hs2 in Hn2, Hb2.
  assert (Hva : 0 <= va) by (clear - Hn2 HN; nia).
  assert (B1 : va * C <= va * (R * C)) by (clear - Hva HR HC; nia). assert (B2 : va <= va * C) by (clear - Hva HC; nia).
  assert (B3 : 0 <= va * C) by (clear - Hva HC; nia).
  assert (D : forall x y a b w, fint x a -> fint y b -> b <> 0 -> a = w * b -> 0 <= w <= 16777216 -> fint (fl_div x y) w).
  { intros x y a b w Fx Fy Hb0 Ea Hw. apply (div_int 24 128 ltac:(lia) ltac:(lia) ltac:(lia) ltac:(lia) x y a b w); auto.
    change (2 ^ 24) with 16777216. lia. }
  assert (FR : fint (fl_of_Z R) R) by (apply fint_Z; lia). assert (FC : fint (fl_of_Z C) C) by (apply fint_Z; lia).
  pose proof (D _ _ (va * (R * C)) R (va * C) F FR ltac:(lia) ltac:(ring) ltac:(lia)) as FX.
  apply (D _ _ (va * C) C va FX FC); lia.
Qed.
