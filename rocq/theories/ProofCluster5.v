(** * Proofs: images too large for k-means, and colour images. *)
From Verif Require Import Base Logic ModelCore ModelFloat ModelPixel ModelVector ModelCluster
  SpecBase SpecNum SpecStat SpecPixel SpecVector SpecCluster SpecCxx
  ProofFloat ProofFloat2 ProofCore ProofLayout ProofHM ProofCopy ProofWord ProofArr ProofSave2 ProofImage2 ProofColor
  ProofCluster ProofCluster2 ProofCluster3 ProofCluster4.
From Coq Require Import ZifyBool ZifyNat Floats.SpecFloat.
Ltac Zify.zify_post_hook ::= Z.div_mod_to_equations.
Open Scope Z_scope.

(** ** The square of the diagonal overflows *)

Lemma diag_ub rows cols : 2147483647 < rows * rows + cols * cols -> (rows * rows + cols * cols)%C = None.
Proof.
  intros H. unfold cadd, cmul, cop, ci. unfold chk, in_int, INT_MIN, INT_MAX.
  pose proof (Z.square_nonneg rows). pose proof (Z.square_nonneg cols).
  destruct ((-2147483648 <=? rows * rows) && (rows * rows <=? 2147483647)); [|reflexivity].
  destruct ((-2147483648 <=? cols * cols) && (cols * cols <=? 2147483647)); [|reflexivity].
  replace (rows * rows + cols * cols <=? 2147483647) with false by lia. now rewrite andb_false_r.
Qed.

Lemma wide_ub pow2 rnd th e s src m v1 K fuel :
  heap_ok s -> image s src m 1 -> sm_chan m = 1 ->
  (forall i, 0 <= rnd i <= 2147483647) -> 0 < K <= 2147483647 ->
  2147483647 < sm_rows m * sm_rows m + sm_cols m * sm_cols m -> lit_pixel s m 0 0 = true ->
  word_at s v1 0 8 = Some K -> readable s v1 (16 + 8 * K) -> v1 <> sm_data m -> (0 < fuel)%nat ->
  hypercv_k_means pow2 rnd fuel src v1 K th e s = UB.
Proof.
  intros Hs IM H1 Hrnd HK Hd Hlit HW (q1 & N1 & d1 & -> & I1 & HN) Hne Hf.
  destruct IM as [Hm _ Hr Hc _ Hsz (qd & nd & dat & Hdat & Id & Hnd)]. rewrite Hdat in Hne, Id.
  set (rows := sm_rows m) in *. set (cols := sm_cols m) in *. rewrite H1 in Hnd, Hsz.
  assert (0 < rows * cols) by (apply Z.mul_pos_pos; lia).
  rewrite (head_run pow2 rnd fuel e s src m q1 N1 d1 K th I1 ltac:(lia) Hm HW HK).
  rewrite H1. change (1 =? 1) with true. cbv iota. rewrite bind_ret_l. fold rows cols.
  destruct (prep_run e s q1 N1 d1 src m qd nd dat K th pow2 rnd rows cols fuel Hs Hm Hdat Id I1 ltac:(congruence) HN Hrnd HK Hr Hc ltac:(lia)) as (L1 & Ld & s2 & s3 & EQ & M3 & _).
  rewrite EQ. destruct fuel as [|fuel]; [lia|]. cbn [whileF]. change (negb (1 =? 0)) with true. cbv iota.
  apply bind_ub, bind_ub, bind_ub. unfold km_assign. apply for_ub_first; [lia|]. apply for_ub_first; [lia|].
  change ((0 * cols + 0)%C) with (match chk 0 with Some y => chk (y + 0) | None => None end). cbn [chk in_int].
  rewrite (bind_ret _ _ e s3 0 s3 eq_refl). destruct M3 as (_ & _ & _ & D).
  rewrite (bind_ret _ _ _ _ _ _ (load8_ok e s3 qd nd dat 0 D ltac:(lia))).
  rewrite <- (lit_ok s m qd nd dat 0 0 Hdat Id H1) in Hlit by (fold rows cols; lia).
  unfold lit in Hlit. replace (0 * sm_cols m + 0) with 0 in Hlit by lia.
  destruct (dat 0 mod 256 =? 0); [discriminate|]. apply bind_ub. unfold km_nearest. rewrite diag_ub by exact Hd. reflexivity.
Qed.

(** ** The coordinate sums overflow *)

Lemma for_or e lo hi body (I : Z -> st -> Prop) : lo <= hi -> forall s, I lo s ->
  (forall k s', lo <= k < hi -> I k s' -> body k e s' = UB \/ exists s'', body k e s' = Ret tt s'' /\ I (k + 1) s'') ->
  for_ lo hi body e s = UB \/ exists s', for_ lo hi body e s = Ret tt s' /\ I hi s'.
Proof.
  intros Hle. remember (Z.to_nat (hi - lo)) as n eqn:En. revert lo Hle En. induction n as [|n IH]; intros lo Hle En s HI HB.
  - assert (lo = hi) by lia. subst lo. right. exists s. rewrite for_empty by lia. auto.
  - rewrite for_first by lia. destruct (HB lo s ltac:(lia) HI) as [U|(s1 & R & I1)].
    + left. now apply bind_ub.
    + rewrite (bind_ret _ _ _ _ _ _ R). apply (IH (lo + 1)); auto; try lia. intros k s' Hk. apply HB. lia.
Qed.

Lemma addi_or e s q base n g i off d : arr s q base 4 n g -> 0 <= i < n -> off = base + i * 4 -> small (g i) -> 0 <= d ->
  (2147483647 < g i + d /\ addi (Some q) off d e s = UB) \/ small (g i + d).
Proof.
  intros A Hi Ho Sg Hd. destruct (Z_lt_le_dec 2147483647 (g i + d)) as [H|H]; [left|right; unfold small in *; lia].
  split; [exact H|]. unfold addi. rewrite (bind_ret _ _ _ _ _ _ (geti_ok e s q base n g i off A Hi Ho Sg)).
  unfold cadd, cop, ci. rewrite chk_ub by exact H. reflexivity.
Qed.

Section Sums.
  Variables (e : env) (q1 q2 q3 qd : nat) (K nd : Z) (dat : Z -> Z).
  Hypotheses (N12 : q1 <> q2) (N13 : q1 <> q3) (N23 : q2 <> q3) (Nd : qd <> q1 /\ qd <> q2 /\ qd <> q3).
  Variables (pow2 : sf -> sf) (rows cols : Z) (c : Z -> Z * Z).
  Hypotheses (Hsq : squares pow2 46340) (HK : 0 < K) (Hr : 0 < rows) (Hc : 0 < cols).
  Hypotheses (Hd : rows * rows + cols * cols <= 2147483647) (Hn : rows * cols <= 2147483647) (Hdat : rows * cols <= nd).
  Hypothesis (Hin : forall k, 0 <= k < K -> 0 <= fst (c k) < cols /\ 0 <= snd (c k) < rows).
  Notation memq := (mem q1 q2 q3 qd K nd dat).
  Notation acc := (acc K dat rows cols c).
  Notation cnt := (cnt K dat rows cols c).
  Notation sel := (sel K dat rows cols c).
  Notation label := (label K rows cols c).
  Definition fits (l : list (Z * Z)) : Prop := forall k, 0 <= k < K -> small (fst (acc l k)) /\ small (snd (acc l k)) /\ small (cnt l k).

  Lemma pixel_or s l i j : memq s c (acc l) (cnt l) -> 0 <= i < rows -> 0 <= j < cols -> fits l ->
    let r := (x <- ev (i * cols + j)%C ;; b <- load8 (Some qd) x ;;
      if b =? 0 then ret tt else
      md <- km_nearest pow2 (Some q1) K rows cols i j ;;
      addi (Some q2) (8 * fst md) j ;;; addi (Some q2) (8 * fst md + 4) i ;;; addi (Some q3) (4 * fst md) 1) e s in
    r = UB \/ exists s', r = Ret tt s' /\ memq s' c (acc (l ++ [(i, j)])) (cnt (l ++ [(i, j)])) /\ fits (l ++ [(i, j)]).
  Proof.
    intros HM Hi Hj FT. cbn zeta. assert (Hcell : 0 <= i * cols + j < rows * cols) by (clear -Hi Hj; nia).
    assert (E : (i * cols + j)%C = Some (i * cols + j)) by (clear -Hi Hj Hcell Hn; cev_with nia; reflexivity).
    rewrite E. rewrite (bind_ret _ _ e s (i * cols + j) s eq_refl).
    pose proof HM as (_ & A2 & A3 & D).
    rewrite (bind_ret _ _ _ _ _ _ (load8_ok e s qd nd dat (i * cols + j) D ltac:(lia))).
    assert (Lt : lit dat cols i j = negb (dat (i * cols + j) mod 256 =? 0)) by reflexivity.
    destruct (dat (i * cols + j) mod 256 =? 0); cbn [negb] in Lt.
    { right. exists s. split; [reflexivity|].
      assert (X : forall k, sel k (l ++ [(i, j)]) = sel k l) by (intros k; rewrite sel_app; cbn [fst snd]; rewrite Lt; cbn [andb]; now rewrite app_nil_r).
      split; [|intros k Hk; specialize (FT k Hk); unfold ProofCluster2.acc, ProofCluster2.cnt in *; now rewrite X].
      eapply mem_ext; [auto| | |exact HM]; intros k Hk; unfold ProofCluster2.acc, ProofCluster2.cnt; now rewrite X. }
    destruct (nearest_run e q1 q2 q3 qd K nd dat N12 N13 N23 Nd pow2 rows cols c Hsq HK Hr Hc Hd Hin s _ _ i j HM Hi Hj) as (d & R). rewrite (bind_ret _ _ _ _ _ _ R). cbn [fst]. clear R d.
    destruct (label_ok q1 q2 q3 qd K dat N12 N13 N23 Nd rows cols c HK Hd Hin i j Hi Hj) as (Hm & _). set (m := label i j) in *.
    assert (Sm : sel m (l ++ [(i, j)]) = sel m l ++ [(i, j)]).
    { rewrite sel_app. cbn [fst snd]. rewrite Lt. fold m. rewrite Z.eqb_refl. reflexivity. }
    assert (So : forall k, k <> m -> sel k (l ++ [(i, j)]) = sel k l).
    { intros k Hk. rewrite sel_app. cbn [fst snd]. rewrite Lt. fold m. replace (m =? k) with false by lia. cbn. apply app_nil_r. }
    destruct (FT m Hm) as (B1 & B2 & B3).
    assert (T1 : fst (acc (l ++ [(i, j)]) m) = fst (acc l m) + j).
    { unfold ProofCluster2.acc. cbn [fst]. rewrite Sm, total_app. cbn. lia. }
    assert (T2 : snd (acc (l ++ [(i, j)]) m) = snd (acc l m) + i).
    { unfold ProofCluster2.acc. cbn [snd]. rewrite Sm, total_app. cbn. lia. }
    assert (T3 : cnt (l ++ [(i, j)]) m = cnt l m + 1).
    { unfold ProofCluster2.cnt. rewrite Sm, app_length. cbn. lia. }
    destruct (addi_or e s q2 0 (2 * K) _ (2 * m) (8 * m) j A2 ltac:(lia) ltac:(lia) ltac:(rewrite flat_x; exact B1) ltac:(lia)) as [(_ & U)|S1].
    { left. now apply bind_ub. }
    rewrite flat_x in S1.
    destruct (addi2x e q1 q2 q3 qd K nd dat N12 N13 N23 Nd rows cols c Hin s _ _ m j HM Hm B1 S1) as (s1 & R1 & M1 & _).
    rewrite (bind_ret _ _ _ _ _ _ R1).
    assert (P1 : forall v, snd (pupd (acc l) m (v, snd (acc l m)) m) = snd (acc l m)) by (intros; unfold pupd; now rewrite Z.eqb_refl).
    assert (P2 : fst (pupd (acc l) m (fst (acc l m) + j, snd (acc l m)) m) = fst (acc l m) + j) by (unfold pupd; now rewrite Z.eqb_refl).
    pose proof M1 as (_ & A2' & _).
    destruct (addi_or e s1 q2 0 (2 * K) _ (2 * m + 1) (8 * m + 4) i A2' ltac:(lia) ltac:(lia) ltac:(rewrite flat_y, P1; exact B2) ltac:(lia)) as [(_ & U)|S2].
    { left. now apply bind_ub. }
    rewrite flat_y, P1 in S2.
    destruct (addi2y e q1 q2 q3 qd K nd dat N12 N13 N23 Nd rows cols c Hin s1 _ _ m i M1 Hm) as (s2 & R2 & M2 & _); [now rewrite P1|rewrite P1; exact S2|].
    rewrite (bind_ret _ _ _ _ _ _ R2).
    pose proof M2 as (_ & _ & A3' & _).
    destruct (addi_or e s2 q3 0 K _ m (4 * m) 1 A3' ltac:(lia) ltac:(lia) B3 ltac:(lia)) as [(_ & U)|S3].
    { left. exact U. }
    destruct (addi3 e q1 q2 q3 qd K nd dat N12 N13 N23 Nd rows cols c Hin s2 _ _ m 1 M2 Hm B3 S3) as (s3 & R3 & M3 & _).
    right. exists s3. split; [exact R3|]. split.
    - eapply mem_ext; [auto| | |exact M3].
      + intros k Hk. unfold pupd at 1. destruct (Z.eqb_spec k m) as [->|Ne].
        * rewrite P1, P2. rewrite (surjective_pairing (acc (l ++ [(i, j)]) m)). now rewrite T1, T2.
        * unfold pupd. replace (k =? m) with false by lia. unfold ProofCluster2.acc. now rewrite So.
      + intros k Hk. unfold fupd. destruct (Z.eqb_spec k m) as [->|Ne]; [now rewrite T3|]. unfold ProofCluster2.cnt. now rewrite So.
    - intros k Hk. destruct (Z.eq_dec k m) as [->|Ne]; [rewrite T1, T2, T3; auto|].
      specialize (FT k Hk). unfold ProofCluster2.acc, ProofCluster2.cnt in *. now rewrite So.
  Qed.

  Lemma assign_or s : memq s c (fun _ => (0, 0)) (fun _ => 0) ->
    km_assign pow2 (Some qd) (Some q1) (Some q2) (Some q3) K rows cols e s = UB \/ fits (pixels rows cols).
  Proof.
    intros HM. unfold km_assign.
    match goal with |- for_ 0 rows ?b e s = _ \/ _ =>
      destruct (for_or e 0 rows b (fun i s' => memq s' c (acc (pixels i cols)) (cnt (pixels i cols)) /\ fits (pixels i cols)) ltac:(lia) s) as [U|(s' & _ & _ & F)] end;
      [| |now left|now right].
    - split; [exact HM|]. intros k Hk. cbn. unfold small. lia.
    - intros i s1 Hi (M1 & F1).
      match goal with |- for_ 0 cols ?b e s1 = _ \/ _ =>
        destruct (for_or e 0 cols b (fun j s' => memq s' c (acc (pixels i cols ++ pixel_line j i)) (cnt (pixels i cols ++ pixel_line j i)) /\ fits (pixels i cols ++ pixel_line j i)) ltac:(lia) s1) as [U|(s2 & R & I2)] end.
      + change (pixel_line 0 i) with (@nil (Z * Z)). rewrite app_nil_r. auto.
      + intros j s2 Hj (M2 & F2). rewrite line_S by lia. rewrite app_assoc. apply pixel_or; auto.
      + now left.
      + right. exists s2. split; [exact R|]. rewrite pixels_S by lia. exact I2.
  Qed.
End Sums.

(** The columns of all pixels add up to rows * cols * (cols - 1) / 2. *)
Lemma line_total i n : 0 <= n -> 2 * total snd (pixel_line n i) = n * (n - 1).
Proof.
  intros Hn. pattern n. apply natlike_ind; [reflexivity| |exact Hn]. intros x Hx IH.
  unfold Z.succ. rewrite line_S by lia. rewrite total_app. cbn [total fold_right snd]. lia.
Qed.
Lemma pixels_total rows cols : 0 <= rows -> 0 <= cols -> 2 * total snd (pixels rows cols) = rows * (cols * (cols - 1)).
Proof.
  intros Hr Hc. pattern rows. apply natlike_ind; [reflexivity| |exact Hr]. intros x Hx IH.
  unfold Z.succ. rewrite pixels_S by lia. rewrite total_app. pose proof (line_total x cols Hc). lia.
Qed.

Lemma sum_ub pow2 rnd th e s src m v1 fuel :
  heap_ok s -> image s src m 1 -> sm_chan m = 1 -> squares pow2 46340 ->
  (forall i, 0 <= rnd i <= 2147483647) ->
  sm_rows m * sm_rows m + sm_cols m * sm_cols m <= 2147483647 ->
  (forall i j, 0 <= i < sm_rows m -> 0 <= j < sm_cols m -> lit_pixel s m i j = true) ->
  2147483647 < sm_rows m * (sm_cols m * (sm_cols m - 1) / 2) ->
  word_at s v1 0 8 = Some 1 -> readable s v1 24 -> v1 <> sm_data m -> (0 < fuel)%nat ->
  hypercv_k_means pow2 rnd fuel src v1 1 th e s = UB.
Proof.
  intros Hs IM H1 Hsq Hrnd Hd Hlit Hov HW (q1 & N1 & d1 & -> & I1 & HN) Hne Hf.
  destruct IM as [Hm _ Hr Hc _ Hsz (qd & nd & dat & Hdat & Id & Hnd)]. rewrite Hdat in Hne, Id.
  assert (HL : forall i j, 0 <= i < sm_rows m -> 0 <= j < sm_cols m -> lit dat (sm_cols m) i j = true).
  { intros i j Hi Hj. rewrite (lit_ok s m qd nd dat); auto. rewrite H1 in Hnd. lia. }
  set (rows := sm_rows m) in *. set (cols := sm_cols m) in *. rewrite H1 in Hnd, Hsz.
  assert (HK : 0 < 1 <= 2147483647) by lia.
  rewrite (head_run pow2 rnd fuel e s src m q1 N1 d1 1 th I1 ltac:(lia) Hm HW HK).
  rewrite H1. change (1 =? 1) with true. cbv iota. rewrite bind_ret_l. fold rows cols.
  destruct (prep_run e s q1 N1 d1 src m qd nd dat 1 th pow2 rnd rows cols fuel Hs Hm Hdat Id I1 ltac:(congruence) ltac:(lia) Hrnd HK Hr Hc ltac:(lia)) as (L1 & Ld & s2 & s3 & EQ & M3 & _).
  rewrite EQ. destruct fuel as [|fuel]; [lia|]. cbn [whileF]. change (negb (1 =? 0)) with true. cbv iota.
  apply bind_ub, bind_ub, bind_ub. set (n0 := List.length (objs s)) in *.
  destruct (assign_or e q1 n0 (S n0) qd 1 nd dat ltac:(lia) ltac:(lia) ltac:(lia) ltac:(assert (qd <> q1) by congruence; lia) pow2 rows cols (random_points rnd rows cols) Hsq ltac:(lia) Hr Hc Hd ltac:(lia) ltac:(lia) (start_in rnd rows cols 1 Hr Hc) s3 M3) as [U|F]; [exact U|].
  exfalso. destruct (F 0 ltac:(lia)) as (S1 & _). unfold small, acc in S1.
  replace (sel 1 dat rows cols (random_points rnd rows cols) 0 (pixels rows cols)) with (pixels rows cols) in S1.
  - cbn [fst] in S1. pose proof (pixels_total rows cols ltac:(lia) ltac:(lia)) as PT.
    assert (Hh : 2 * (cols * (cols - 1) / 2) <= cols * (cols - 1)) by (clear; lia). set (h := cols * (cols - 1) / 2) in *. clearbody h.
    assert (rows * (2 * h) <= rows * (cols * (cols - 1))) by (apply Z.mul_le_mono_nonneg_l; [lia|exact Hh]).
    clear -S1 PT H Hov. lia.
  - symmetry. unfold sel. assert (X : forall p, In p (pixels rows cols) -> lit dat cols (fst p) (snd p) && (label 1 rows cols (random_points rnd rows cols) (fst p) (snd p) =? 0) = true).
    { intros p Hp. apply pixels_in in Hp as [Hi Hj]. rewrite HL by auto. cbn [andb].
      destruct (label_ok 0 1 2 3 1 dat ltac:(lia) ltac:(lia) ltac:(lia) ltac:(lia) rows cols (random_points rnd rows cols) ltac:(lia) Hd (start_in rnd rows cols 1 Hr Hc) (fst p) (snd p) Hi Hj) as (R & _). lia. }
    revert X. generalize (pixels rows cols). intros L. induction L as [|p L IH]; intros X; [reflexivity|].
    cbn [filter]. rewrite X by (left; reflexivity). f_equal. apply IH. intros p' Hp'. apply X. now right.
Qed.

(** ** Colour images: the grey image made from them is not released *)

Lemma colour_run pow2 rnd th e s src m v1 K :
  env_ok e -> heap_ok s -> image s src m 1 -> sm_chan m = 3 -> squares pow2 46340 ->
  (forall i, 0 <= rnd i <= 2147483647) -> 0 < K <= 2147483647 ->
  sm_rows m * sm_rows m + sm_cols m * sm_cols m <= 2147483647 ->
  sm_rows m * sm_cols m * (sm_cols m - 1) <= 2147483647 ->
  sm_rows m * sm_cols m * (sm_rows m - 1) <= 2147483647 ->
  word_at s v1 0 8 = Some K -> readable s v1 (16 + 8 * K) ->
  exists cs, kmeans_rounds (sm_rows m) (sm_cols m) (lit_colour s m) K (random_points rnd (sm_rows m) (sm_cols m)) cs
  /\ forall fuel,
    (exists n s', (n < fuel)%nat /\ hypercv_k_means pow2 rnd fuel src v1 K th e s = Ret tt s'
       /\ first_settled K th cs n /\ centres_left s v1 K (cs (S n)) s' /\ ~ no_leak s s')
    \/ (hypercv_k_means pow2 rnd fuel src v1 K th e s = Fuel
        /\ forall n, (n < fuel)%nat -> ~ settled K th (cs n) (cs (S n))).
Proof.
  intros He Hs IM H3 Hsq Hrnd HK Hd Hx Hy HW (q1 & N1 & d1 & -> & I1 & HN).
  destruct (rgb2gray_average e s src m He Hs IM H3 0 ltac:(lia) ltac:(lia)) as (p' & s1 & RG & m' & IM' & ER & EC & ET & ECH & PX & FRP & FRD & OU & FF & Hs1).
  assert (Hm : sm_at s src = Some m) by apply (im_hdr _ _ _ _ IM).
  pose proof (im_rows _ _ _ _ IM) as Hr. pose proof (im_cols _ _ _ _ IM) as Hc.
  destruct IM' as [Hm' _ Hr' Hc' _ Hsz' (qd & nd & dat & Hdat & Id & Hnd)]. rewrite Hdat in Id.
  assert (Lq : (q1 < List.length (objs s))%nat) by (pose proof I1 as X; apply isb_obj in X as (a & r & X); apply nth_error_Some; congruence).
  assert (Ldq : (List.length (objs s) <= qd)%nat) by (destruct FRD as (k & E & L); rewrite Hdat in E; injection E as ->; exact L).
  assert (I1' : isb s1 q1 N1 d1) by (unfold isb; rewrite (nth_bytes_at s s1 q1); [exact I1|apply OU; exact Lq]).
  assert (LT : forall i j, 0 <= i < sm_rows m -> 0 <= j < sm_cols m -> lit dat (sm_cols m) i j = lit_colour s m i j).
  { intros i j Hi Hj. rewrite <- EC. rewrite (lit_ok s1 m' qd nd dat); auto; try (rewrite ?ER, ?EC; auto; fail).
    2:{ rewrite ECH in Hnd. lia. }
    unfold lit_pixel, lit_colour. rewrite PX by (unfold in_image; rewrite ER, EC, ECH; lia).
    destruct (pix s m i j 0), (pix s m i j 1), (pix s m i j 2); reflexivity. }
  rewrite ER, EC, ECH in *. set (rows := sm_rows m) in *. set (cols := sm_cols m) in *.
  exists (citer K dat rows cols (random_points rnd rows cols)). split.
  - destruct (rounds_ok dat rows cols K rnd ltac:(lia) Hr Hc Hd) as [A B]. split; [exact A|].
    intros n. eapply kmeans_round_ext; [|apply B]. exact LT.
  - intros fuel. rewrite (head_run pow2 rnd fuel e s src m q1 N1 d1 K th I1 ltac:(lia) Hm HW HK).
    rewrite H3. change (3 =? 1) with false. cbv iota. rewrite (bind_ret _ _ _ _ _ _ RG). fold rows cols.
    destruct (tail_run e s1 q1 N1 d1 p' m' qd nd dat K th pow2 rnd rows cols) with (fuel := fuel)
      as [(n & s' & Hn & R & FS & (PT & BY & UC & FL & HO) & NL)|X]; auto; try lia.
    left. exists n, s'. split; [exact Hn|]. split; [exact R|]. split; [exact FS|]. split; [split; [exact PT|split; [|split; [|split]]]|].
    + intros p Hp. rewrite BY by exact Hp. unfold byte_at. rewrite (nth_bytes_at s s1 q1); [reflexivity|]. apply OU. exact Lq.
    + intros k Hk Hnk. rewrite UC; [apply OU; exact Hk| |exact Hnk]. pose proof (old_unchanged_length _ _ OU). lia.
    + congruence.
    + exact HO.
    + intros NO. pose proof Id as X. apply isb_obj in X as (a & r & X).
      assert (nth_error (objs s') qd = Some (mkObj a nd r true (CBytes dat))).
      { rewrite UC; [exact X|apply nth_error_Some; congruence|]. intros [E|[]]. injection E as E. lia. }
      specialize (NO qd _ Ldq H). discriminate.
Qed.
