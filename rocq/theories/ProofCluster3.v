(** * Proofs: k-means, the loop and the whole function. *)
From Verif Require Import Base Logic ModelCore ModelFloat ModelPixel ModelVector ModelCluster
  SpecBase SpecNum SpecStat SpecVector SpecCluster SpecCxx
  ProofFloat ProofFloat2 ProofCore ProofLayout ProofHM ProofCopy ProofWord ProofArr ProofSave2 ProofImage2 ProofCluster ProofCluster2.
From Coq Require Import ZifyBool ZifyNat Floats.SpecFloat.
Ltac Zify.zify_post_hook ::= Z.div_mod_to_equations.
Open Scope Z_scope.

Lemma big_malloc e s n : 0 <= n < 2 ^ 62 -> malloc n e s = Ret (Some (List.length (objs s))) (with_block e s n (e_junk e (List.length (objs s)))).
Proof. intros H. unfold malloc. replace ((0 <=? n) && (n <? 2 ^ 62)) with true by lia. reflexivity. Qed.

Lemma flat_of g t : flat (fun k => (g (2 * k), g (2 * k + 1))) t = g t.
Proof. destruct (flat_cases t) as [[k ->]|[k ->]]; rewrite ?flat_x, ?flat_y; reflexivity. Qed.

Section Loop.
  Variables (e : env) (q1 q2 q3 qd : nat) (K nd : Z) (dat : Z -> Z).
  Hypotheses (N12 : q1 <> q2) (N13 : q1 <> q3) (N23 : q2 <> q3) (Nd : qd <> q1 /\ qd <> q2 /\ qd <> q3).
  Variables (pow2 : sf -> sf) (rows cols : Z).
  Hypotheses (Hsq : squares pow2 46340) (HK : 0 < K) (Hr : 0 < rows) (Hc : 0 < cols).
  Hypotheses (Hd : rows * rows + cols * cols <= 2147483647)
    (Hx : rows * cols * (cols - 1) <= 2147483647) (Hy : rows * cols * (rows - 1) <= 2147483647)
    (Hn : rows * cols <= 2147483647) (Hdat : rows * cols <= nd).
  Notation memq := (mem q1 q2 q3 qd K nd dat).
  Notation frq := (fr q1 q2 q3 K).
  Notation o2 := (fun _ : Z => (0, 0)).
  Notation o1 := (fun _ : Z => 0).
  Notation inq c := (forall k, 0 <= k < K -> 0 <= fst (c k) < cols /\ 0 <= snd (c k) < rows).

  Lemma start_run s c a n rnd : (forall i, 0 <= rnd i <= 2147483647) -> memq s c a n ->
    exists s', km_start rnd (Some q1) (Some q2) (Some q3) K rows cols e s = Ret tt s'
      /\ memq s' (random_points rnd rows cols) o2 o1 /\ frq s s'.
  Proof.
    intros Hrnd HM. unfold km_start.
    match goal with |- context [for_ 0 K ?b e s] => set (body := b) end.
    destruct (for_inv e 0 K body (fun k s' => memq s' (mix k (random_points rnd rows cols) c) (mix k o2 a) (mix k o1 n) /\ frq s s') s) as (s' & R & M' & F').
    - lia.
    - split; [|apply fr_refl]. eapply mem_ext; [| | |exact HM]; intros k Hk; unfold mix; now replace (k <? 0) with false by lia.
    - intros k s1 Hk (M1 & F1). unfold body.
      assert (C46 : cols <= 2147483647 /\ rows <= 2147483647) by (clear -Hn Hr Hc; nia).
      assert (RX : forall z m, 0 <= z <= 2147483647 -> 0 < m <= 2147483647 -> crem z m = Some (z mod m) /\ small (z mod m)).
      { clear. intros z m Hz Hm. assert (0 <= z mod m < m) by (apply Z.mod_pos_bound; lia).
        split; [|unfold small; lia]. unfold crem. cbn. rewrite Z.rem_mod_nonneg by lia.
        assert (0 <= Z.quot z m <= z) by (rewrite Z.quot_div_nonneg by lia; split; [apply Z.div_pos; lia|apply Z.div_le_upper_bound; nia]).
        rewrite chk_ok by lia. replace (m =? 0) with false by lia. reflexivity. }
      destruct (RX _ cols (Hrnd (Z.to_nat (2 * k))) ltac:(lia)) as (X1 & S1).
      destruct (RX _ rows (Hrnd (Z.to_nat (2 * k + 1))) ltac:(lia)) as (Y1 & S2).
      rewrite X1. rewrite (bind_ret _ _ e s1 (rnd (Z.to_nat (2 * k)) mod cols) s1 eq_refl).
      rewrite Y1. rewrite (bind_ret _ _ e s1 (rnd (Z.to_nat (2 * k + 1)) mod rows) s1 eq_refl).
      assert (Z0 : small 0) by (unfold small; lia).
      destruct (put1x e q1 q2 q3 qd K nd dat N12 N13 N23 Nd s1 _ _ _ k M1 Hk _ S1) as (s3 & R3 & M3 & F3).
      rewrite (bind_ret _ _ _ _ _ _ R3).
      destruct (put1y e q1 q2 q3 qd K nd dat N12 N13 N23 Nd s3 _ _ _ k M3 Hk _ S2) as (s4 & R4 & M4 & F4).
      rewrite (bind_ret _ _ _ _ _ _ R4).
      destruct (put2x e q1 q2 q3 qd K nd dat N12 N13 N23 Nd s4 _ _ _ k M4 Hk _ Z0) as (s5 & R5 & M5 & F5).
      rewrite (bind_ret _ _ _ _ _ _ R5).
      destruct (put2y e q1 q2 q3 qd K nd dat N12 N13 N23 Nd s5 _ _ _ k M5 Hk _ Z0) as (s6 & R6 & M6 & F6).
      rewrite (bind_ret _ _ _ _ _ _ R6).
      destruct (put3 e q1 q2 q3 qd K nd dat N12 N13 N23 Nd s6 _ _ _ k M6 Hk _ Z0) as (s7 & R7 & M7 & F7).
      exists s7. split; [exact R7|]. split.
      + eapply mem_ext; [| | |exact M7]; intros t Ht.
        * rewrite pupd_pupd, pupd_at. cbn [fst]. apply (mix_step k (random_points rnd rows cols)).
        * rewrite pupd_pupd, pupd_at. cbn [fst]. apply (mix_step k o2).
        * apply (fix_step k o1).
      + do 5 (eapply fr_trans; [eassumption|]). assumption.
    - exists s'. split; [exact R|]. split; [|exact F'].
      eapply mem_ext; [| | |exact M']; intros t Ht; unfold mix; now replace (t <? K) with true by lia.
  Qed.

  Definition next (c : Z -> Z * Z) : Z -> Z * Z := cnew K dat rows cols c.
  Fixpoint citer (c : Z -> Z * Z) (m : nat) : Z -> Z * Z := match m with O => c | S m => next (citer c m) end.
  Lemma citer_shift c m : citer (next c) m = citer c (S m).
  Proof. induction m as [|m IH]; [reflexivity|]. cbn [citer] in *. now rewrite IH. Qed.
  Lemma citer_in c m : inq c -> inq (citer c m).
  Proof.
    intros H. induction m as [|m IH]; [exact H|]. intros k Hk. cbn [citer].
    apply (cnew_range q1 q2 q3 qd K dat N12 N13 N23 Nd rows cols _ Hr Hc IH).
  Qed.

  Lemma loop_run th fuel : forall s c, inq c -> memq s c o2 o1 ->
    let w := whileF fuel (fun flag => negb (flag =? 0))
      (fun _ => km_assign pow2 (Some qd) (Some q1) (Some q2) (Some q3) K rows cols ;;;
                km_move (Some q1) (Some q2) (Some q3) K th) 1 e s in
    (exists n s', (n < fuel)%nat /\ w = Ret 0 s' /\ memq s' (citer c (S n)) o2 o1 /\ frq s s'
        /\ settled K th (citer c n) (citer c (S n)) /\ forall m, (m < n)%nat -> ~ settled K th (citer c m) (citer c (S m)))
    \/ (w = Fuel /\ forall m, (m < fuel)%nat -> ~ settled K th (citer c m) (citer c (S m))).
  Proof.
    induction fuel as [|fuel IH]; intros s c Hin HM; cbn zeta.
    - right. split; [reflexivity|]. intros m Hm; lia.
    - destruct (round_run e q1 q2 q3 qd K nd dat N12 N13 N23 Nd pow2 rows cols c Hsq HK Hr Hc Hd Hx Hy Hn Hdat Hin s th HM) as (s1 & R & M1 & F1).
      pose proof (ups_settled q1 q2 q3 qd K dat N12 N13 N23 Nd rows cols c HK Hin th) as US.
      cbn [whileF]. change (negb (1 =? 0)) with true. cbn iota.
      rewrite (bind_ret _ _ _ _ _ _ R).
      destruct (Z.eq_dec (ups K dat rows cols c th (Z.to_nat K)) 0) as [E|E].
      + left. exists O, s1. rewrite E. split; [lia|]. split; [destruct fuel; reflexivity|].
        split; [exact M1|]. split; [exact F1|]. split; [apply US; exact E|]. intros m Hm; lia.
      + assert (E1 : ups K dat rows cols c th (Z.to_nat K) = 1).
        { clear -E. induction (Z.to_nat K) as [|n IHn]; cbn [ups] in *; [congruence|].
          destruct (up K dat rows cols c th (Z.of_nat n)); auto. }
        assert (NS : ~ settled K th (citer c 0) (citer c 1)) by (rewrite <- US; exact E).
        rewrite E1. destruct (IH s1 (next c) (citer_in c 1 Hin) M1) as [(n & s' & Hlt & W & M' & F' & ST & NO)|(W & NO)].
        * left. exists (S n), s'. split; [lia|]. split; [exact W|]. rewrite !citer_shift in *.
          split; [exact M'|]. split; [eapply fr_trans; eauto|]. split; [exact ST|].
          intros [|m] Hm; [exact NS|]. specialize (NO m ltac:(lia)). now rewrite !citer_shift in NO.
        * right. split; [exact W|]. intros [|m] Hm; [exact NS|]. specialize (NO m ltac:(lia)). now rewrite !citer_shift in NO.
  Qed.
End Loop.

(** ** The function from the allocation of the work arrays on *)

Definition km_tail (pow2 : sf -> sf) (rnd : nat -> Z) (fuel : nat) (mat v1 : ptr) (kind rows cols th : Z) : M unit :=
  v2 <- malloc (kind * 8) ;;
  num <- malloc (kind * 4) ;;
  km_start rnd v1 v2 num kind rows cols ;;;
  m <- sget mat ;;
  whileF fuel (fun flag => negb (flag =? 0))
    (fun _ => km_assign pow2 (sm_data m) v1 v2 num kind rows cols ;;;
              km_move v1 v2 num kind th) 1 ;;;
  free v2 ;;;
  free num.

Lemma free_root e s k o : nth_error (objs s) k = Some o -> o_live o = true -> o_root o = k ->
  free (Some k) e s = Ret tt (mkSt (map (kill_root k) (objs s)) (files s)).
Proof. intros H1 H2 H3. unfold free. now rewrite H1, H2, H3, Nat.eqb_refl. Qed.

(** Up to the loop. *)
Lemma prep_run e s q1 N1 d1 mat mm qd nd dat K th pow2 rnd rows cols fuel :
  heap_ok s -> sm_at s mat = Some mm -> sm_data mm = Some qd -> isb s qd nd dat -> isb s q1 N1 d1 -> qd <> q1 ->
  16 + 8 * K <= N1 -> (forall i, 0 <= rnd i <= 2147483647) -> 0 < K <= 2147483647 -> 0 < rows -> 0 < cols ->
  rows * cols <= 2147483647 ->
  let n0 := List.length (objs s) in
  (q1 < n0)%nat /\ (qd < n0)%nat /\
  exists s2 s3, km_tail pow2 rnd fuel mat (Some q1) K rows cols th e s
    = (whileF fuel (fun flag => negb (flag =? 0))
        (fun _ => km_assign pow2 (Some qd) (Some q1) (Some n0) (Some (S n0)) K rows cols ;;;
                  km_move (Some q1) (Some n0) (Some (S n0)) K th) 1 ;;;
       free (Some n0) ;;; free (Some (S n0))) e s3
  /\ mem q1 n0 (S n0) qd K nd dat s3 (random_points rnd rows cols) (fun _ => (0, 0)) (fun _ => 0)
  /\ fr q1 n0 (S n0) K s2 s3
  /\ files s2 = files s /\ List.length (objs s2) = S (S n0) /\ heap_ok s2 /\ old_unchanged s s2
  /\ nth_error (objs s2) n0 = Some (mkObj (e_addr e n0) (K * 8) n0 true (CBytes (e_junk e n0)))
  /\ nth_error (objs s2) (S n0) = Some (mkObj (e_addr e (S n0)) (K * 4) (S n0) true (CBytes (e_junk e (S n0)))).
Proof.
  intros Hs Hmat Hdata Iqd Iq1 Hne HN Hrnd HK Hr Hc Hn n0.
  assert (L1 : (q1 < n0)%nat) by (apply isb_obj in Iq1 as (a & r & H); apply nth_error_Some; congruence).
  assert (Ld : (qd < n0)%nat) by (apply isb_obj in Iqd as (a & r & H); apply nth_error_Some; congruence).
  set (s1 := with_block e s (K * 8) (e_junk e n0)).
  assert (E1 : List.length (objs s1) = S n0) by apply wb_len.
  set (s2 := with_block e s1 (K * 4) (e_junk e (S n0))).
  assert (E2 : List.length (objs s2) = S (S n0)) by (unfold s2; rewrite wb_len; lia).
  assert (H1 : heap_ok s1) by (apply wb_heap; auto). assert (H2 : heap_ok s2) by (apply wb_heap; auto).
  assert (OU : old_unchanged s s2) by (eapply old_unchanged_trans; apply wb_old).
  set (q2 := n0) in *. set (q3 := S n0) in *.
  assert (N12 : q1 <> q2) by lia. assert (N13 : q1 <> q3) by lia. assert (N23 : q2 <> q3) by lia.
  assert (Nd : qd <> q1 /\ qd <> q2 /\ qd <> q3) by lia.
  assert (I2 : isb s2 q2 (K * 8) (e_junk e q2)) by (apply wb_isb_old; apply wb_isb).
  assert (I3 : isb s2 q3 (K * 4) (e_junk e q3)) by (pose proof (wb_isb e s1 (K * 4) (e_junk e q3)) as X; rewrite E1 in X; exact X).
  assert (I1 : isb s2 q1 N1 d1) by (do 2 apply wb_isb_old; exact Iq1).
  assert (Id : isb s2 qd nd dat) by (do 2 apply wb_isb_old; exact Iqd).
  assert (M0 : exists c a n, mem q1 q2 q3 qd K nd dat s2 c a n).
  { pose proof (arr_of s2 q1 N1 d1 16 4 (2 * K) I1 ltac:(lia) ltac:(lia) ltac:(lia)) as A1.
    pose proof (arr_of s2 q2 _ _ 0 4 (2 * K) I2 ltac:(lia) ltac:(lia) ltac:(lia)) as A2.
    pose proof (arr_of s2 q3 _ _ 0 4 K I3 ltac:(lia) ltac:(lia) ltac:(lia)) as A3.
    match type of A1 with arr _ _ _ _ _ ?g => set (g1 := g) in * end.
    match type of A2 with arr _ _ _ _ _ ?g => set (g2 := g) in * end.
    exists (fun k => (g1 (2 * k), g1 (2 * k + 1))), (fun k => (g2 (2 * k), g2 (2 * k + 1))).
    eexists. split; [eapply arr_ext; [|exact A1]; intros i _; symmetry; apply (flat_of g1)|].
    split; [eapply arr_ext; [|exact A2]; intros i _; symmetry; apply (flat_of g2)|]. split; [exact A3|exact Id]. }
  destruct M0 as (c & a & n & M0).
  destruct (start_run e q1 q2 q3 qd K nd dat N12 N13 N23 Nd rows cols ltac:(lia) Hr Hc Hn s2 c a n rnd Hrnd M0) as (s3 & R3 & M3 & F3).
  assert (Hmat3 : sm_at s3 mat = Some mm).
  { destruct mat as [qm|]; [|discriminate].
    assert (Lm : (qm < n0)%nat).
    { unfold sm_at in Hmat. destruct (nth_error (objs s) qm) eqn:Em; [|discriminate]. apply nth_error_Some. congruence. }
    assert (qm <> q1).
    { intros ->. apply isb_obj in Iq1 as (x & r & Hq). unfold sm_at in Hmat. rewrite Hq in Hmat. discriminate. }
    unfold sm_at in *. destruct F3 as (_ & _ & _ & U & _). rewrite U; [|lia|].
    - rewrite (OU qm Lm). exact Hmat.
    - intros [X|[X|[X|[]]]]; injection X; lia. }
  split; [exact L1|]. split; [exact Ld|]. exists s2, s3.
  split; [|split; [exact M3|split; [exact F3|]]].
  { unfold km_tail. rewrite (bind_ret _ _ _ _ _ _ (big_malloc e s (K * 8) ltac:(lia))). fold n0 s1.
    rewrite (bind_ret _ _ _ _ _ _ (big_malloc e s1 (K * 4) ltac:(lia))). rewrite E1. fold s2 q2 q3.
    rewrite (bind_ret _ _ _ _ _ _ R3).
    rewrite (bind_ret _ _ _ _ _ _ (sget_ok _ _ e _ Hmat3)). rewrite Hdata. reflexivity. }
  split; [reflexivity|]. split; [exact E2|]. split; [exact H2|]. split; [exact OU|]. split.
  - unfold s2. rewrite wb_old by (rewrite E1; unfold q2; lia). unfold s1, with_block; cbn [objs].
    rewrite (nth_error_app_new0 (objs s)). reflexivity.
  - unfold s2, with_block; cbn [objs]. pose proof (nth_error_app_new0 (objs s1) [mkObj (e_addr e (List.length (objs s1))) (K * 4) (List.length (objs s1)) true (CBytes (e_junk e q3))]) as X. rewrite E1 in X. rewrite E1. exact X.
Qed.

Lemma tail_run e s q1 N1 d1 mat mm qd nd dat K th pow2 rnd rows cols :
  heap_ok s -> sm_at s mat = Some mm -> sm_data mm = Some qd -> isb s qd nd dat -> isb s q1 N1 d1 -> qd <> q1 ->
  16 + 8 * K <= N1 -> squares pow2 46340 -> (forall i, 0 <= rnd i <= 2147483647) -> 0 < K <= 2147483647 -> 0 < rows -> 0 < cols ->
  rows * rows + cols * cols <= 2147483647 -> rows * cols * (cols - 1) <= 2147483647 -> rows * cols * (rows - 1) <= 2147483647 ->
  rows * cols <= 2147483647 -> rows * cols <= nd ->
  forall fuel,
  (exists n s', (n < fuel)%nat /\ km_tail pow2 rnd fuel mat (Some q1) K rows cols th e s = Ret tt s'
     /\ first_settled K th (citer K dat rows cols (random_points rnd rows cols)) n
     /\ centres_left s (Some q1) K (citer K dat rows cols (random_points rnd rows cols) (S n)) s' /\ no_leak s s')
  \/ (km_tail pow2 rnd fuel mat (Some q1) K rows cols th e s = Fuel
      /\ forall m, (m < fuel)%nat -> ~ settled K th (citer K dat rows cols (random_points rnd rows cols) m) (citer K dat rows cols (random_points rnd rows cols) (S m))).
Proof.
  intros Hs Hmat Hdata Iqd Iq1 Hne HN Hsq Hrnd HK Hr Hc Hd Hx Hy Hn Hdat fuel.
  destruct (prep_run e s q1 N1 d1 mat mm qd nd dat K th pow2 rnd rows cols fuel Hs Hmat Hdata Iqd Iq1 Hne HN Hrnd HK Hr Hc Hn) as (L1 & Ld & s2 & s3 & EQ & M3 & F3 & FS & E2 & H2 & OU & Ob2 & Ob3).
  rewrite EQ. clear EQ. set (n0 := List.length (objs s)) in *. set (q2 := n0) in *. set (q3 := S n0) in *.
  assert (N12 : q1 <> q2) by lia. assert (N13 : q1 <> q3) by lia. assert (N23 : q2 <> q3) by lia.
  assert (Nd : qd <> q1 /\ qd <> q2 /\ qd <> q3) by lia.
  assert (In0 : forall k, 0 <= k < K -> 0 <= fst (random_points rnd rows cols k) < cols /\ 0 <= snd (random_points rnd rows cols k) < rows).
  { intros k _. unfold random_points. cbn [fst snd]. split; apply Z.mod_pos_bound; lia. }
  pose proof (loop_run e q1 q2 q3 qd K nd dat N12 N13 N23 Nd pow2 rows cols Hsq ltac:(lia) Hr Hc Hd Hx Hy Hn Hdat th fuel s3 _ In0 M3) as L.
  cbn zeta in L. destruct L as [(m & s4 & Hm & W & M4 & F4 & ST & NO)|(W & NO)].
  - left. rewrite (bind_ret _ _ _ _ _ _ W).
    assert (F : fr q1 q2 q3 K s2 s4) by (eapply fr_trans; eauto).
    destruct F as (FF & FL & FR & FU & FB & FH).
    assert (O2 : exists o, nth_error (objs s4) q2 = Some o /\ o_root o = q2 /\ o_live o = true).
    { pose proof Ob2 as X.
      destruct (FR _ _ X) as (o & A & B & C). exists o. rewrite B, C. auto. }
    assert (O3 : exists o, nth_error (objs s4) q3 = Some o /\ o_root o = q3 /\ o_live o = true).
    { pose proof Ob3 as X.
      destruct (FR _ _ X) as (o & A & B & C). exists o. rewrite B, C. auto. }
    destruct O2 as (ob2 & X2 & Rt2 & Lv2). destruct O3 as (ob3 & X3 & Rt3 & Lv3).
    rewrite (bind_ret _ _ _ _ _ _ (free_root e s4 q2 ob2 X2 Lv2 Rt2)).
    set (s5 := mkSt (map (kill_root q2) (objs s4)) (files s4)).
    assert (X3' : nth_error (objs s5) q3 = Some ob3).
    { unfold s5; cbn [objs]. rewrite nth_error_map, X3. cbn. f_equal. apply kill_other. congruence. }
    assert (OLD : forall k, (k < n0)%nat -> nth_error (map (kill_root q3) (map (kill_root q2) (objs s4))) k = nth_error (objs s4) k).
    { intros k Hk. rewrite !nth_error_map. destruct (nth_error (objs s2) k) as [o|] eqn:Eo.
      - destruct (FR _ _ Eo) as (o' & A & B & _). rewrite A. cbn. f_equal.
        rewrite OU in Eo by lia. pose proof (Hs _ _ Eo).
        rewrite !kill_other; [reflexivity| |]; try rewrite kill_other; rewrite ?B; lia.
      - apply nth_error_None in Eo. lia. }
    eexists m, _. split; [exact Hm|]. split; [apply (free_root e s5 q3 ob3 X3' Lv3 Rt3)|].
    set (s6 := mkSt (map (kill_root q3) (objs s5)) (files s5)).
    assert (B1 : forall t, byte_at s6 (Some q1) t = byte_at s4 (Some q1) t).
    { intros t. unfold byte_at. rewrite (nth_bytes_at s4 s6 q1); [reflexivity|]. unfold s6, s5; cbn [objs]. apply OLD. lia. }
    split; [split; [exact ST|exact NO]|]. split; [split; [|split; [|split; [|split]]]|].
    + destruct M4 as (A1 & _). intros k Hk.
      assert (W1 : forall off k', word_at s6 (Some q1) off k' = word_at s4 (Some q1) off k').
      { intros off k'. revert off. induction k' as [|k' IH]; intros off; cbn [word_at]; [reflexivity|]. now rewrite B1, IH. }
      rewrite !W1. pose proof (arr_word _ _ _ _ _ _ (2 * k) A1 ltac:(lia)) as Y1.
      pose proof (arr_word _ _ _ _ _ _ (2 * k + 1) A1 ltac:(lia)) as Y2. rewrite flat_x in Y1. rewrite flat_y in Y2.
      change (Z.to_nat 4) with 4%nat in *. split; [rewrite <- Y1|rewrite <- Y2]; f_equal; lia.
    + intros t Ht. rewrite B1, FB by exact Ht.
      unfold byte_at. rewrite (nth_bytes_at s s2 q1); [reflexivity|]. apply OU. lia.
    + intros k Hk Hnk. unfold s6, s5; cbn [objs]. rewrite OLD by exact Hk. rewrite FU.
      * apply OU. exact Hk.
      * rewrite E2. fold n0 in Hk. lia.
      * fold n0 in Hk. intros [X|[X|[X|[]]]]; injection X as X; [apply Hnk; left; congruence|lia|lia].
    + unfold s6, s5; cbn [files]. now rewrite FF.
    + unfold s6. apply kill_heap. unfold s5. apply kill_heap. apply FH. exact H2.
    + intros k o Hk Ho. unfold s6, s5 in Ho; cbn [objs] in Ho.
      assert (k < List.length (objs s4))%nat by (rewrite !nth_error_map in Ho; apply nth_error_Some; destruct (nth_error (objs s4) k); [discriminate|discriminate Ho]).
      fold n0 in Hk. rewrite !nth_error_map in Ho. assert (k = q2 \/ k = q3) as [->| ->] by (unfold q2, q3; lia).
      * rewrite X2 in Ho. cbn in Ho. injection Ho as <-. unfold kill_root at 2. rewrite Rt2, Nat.eqb_refl.
        unfold kill_root. destruct ob2; cbn. destruct (Nat.eqb _ _); reflexivity.
      * rewrite X3 in Ho. cbn in Ho. injection Ho as <-. rewrite (kill_other q2) by congruence. unfold kill_root. rewrite Rt3, Nat.eqb_refl. destruct ob3; reflexivity.
  - right. split; [now apply bind_fuel|exact NO].
Qed.
