(** * Proofs: one round of k-means. *)
From Verif Require Import Base Logic ModelCore ModelFloat ModelCluster
  SpecBase SpecNum SpecStat SpecCluster ProofCore ProofArr ProofCluster.
From Coq Require Import ZifyBool ZifyNat.
Ltac Zify.zify_post_hook ::= Z.div_mod_to_equations.
Open Scope Z_scope.

(** ** Lists of pixels *)

Lemma upto_S n : 0 <= n -> upto_list (n + 1) = upto_list n ++ [n].
Proof.
  intros H. unfold upto_list. replace (Z.to_nat (n + 1)) with (S (Z.to_nat n)) by lia.
  rewrite seq_S, map_app. cbn. f_equal. f_equal. lia.
Qed.
Lemma upto_in n x : In x (upto_list n) <-> 0 <= x < n.
Proof.
  unfold upto_list. rewrite in_map_iff. split.
  - intros (y & <- & H). apply in_seq in H. lia.
  - intros H. exists (Z.to_nat x). split; [lia|]. apply in_seq. lia.
Qed.
Lemma pixels_S i cols : 0 <= i -> pixels (i + 1) cols = pixels i cols ++ pixel_line cols i.
Proof. intros H. unfold pixels. rewrite upto_S by auto. rewrite flat_map_app. cbn. now rewrite app_nil_r. Qed.
Lemma line_S j i : 0 <= j -> pixel_line (j + 1) i = pixel_line j i ++ [(i, j)].
Proof. intros H. unfold pixel_line. rewrite upto_S by auto. now rewrite map_app. Qed.
Lemma line_len j i : 0 <= j -> Z.of_nat (List.length (pixel_line j i)) = j.
Proof. intros H. unfold pixel_line, upto_list. rewrite !map_length, seq_length. lia. Qed.
Lemma pixels_len i cols : 0 <= i -> 0 <= cols -> Z.of_nat (List.length (pixels i cols)) = i * cols.
Proof.
  intros Hi Hc. pattern i. apply natlike_ind; auto. intros k Hk IH. unfold Z.succ.
  rewrite pixels_S by auto. rewrite app_length, Nat2Z.inj_add, IH, line_len by auto. ring.
Qed.
Lemma line_in j i p : In p (pixel_line j i) -> fst p = i /\ 0 <= snd p < j.
Proof. unfold pixel_line. rewrite in_map_iff. intros (x & <- & H). apply upto_in in H. cbn. lia. Qed.
Lemma pixels_in i cols p : In p (pixels i cols) -> 0 <= fst p < i /\ 0 <= snd p < cols.
Proof. unfold pixels. rewrite in_flat_map. intros (x & H & G). apply upto_in in H. apply line_in in G. lia. Qed.

Lemma total_app f l l' : total f (l ++ l') = total f l + total f l'.
Proof. induction l as [|p l IH]; [reflexivity|]. cbn [app]. unfold total in *. cbn [fold_right]. rewrite IH. lia. Qed.
Lemma total_bound f l b : (forall p, In p l -> 0 <= f p <= b) -> 0 <= total f l <= b * Z.of_nat (List.length l).
Proof.
  induction l as [|p l IH]; intros H; unfold total; cbn [fold_right List.length]; [lia|].
  pose proof (H p (or_introl eq_refl)). specialize (IH (fun q Hq => H q (or_intror Hq))). unfold total in IH. lia.
Qed.
Lemma filter_len {A} (f : A -> bool) l : (List.length (filter f l) <= List.length l)%nat.
Proof. induction l; cbn; [auto|]. destruct (f a); cbn; lia. Qed.

Section Round.
  Variables (e : env) (q1 q2 q3 qd : nat) (K nd : Z) (dat : Z -> Z).
  Hypotheses (N12 : q1 <> q2) (N13 : q1 <> q3) (N23 : q2 <> q3) (Nd : qd <> q1 /\ qd <> q2 /\ qd <> q3).
  Variables (pow2 : sf -> sf) (rows cols : Z) (c : Z -> Z * Z).
  Hypotheses (Hsq : squares pow2 46340) (HK : 0 < K) (Hr : 0 < rows) (Hc : 0 < cols).
  Hypotheses (Hd : rows * rows + cols * cols <= 2147483647)
             (Hx : rows * cols * (cols - 1) <= 2147483647) (Hy : rows * cols * (rows - 1) <= 2147483647)
             (Hn : rows * cols <= 2147483647) (Hnd : rows * cols <= nd).
  Hypothesis (Hin : forall k, 0 <= k < K -> 0 <= fst (c k) < cols /\ 0 <= snd (c k) < rows).
  Notation memq := (mem q1 q2 q3 qd K nd dat).
  Notation frq := (fr q1 q2 q3 K).

  Definition lit (i j : Z) : bool := negb (dat (i * cols + j) mod 256 =? 0).
  Definition label (i j : Z) : Z := fst (best c i j (rows * rows + cols * cols) (Z.to_nat K)).

  Lemma cell_in i j : 0 <= i < rows -> 0 <= j < cols -> 0 <= i * cols + j < rows * cols.
  Proof. clear -Hr Hc. nia. Qed.

  Lemma dist_lt i j k : 0 <= i < rows -> 0 <= j < cols -> 0 <= k < K ->
    0 <= sqdist (c k) i j < rows * rows + cols * cols /\ Z.abs (fst (c k) - j) <= 46340 /\ Z.abs (snd (c k) - i) <= 46340.
  Proof.
    intros Hi Hj Hk. destruct (Hin k Hk) as [Ha Hb]. unfold sqdist. set (x := fst (c k)) in *. set (y := snd (c k)) in *.
    clear -Hi Hj Ha Hb Hd.
    assert (Z.abs (x - j) < cols) by lia. assert (Z.abs (y - i) < rows) by lia.
    assert ((x - j) * (x - j) < cols * cols) by (rewrite <- (Z.abs_square (x - j)); nia).
    assert ((y - i) * (y - i) < rows * rows) by (rewrite <- (Z.abs_square (y - i)); nia).
    assert (cols <= 46340) by nia. assert (rows <= 46340) by nia.
    pose proof (Z.square_nonneg (x - j)). pose proof (Z.square_nonneg (y - i)). lia.
  Qed.

  Lemma label_ok i j : 0 <= i < rows -> 0 <= j < cols -> first_nearest K c i j (label i j).
  Proof.
    intros Hi Hj. destruct (best_nearest c i j (rows * rows + cols * cols) (Z.to_nat K)) as [H _]; [lia| |].
    - intros k Hk. apply dist_lt; auto. lia.
    - rewrite Z2Nat.id in H by lia. exact H.
  Qed.

  Lemma nearest_run s a n i j : memq s c a n -> 0 <= i < rows -> 0 <= j < cols ->
    exists d, km_nearest pow2 (Some q1) K rows cols i j e s = Ret (label i j, d) s.
  Proof.
    intros HM Hi Hj. unfold km_nearest.
    assert (E : (rows * rows + cols * cols)%C = Some (rows * rows + cols * cols)).
    { clear -Hd Hr Hc. cev_with nia. reflexivity. }
    rewrite E. rewrite (bind_ret _ _ e s (rows * rows + cols * cols) s eq_refl). set (b := rows * rows + cols * cols) in *.
    match goal with |- context [forS 0 K ?f _ e s] => set (body := f) end.
    destruct (forS_inv e 0 K body (fun k x s' => x = best c i j b (Z.to_nat k) /\ s' = s) s (0, b)) as (y & s' & R & -> & ->).
    - lia.
    - split; reflexivity.
    - intros k x s' Hk (-> & ->). destruct (dist_lt i j k Hi Hj Hk) as ((D0 & D1) & D2 & D3). destruct (Hin k Hk) as [G1 G2].
      assert (cols <= 46340 /\ rows <= 46340) by (clear -Hd Hr Hc; unfold b in *; nia).
      unfold body. rewrite (bind_ret _ _ _ _ _ _ (get1x e q1 q2 q3 qd K nd dat s c a n k HM Hk ltac:(unfold small; lia))).
      rewrite (bind_ret _ _ _ _ _ _ (get1y e q1 q2 q3 qd K nd dat s c a n k HM Hk ltac:(unfold small; lia))).
      rewrite distance_ok by (auto; lia). rewrite (bind_ret _ _ e s (sqdist (c k) i j) s eq_refl).
      replace (Z.to_nat (k + 1)) with (S (Z.to_nat k)) by lia. cbn [best]. rewrite Z2Nat.id by lia.
      destruct (sqdist (c k) i j <? snd (best c i j b (Z.to_nat k))); eexists; eexists; split; try reflexivity; auto.
    - exists (snd (best c i j b (Z.to_nat K))). rewrite R. unfold label. fold b.
      now destruct (best c i j b (Z.to_nat K)).
  Qed.

  (** The pixels of l with label k, their coordinate sums and their number. *)
  Definition sel (k : Z) (l : list (Z * Z)) : list (Z * Z) :=
    filter (fun p => lit (fst p) (snd p) && (label (fst p) (snd p) =? k)) l.
  Definition acc (l : list (Z * Z)) (k : Z) : Z * Z := (total snd (sel k l), total fst (sel k l)).
  Definition cnt (l : list (Z * Z)) (k : Z) : Z := Z.of_nat (List.length (sel k l)).

  Definition good (l : list (Z * Z)) : Prop :=
    Z.of_nat (List.length l) <= rows * cols /\ forall p, In p l -> 0 <= fst p < rows /\ 0 <= snd p < cols.

  Lemma sel_in k l p : In p (sel k l) -> In p l.
  Proof. intros H. apply filter_In in H. tauto. Qed.
  Lemma acc_range l k : good l ->
    0 <= total snd (sel k l) <= (cols - 1) * cnt l k /\ 0 <= total fst (sel k l) <= (rows - 1) * cnt l k /\ 0 <= cnt l k <= rows * cols.
  Proof.
    intros [L P]. unfold cnt. pose proof (filter_len (fun p => lit (fst p) (snd p) && (label (fst p) (snd p) =? k)) l) as F.
    fold (sel k l) in F. split; [|split; [|lia]].
    - apply total_bound. intros p Hp. apply sel_in, P in Hp. lia.
    - apply total_bound. intros p Hp. apply sel_in, P in Hp. lia.
  Qed.
  Lemma acc_small l k : good l -> small (fst (acc l k)) /\ small (snd (acc l k)) /\ small (cnt l k).
  Proof.
    intros G. pose proof (acc_range l k G) as (A & B & C). unfold acc, small. cbn [fst snd].
    set (u := cnt l k) in *. set (x := total snd (sel k l)) in *. set (y := total fst (sel k l)) in *.
    clear -A B C Hx Hy Hn Hr Hc.
    assert ((cols - 1) * u <= (cols - 1) * (rows * cols)) by (apply Z.mul_le_mono_nonneg_l; lia).
    assert ((rows - 1) * u <= (rows - 1) * (rows * cols)) by (apply Z.mul_le_mono_nonneg_l; lia).
    lia.
  Qed.

  Lemma addi2x s a n k d : memq s c a n -> 0 <= k < K -> small (fst (a k)) -> small (fst (a k) + d) ->
    exists s', addi (Some q2) (8 * k) d e s = Ret tt s' /\ memq s' c (pupd a k (fst (a k) + d, snd (a k))) n /\ frq s s'.
  Proof.
    intros HM Hk S1 S2. unfold addi.
    rewrite (bind_ret _ _ _ _ _ _ (get2x e q1 q2 q3 qd K nd dat s c a n k HM Hk S1)).
    unfold small in *. rewrite cadd_ok by lia. rewrite (bind_ret _ _ e s (fst (a k) + d) s eq_refl).
    apply (put2x e q1 q2 q3 qd K nd dat N12 N13 N23 Nd s c a n k HM Hk (fst (a k) + d) S2).
  Qed.
  Lemma addi2y s a n k d : memq s c a n -> 0 <= k < K -> small (snd (a k)) -> small (snd (a k) + d) ->
    exists s', addi (Some q2) (8 * k + 4) d e s = Ret tt s' /\ memq s' c (pupd a k (fst (a k), snd (a k) + d)) n /\ frq s s'.
  Proof.
    intros HM Hk S1 S2. unfold addi.
    rewrite (bind_ret _ _ _ _ _ _ (get2y e q1 q2 q3 qd K nd dat s c a n k HM Hk S1)).
    unfold small in *. rewrite cadd_ok by lia. rewrite (bind_ret _ _ e s (snd (a k) + d) s eq_refl).
    apply (put2y e q1 q2 q3 qd K nd dat N12 N13 N23 Nd s c a n k HM Hk (snd (a k) + d) S2).
  Qed.
  Lemma addi3 s a n k d : memq s c a n -> 0 <= k < K -> small (n k) -> small (n k + d) ->
    exists s', addi (Some q3) (4 * k) d e s = Ret tt s' /\ memq s' c a (fupd n k (n k + d)) /\ frq s s'.
  Proof.
    intros HM Hk S1 S2. unfold addi.
    rewrite (bind_ret _ _ _ _ _ _ (get3 e q1 q2 q3 qd K nd dat s c a n k HM Hk S1)).
    unfold small in *. rewrite cadd_ok by lia. rewrite (bind_ret _ _ e s (n k + d) s eq_refl).
    apply (put3 e q1 q2 q3 qd K nd dat N12 N13 N23 Nd s c a n k HM Hk (n k + d) S2).
  Qed.

  Lemma sel_app k l p : sel k (l ++ [p]) = sel k l ++ (if lit (fst p) (snd p) && (label (fst p) (snd p) =? k) then [p] else []).
  Proof. unfold sel. rewrite filter_app. reflexivity. Qed.

  Lemma pixel_run s l i j : memq s c (acc l) (cnt l) -> 0 <= i < rows -> 0 <= j < cols -> good l -> good (l ++ [(i, j)]) ->
    exists s', (x <- ev (i * cols + j)%C ;; b <- load8 (Some qd) x ;;
      if b =? 0 then ret tt else
      md <- km_nearest pow2 (Some q1) K rows cols i j ;;
      addi (Some q2) (8 * fst md) j ;;; addi (Some q2) (8 * fst md + 4) i ;;; addi (Some q3) (4 * fst md) 1) e s = Ret tt s'
      /\ memq s' c (acc (l ++ [(i, j)])) (cnt (l ++ [(i, j)])) /\ frq s s'.
  Proof.
    intros HM Hi Hj G G'. pose proof (cell_in i j Hi Hj) as Hcell.
    assert (E : (i * cols + j)%C = Some (i * cols + j)) by (clear -Hi Hj Hcell Hn; cev_with nia; reflexivity).
    rewrite E. rewrite (bind_ret _ _ e s (i * cols + j) s eq_refl).
    pose proof HM as (_ & _ & _ & D).
    rewrite (bind_ret _ _ _ _ _ _ (load8_ok e s qd nd dat (i * cols + j) D ltac:(lia))).
    assert (Lt : lit i j = negb (dat (i * cols + j) mod 256 =? 0)) by reflexivity.
    destruct (dat (i * cols + j) mod 256 =? 0); cbn [negb] in Lt.
    { exists s. split; [reflexivity|]. split; [|apply fr_refl].
      eapply mem_ext; [auto| | |exact HM]; intros k Hk; unfold acc, cnt; rewrite sel_app; cbn [fst snd]; rewrite Lt; cbn [andb]; now rewrite app_nil_r. }
    destruct (nearest_run s _ _ i j HM Hi Hj) as (d & R). rewrite (bind_ret _ _ _ _ _ _ R). cbn [fst]. clear R d.
    destruct (label_ok i j Hi Hj) as (Hm & _). set (m := label i j) in *.
    assert (Sm : sel m (l ++ [(i, j)]) = sel m l ++ [(i, j)]).
    { rewrite sel_app. cbn [fst snd]. rewrite Lt. fold m. rewrite Z.eqb_refl. reflexivity. }
    assert (So : forall k, k <> m -> sel k (l ++ [(i, j)]) = sel k l).
    { intros k Hk. rewrite sel_app. cbn [fst snd]. rewrite Lt. fold m. replace (m =? k) with false by lia. cbn. apply app_nil_r. }
    destruct (acc_small l m G) as (A1 & A2 & A3). destruct (acc_small _ m G') as (B1 & B2 & B3).
    assert (T1 : fst (acc (l ++ [(i, j)]) m) = fst (acc l m) + j).
    { unfold acc. cbn [fst]. rewrite Sm, total_app. cbn. lia. }
    assert (T2 : snd (acc (l ++ [(i, j)]) m) = snd (acc l m) + i).
    { unfold acc. cbn [snd]. rewrite Sm, total_app. cbn. lia. }
    assert (T3 : cnt (l ++ [(i, j)]) m = cnt l m + 1).
    { unfold cnt. rewrite Sm, app_length. cbn. lia. }
    destruct (addi2x s _ _ m j HM Hm A1 ltac:(rewrite <- T1; exact B1)) as (s1 & R1 & M1 & F1).
    rewrite (bind_ret _ _ _ _ _ _ R1).
    assert (P1 : forall v, snd (pupd (acc l) m (v, snd (acc l m)) m) = snd (acc l m)) by (intros; unfold pupd; now rewrite Z.eqb_refl).
    assert (P2 : fst (pupd (acc l) m (fst (acc l m) + j, snd (acc l m)) m) = fst (acc l m) + j) by (unfold pupd; now rewrite Z.eqb_refl).
    destruct (addi2y s1 _ _ m i M1 Hm) as (s2 & R2 & M2 & F2); [now rewrite P1|rewrite P1, <- T2; exact B2|].
    rewrite (bind_ret _ _ _ _ _ _ R2).
    destruct (addi3 s2 _ _ m 1 M2 Hm A3 ltac:(rewrite <- T3; exact B3)) as (s3 & R3 & M3 & F3).
    exists s3. split; [exact R3|]. split; [|eapply fr_trans; [exact F1|eapply fr_trans; eauto]].
    eapply mem_ext; [auto| | |exact M3].
    - intros k Hk. unfold pupd at 1. destruct (Z.eqb_spec k m) as [->|Ne].
      + rewrite P1, P2. rewrite (surjective_pairing (acc (l ++ [(i, j)]) m)). now rewrite T1, T2.
      + unfold pupd. replace (k =? m) with false by lia. unfold acc. now rewrite So.
    - intros k Hk. unfold fupd. destruct (Z.eqb_spec k m) as [->|Ne]; [now rewrite T3|]. unfold cnt. now rewrite So.
  Qed.

  Lemma good_upto i j : 0 <= i < rows -> 0 <= j <= cols -> good (pixels i cols ++ pixel_line j i).
  Proof.
    intros Hi Hj. split.
    - rewrite app_length, Nat2Z.inj_add, pixels_len, line_len by lia. clear -Hi Hj. nia.
    - intros p Hp. apply in_app_or in Hp as [Hp|Hp]; [apply pixels_in in Hp|apply line_in in Hp]; lia.
  Qed.

  Lemma assign_run s : memq s c (fun _ => (0, 0)) (fun _ => 0) ->
    exists s', km_assign pow2 (Some qd) (Some q1) (Some q2) (Some q3) K rows cols e s = Ret tt s'
      /\ memq s' c (acc (pixels rows cols)) (cnt (pixels rows cols)) /\ frq s s'.
  Proof.
    intros HM. unfold km_assign.
    apply (for_inv e 0 rows _ (fun i s' => memq s' c (acc (pixels i cols)) (cnt (pixels i cols)) /\ frq s s')).
    - lia.
    - split; [|apply fr_refl]. exact HM.
    - intros i s1 Hi (M1 & F1).
      match goal with |- exists s', for_ 0 cols ?b e s1 = _ /\ _ =>
        destruct (for_inv e 0 cols b (fun j s' => memq s' c (acc (pixels i cols ++ pixel_line j i)) (cnt (pixels i cols ++ pixel_line j i)) /\ frq s s') s1) as (s2 & E & M2 & F2) end.
      + lia.
      + cbn [pixel_line upto_list]. change (pixel_line 0 i) with (@nil (Z * Z)). rewrite app_nil_r. auto.
      + intros j s2 Hj (M2 & F2).
        destruct (pixel_run s2 (pixels i cols ++ pixel_line j i) i j M2 Hi Hj) as (s3 & E & M3 & F3).
        * apply good_upto; lia.
        * rewrite <- app_assoc, <- line_S by lia. apply good_upto; lia.
        * exists s3. split; [exact E|]. rewrite line_S by lia. rewrite app_assoc. split; [exact M3|]. eapply fr_trans; eauto.
      + exists s2. split; [exact E|]. rewrite pixels_S by lia. auto.
  Qed.

  (** The new centres. *)
  Definition cnew (k : Z) : Z * Z := centroid (sel k (pixels rows cols)).

  Lemma good_all : good (pixels rows cols).
  Proof.
    split; [rewrite pixels_len by lia; lia|]. intros p Hp. apply pixels_in in Hp. lia.
  Qed.

  Lemma cnew_val k : cnew k = if cnt (pixels rows cols) k =? 0 then (0, 0)
    else (fst (acc (pixels rows cols) k) / cnt (pixels rows cols) k, snd (acc (pixels rows cols) k) / cnt (pixels rows cols) k).
  Proof. unfold cnew, acc, cnt. cbn [fst snd]. destruct (sel k (pixels rows cols)); reflexivity. Qed.
  Lemma acc_empty k : cnt (pixels rows cols) k = 0 -> acc (pixels rows cols) k = (0, 0).
  Proof. unfold acc, cnt. destruct (sel k (pixels rows cols)); [reflexivity|cbn; lia]. Qed.
  Lemma quot_range a b m : 0 < b -> 0 <= a <= (m - 1) * b -> 0 <= a / b < m.
  Proof. clear. intros Hb Ha. split; [apply Z.div_pos; lia|]. apply Z.div_lt_upper_bound; nia. Qed.
  Lemma cnew_range k : 0 <= fst (cnew k) < cols /\ 0 <= snd (cnew k) < rows.
  Proof.
    rewrite cnew_val. destruct (acc_range (pixels rows cols) k good_all) as (A & B & C).
    destruct (Z.eqb_spec (cnt (pixels rows cols) k) 0) as [E|E]; cbn [fst snd]; [lia|].
    split; apply quot_range; auto; lia.
  Qed.
  Lemma cnew_small k : small (fst (cnew k)) /\ small (snd (cnew k)).
  Proof.
    pose proof (cnew_range k). unfold small. assert (cols <= 46340 /\ rows <= 46340) by (clear -Hd Hr Hc; nia). lia.
  Qed.
  Lemma c_small k : 0 <= k < K -> small (fst (c k)) /\ small (snd (c k)).
  Proof.
    intros Hk. pose proof (Hin k Hk). unfold small. assert (cols <= 46340 /\ rows <= 46340) by (clear -Hd Hr Hc; nia). lia.
  Qed.

  Definition up (th k : Z) : bool := (fst (cnew k) - fst (c k) >? th) || (snd (cnew k) - snd (c k) >? th).
  Fixpoint ups (th : Z) (n : nat) : Z := match n with O => 0 | S m => if up th (Z.of_nat m) then 1 else ups th m end.
  Lemma ups_zero th n : ups th n = 0 <-> forall k, 0 <= k < Z.of_nat n -> up th k = false.
  Proof.
    induction n as [|n IH]; cbn [ups]; [split; [intros _ k Hk; lia|auto]|].
    destruct (up th (Z.of_nat n)) eqn:U.
    - split; [discriminate|]. intros H. rewrite H in U by lia. discriminate.
    - rewrite IH. split; intros H k Hk; [destruct (Z.eq_dec k (Z.of_nat n)) as [->|]; auto; apply H; lia|apply H; lia].
  Qed.

  Definition mix {A} (k : Z) (f g : Z -> A) : Z -> A := fun t => if t <? k then f t else g t.
  Lemma mix_at {A} k (f g : Z -> A) : mix k f g k = g k.
  Proof. unfold mix. now rewrite Z.ltb_irrefl. Qed.
  Lemma pupd_at a k v : pupd a k v k = v.
  Proof. unfold pupd. now rewrite Z.eqb_refl. Qed.
  Lemma pupd_pupd a k v w t : pupd (pupd a k v) k w t = pupd a k w t.
  Proof. unfold pupd. now destruct (t =? k). Qed.
  Lemma mix_step k f g t : pupd (mix k f g) k (f k) t = mix (k + 1) f g t.
  Proof. clear. unfold pupd, mix. destruct (Z.eqb_spec t k) as [->|]; [now replace (k <? k + 1) with true by lia|].
    replace (t <? k + 1) with (t <? k) by lia. reflexivity. Qed.
  Lemma fix_step k (f g : Z -> Z) t : fupd (mix k f g) k (f k) t = mix (k + 1) f g t.
  Proof. clear. unfold fupd, mix. destruct (Z.eqb_spec t k) as [->|]; [now replace (k <? k + 1) with true by lia|].
    replace (t <? k + 1) with (t <? k) by lia. reflexivity. Qed.

  Notation P := (pixels rows cols).
  Notation o2 := (fun _ : Z => (0, 0)).
  Notation o1 := (fun _ : Z => 0).

  (** Dividing the sums of cluster k. *)
  Lemma divide_run s m k : 0 <= k < K -> memq s (mix k cnew c) (mix k o2 (acc P)) (mix k o1 (cnt P)) -> m = cnt P k ->
    exists s', (if m =? 0 then ret tt else
       x <- geti (Some q2) (8 * k) ;; qx <- ev (x / m)%C ;; puti (Some q2) (8 * k) qx ;;;
       y <- geti (Some q2) (8 * k + 4) ;; qy <- ev (y / m)%C ;; puti (Some q2) (8 * k + 4) qy) e s = Ret tt s'
      /\ memq s' (mix k cnew c) (pupd (mix k o2 (acc P)) k (cnew k)) (mix k o1 (cnt P)) /\ frq s s'.
  Proof.
    intros Hk HM ->. pose proof (cnew_val k) as V. pose proof (cnew_small k) as (S1 & S2).
    destruct (acc_small P k good_all) as (A1 & A2 & A3). destruct (acc_range P k good_all) as (B1 & B2 & B3).
    destruct (Z.eqb_spec (cnt P k) 0) as [E|E].
    - exists s. split; [reflexivity|]. split; [|apply fr_refl]. eapply mem_ext; [auto| |auto|exact HM].
      intros t Ht. unfold pupd. destruct (Z.eqb_spec t k) as [->|]; [|reflexivity]. rewrite mix_at, V. now apply acc_empty.
    - set (a := mix k o2 (acc P)) in *. assert (Ea : a k = acc P k) by apply mix_at.
      assert (D1 : (fst (a k) / cnt P k)%C = Some (fst (cnew k))).
      { rewrite Ea, V. cbn [fst]. rewrite cdiv_ok; [|exact E|].
        - f_equal. apply Z.quot_div_nonneg; [apply A1|lia].
        - rewrite Z.quot_div_nonneg; [|apply A1|lia]. rewrite V in S1. cbn [fst] in S1. unfold small in S1. lia. }
      assert (D2 : (snd (a k) / cnt P k)%C = Some (snd (cnew k))).
      { rewrite Ea, V. cbn [snd]. rewrite cdiv_ok; [|exact E|].
        - f_equal. apply Z.quot_div_nonneg; [apply A2|lia].
        - rewrite Z.quot_div_nonneg; [|apply A2|lia]. rewrite V in S2. cbn [snd] in S2. unfold small in S2. lia. }
      rewrite (bind_ret _ _ _ _ _ _ (get2x e q1 q2 q3 qd K nd dat s _ _ _ k HM Hk ltac:(rewrite Ea; exact A1))).
      rewrite D1. rewrite (bind_ret _ _ e s (fst (cnew k)) s eq_refl).
      destruct (put2x e q1 q2 q3 qd K nd dat N12 N13 N23 Nd s _ _ _ k HM Hk _ S1) as (s1 & R1 & M1 & F1).
      rewrite (bind_ret _ _ _ _ _ _ R1).
      assert (E2 : snd (pupd a k (fst (cnew k), snd (a k)) k) = snd (a k)) by (now rewrite pupd_at).
      rewrite (bind_ret _ _ _ _ _ _ (get2y e q1 q2 q3 qd K nd dat s1 _ _ _ k M1 Hk ltac:(rewrite E2, Ea; exact A2))).
      rewrite E2, D2. rewrite (bind_ret _ _ e s1 (snd (cnew k)) s1 eq_refl).
      destruct (put2y e q1 q2 q3 qd K nd dat N12 N13 N23 Nd s1 _ _ _ k M1 Hk _ S2) as (s2 & R2 & M2 & F2).
      exists s2. split; [exact R2|]. split; [|eapply fr_trans; eauto].
      eapply mem_ext; [auto| |auto|exact M2]. intros t Ht. rewrite pupd_pupd, pupd_at. cbn [fst]. now rewrite <- surjective_pairing.
  Qed.

  Lemma move_run s th : memq s c (acc P) (cnt P) ->
    exists s', km_move (Some q1) (Some q2) (Some q3) K th e s = Ret (ups th (Z.to_nat K)) s'
      /\ memq s' cnew o2 o1 /\ frq s s'.
  Proof.
    intros HM. unfold km_move.
    match goal with |- context [forS 0 K ?b 0 e s] => set (body := b) end.
    destruct (forS_inv e 0 K body (fun k x s' => x = ups th (Z.to_nat k)
       /\ memq s' (mix k cnew c) (mix k o2 (acc P)) (mix k o1 (cnt P)) /\ frq s s') s 0) as (x & s' & R & -> & M' & F').
    - lia.
    - split; [reflexivity|]. split; [|apply fr_refl].
      eapply mem_ext; [| | |exact HM]; intros k Hk; unfold mix; now replace (k <? 0) with false by lia.
    - intros k x s1 Hk (-> & M1 & F1). unfold body.
      destruct (acc_small P k good_all) as (_ & _ & A3). destruct (cnew_small k) as (S1 & S2). destruct (c_small k Hk) as (C1 & C2).
      assert (En : mix k o1 (cnt P) k = cnt P k) by apply mix_at.
      rewrite (bind_ret _ _ _ _ _ _ (get3 e q1 q2 q3 qd K nd dat s1 _ _ _ k M1 Hk ltac:(rewrite En; exact A3))). rewrite En.
      destruct (divide_run s1 _ k Hk M1 eq_refl) as (s2 & R2 & M2 & F2). rewrite (bind_ret _ _ _ _ _ _ R2).
      set (a := pupd (mix k o2 (acc P)) k (cnew k)) in *. assert (Ea : a k = cnew k) by apply pupd_at.
      assert (Ec : mix k cnew c k = c k) by apply mix_at.
      rewrite (bind_ret _ _ _ _ _ _ (get2x e q1 q2 q3 qd K nd dat s2 _ _ _ k M2 Hk ltac:(rewrite Ea; exact S1))).
      rewrite (bind_ret _ _ _ _ _ _ (get1x e q1 q2 q3 qd K nd dat s2 _ _ _ k M2 Hk ltac:(rewrite Ec; exact C1))).
      rewrite Ea, Ec. unfold small in S1, S2, C1, C2.
      rewrite csub_ok by lia. rewrite (bind_ret _ _ e s2 (fst (cnew k) - fst (c k)) s2 eq_refl).
      assert (U : (if fst (cnew k) - fst (c k) >? th then ret true else
           y2 <- geti (Some q2) (8 * k + 4) ;; y1 <- geti (Some q1) (16 + 8 * k + 4) ;;
           dy <- ev (y2 - y1)%C ;; ret (dy >? th)) e s2 = Ret (up th k) s2).
      { unfold up. destruct (fst (cnew k) - fst (c k) >? th); [reflexivity|]. cbn [orb].
        rewrite (bind_ret _ _ _ _ _ _ (get2y e q1 q2 q3 qd K nd dat s2 _ _ _ k M2 Hk ltac:(rewrite Ea; exact S2))).
        rewrite (bind_ret _ _ _ _ _ _ (get1y e q1 q2 q3 qd K nd dat s2 _ _ _ k M2 Hk ltac:(rewrite Ec; exact C2))).
        rewrite Ea, Ec. rewrite csub_ok by lia. reflexivity. }
      rewrite (bind_ret _ _ _ _ _ _ U).
      rewrite (bind_ret _ _ _ _ _ _ (get2x e q1 q2 q3 qd K nd dat s2 _ _ _ k M2 Hk ltac:(rewrite Ea; exact S1))). rewrite Ea.
      destruct (put1x e q1 q2 q3 qd K nd dat N12 N13 N23 Nd s2 _ _ _ k M2 Hk _ S1) as (s3 & R3 & M3 & F3).
      rewrite (bind_ret _ _ _ _ _ _ R3).
      rewrite (bind_ret _ _ _ _ _ _ (get2y e q1 q2 q3 qd K nd dat s3 _ _ _ k M3 Hk ltac:(rewrite Ea; exact S2))). rewrite Ea.
      destruct (put1y e q1 q2 q3 qd K nd dat N12 N13 N23 Nd s3 _ _ _ k M3 Hk _ S2) as (s4 & R4 & M4 & F4).
      rewrite (bind_ret _ _ _ _ _ _ R4).
      assert (Z0 : small 0) by (unfold small; lia).
      destruct (put2x e q1 q2 q3 qd K nd dat N12 N13 N23 Nd s4 _ _ _ k M4 Hk _ Z0) as (s5 & R5 & M5 & F5).
      rewrite (bind_ret _ _ _ _ _ _ R5).
      destruct (put2y e q1 q2 q3 qd K nd dat N12 N13 N23 Nd s5 _ _ _ k M5 Hk _ Z0) as (s6 & R6 & M6 & F6).
      rewrite (bind_ret _ _ _ _ _ _ R6).
      destruct (put3 e q1 q2 q3 qd K nd dat N12 N13 N23 Nd s6 _ _ _ k M6 Hk _ Z0) as (s7 & R7 & M7 & F7).
      rewrite (bind_ret _ _ _ _ _ _ R7).
      exists (if up th k then 1 else ups th (Z.to_nat k)), s7. split; [reflexivity|]. split; [|split].
      + replace (Z.to_nat (k + 1)) with (S (Z.to_nat k)) by lia. cbn [ups]. now rewrite Z2Nat.id by lia.
      + eapply mem_ext; [| | |exact M7]; intros t Ht.
        * rewrite pupd_pupd, pupd_at. cbn [fst]. rewrite <- surjective_pairing. apply mix_step.
        * rewrite pupd_pupd, pupd_at. cbn [fst]. unfold a. rewrite pupd_pupd. apply (mix_step k o2).
        * apply (fix_step k o1).
      + do 6 (eapply fr_trans; [eassumption|]). assumption.
    - exists s'. split; [exact R|]. split; [|exact F'].
      eapply mem_ext; [| | |exact M']; intros t Ht; unfold mix; now replace (t <? K) with true by lia.
  Qed.

  Lemma round_run s th : memq s c o2 o1 ->
    exists s', (km_assign pow2 (Some qd) (Some q1) (Some q2) (Some q3) K rows cols ;;;
                km_move (Some q1) (Some q2) (Some q3) K th) e s = Ret (ups th (Z.to_nat K)) s'
      /\ memq s' cnew o2 o1 /\ frq s s'.
  Proof.
    intros HM. destruct (assign_run s HM) as (s1 & R1 & M1 & F1). rewrite (bind_ret _ _ _ _ _ _ R1).
    destruct (move_run s1 th M1) as (s2 & R2 & M2 & F2). exists s2. split; [exact R2|]. split; [exact M2|]. eapply fr_trans; eauto.
  Qed.

  Lemma cnew_round : kmeans_round rows cols lit K c cnew.
  Proof.
    exists label. split.
    - intros i j Hi Hj _. now apply label_ok.
    - intros k Hk. reflexivity.
  Qed.
  Lemma ups_settled th : ups th (Z.to_nat K) = 0 <-> settled K th c cnew.
  Proof.
    rewrite ups_zero. rewrite Z2Nat.id by lia. unfold settled, up.
    split; intros H k Hk; specialize (H k Hk); lia.
  Qed.
End Round.
