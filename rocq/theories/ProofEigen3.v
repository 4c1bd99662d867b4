(** * Proofs: the eigenvector algorithm over a field. *)
From Verif Require Import Base ModelEigen SpecMatrix SpecEigen ProofGrid.
From Coq Require Import Lia ZifyBool ZifyNat Field_theory Ring Field.
Open Scope Z_scope.

Section EF.
  Context {F : Type} (zero one : F) (add mul sub : F -> F -> F) (opp : F -> F) (div : F -> F -> F) (inv : F -> F).
  Hypothesis Fth : field_theory zero one add mul sub opp div inv eq.
  Add Field FF : Fth.
  Notation E := (exact_earith zero one add mul sub opp div).
  Local Infix "+!" := add (at level 50, left associativity).
  Local Infix "-!" := sub (at level 50, left associativity).
  Local Infix "*!" := mul (at level 40, left associativity).
  Local Infix "/!" := div (at level 40, left associativity).
  Notation fsum := (fsum_to zero add).

  Lemma fsum_ext n f g : (forall k, 0 <= k < Z.of_nat n -> f k = g k) -> fsum n f = fsum n g.
  Proof. induction n as [|n IH]; intros H; cbn [fsum_to]; auto. rewrite IH, H by (intros; try apply H; lia). reflexivity. Qed.
  Lemma fsum_add n f g : fsum n (fun k => f k +! g k) = fsum n f +! fsum n g.
  Proof. induction n as [|n IH]; cbn [fsum_to]; [ring|]. rewrite IH. ring. Qed.
  Lemma fsum_mul n c f : fsum n (fun k => c *! f k) = c *! fsum n f.
  Proof. induction n as [|n IH]; cbn [fsum_to]; [ring|]. rewrite IH. ring. Qed.
  Lemma fsum_zero n : fsum n (fun _ => zero) = zero.
  Proof. induction n as [|n IH]; cbn [fsum_to]; auto. rewrite IH. ring. Qed.
  (** The sum from lo on. *)
  Lemma fsum_from n lo f : 0 <= lo -> fsum (Z.to_nat lo + n) (fun c => if lo <=? c then f c else zero) = fsum n (fun t => f (lo + t)).
  Proof.
    intros Hlo. induction n as [|n IH].
    - rewrite Nat.add_0_r. cbn [fsum_to]. rewrite (fsum_ext _ _ (fun _ => zero)); [apply fsum_zero|]. intros k Hk. now replace (lo <=? k) with false by lia.
    - rewrite Nat.add_succ_r. cbn [fsum_to]. rewrite IH. replace (lo <=? Z.of_nat (Z.to_nat lo + n)) with true by lia. do 2 f_equal. lia.
  Qed.
  Lemma e_row_sum n d v i j : e_row E n d v i j = fsum n (fun t => d i (j + t) *! v (j + t)).
  Proof. induction n as [|n IH]; cbn [e_row fsum_to]; [reflexivity|]. rewrite IH. reflexivity. Qed.

  Lemma div_zero x : x <> zero -> zero /! x = zero. Proof. intros. field. auto. Qed.
  Lemma div_self x : x <> zero -> x /! x = one. Proof. intros. field. auto. Qed.
  Lemma cancel x y : x <> zero -> x *! y = zero -> y = zero.
  Proof. intros Hx H. transitivity ((x *! y) /! x); [field; auto|]. rewrite H. now apply div_zero. Qed.

  Variable D : Z -> Z -> F.
  Notation el k := (e_elim E k D).
  Definition pv (k : nat) : F := el k (Z.of_nat k) (Z.of_nat k).

  (** One turn of the elimination. *)
  Lemma el_below k r c : Z.of_nat k < r -> 1 <= c -> Z.of_nat k <= c -> el (S k) r c = el k r c -! el k r (Z.of_nat k) *! (el k (Z.of_nat k) c /! pv k).
  Proof.
    intros Hr Hc Hk. cbn [e_elim]. unfold e_clear. replace ((Z.of_nat k <? r) && (Z.of_nat k <=? c)) with true by lia. unfold e_divide.
    replace (r =? Z.of_nat k) with false by lia. cbn [andb]. rewrite Z.eqb_refl. replace (1 <=? c) with true by lia. reflexivity.
  Qed.
  Lemma el_left k r c : Z.of_nat k < r -> c < Z.of_nat k -> el (S k) r c = el k r c.
  Proof.
    intros Hr Hc. cbn [e_elim]. unfold e_clear. replace ((Z.of_nat k <? r) && (Z.of_nat k <=? c)) with false by lia. unfold e_divide.
    now replace (r =? Z.of_nat k) with false by lia.
  Qed.
  Lemma el_row k c : 1 <= c -> el (S k) (Z.of_nat k) c = el k (Z.of_nat k) c /! pv k.
  Proof.
    intros Hc. cbn [e_elim]. unfold e_clear. rewrite Z.ltb_irrefl. cbn [andb]. unfold e_divide. rewrite Z.eqb_refl. replace (1 <=? c) with true by lia. reflexivity.
  Qed.
  Lemma el_above k r c : r < Z.of_nat k -> el (S k) r c = el k r c.
  Proof.
    intros Hr. cbn [e_elim]. unfold e_clear. replace (Z.of_nat k <? r) with false by lia. cbn [andb]. unfold e_divide. now replace (r =? Z.of_nat k) with false by lia.
  Qed.
  Lemma el_corner k : el k 0 0 = D 0 0.
  Proof.
    induction k as [|k IH]; [reflexivity|]. cbn [e_elim]. unfold e_clear. replace (Z.of_nat k <? 0) with false by lia. cbn [andb]. unfold e_divide.
    replace ((0 =? Z.of_nat k) && (1 <=? 0)) with false by lia. exact IH.
  Qed.
  Lemma el_keep k n r c : r < Z.of_nat k -> (k <= n)%nat -> el n r c = el k r c.
  Proof. intros Hr. induction 1 as [|n Hn IH]; [reflexivity|]. rewrite el_above by lia. exact IH. Qed.

  Definition good (k : nat) : Prop := forall i, (i < k)%nat -> pv i <> zero.
  Lemma el_zero k : good k -> forall r c, 1 <= c -> c < Z.of_nat k -> c < r -> el k r c = zero.
  Proof.
    induction k as [|k IH]; intros G r c H1 Hc Hr; [lia|].
    assert (G' : good k) by (intros i Hi; apply G; lia). specialize (IH G').
    pose proof (G k ltac:(lia)) as P.
    destruct (Z.lt_trichotomy r (Z.of_nat k)) as [L|[->|L]].
    - rewrite el_above by lia. apply IH; lia.
    - rewrite el_row by lia. rewrite IH by lia. now apply div_zero.
    - destruct (Z.eq_dec c (Z.of_nat k)) as [->|].
      + rewrite el_below by lia. fold (pv k). rewrite div_self by auto. ring.
      + rewrite el_left by lia. apply IH; lia.
  Qed.
  Lemma el_one k : good (S k) -> (1 <= k)%nat -> el (S k) (Z.of_nat k) (Z.of_nat k) = one.
  Proof. intros G Hk. rewrite el_row by lia. apply div_self. apply G. lia. Qed.

  (** ** The linear forms without the first column *)
  Definition lf (m : Z) (d : Z -> Z -> F) (r : Z) (u : Z -> F) : F := fsum (Z.to_nat m) (fun c => if 1 <=? c then d r c *! u c else zero).
  Definition full (m : Z) (d : Z -> Z -> F) (r : Z) (u : Z -> F) : F := fsum (Z.to_nat m) (fun c => d r c *! u c).
  Lemma full_lf m d r u : 0 < m -> full m d r u = d r 0 *! u 0 +! lf m d r u.
  Proof.
    intros Hm. unfold full, lf.
    assert (X : forall n, fsum (S n) (fun c => d r c *! u c) = d r 0 *! u 0 +! fsum (S n) (fun c => if 1 <=? c then d r c *! u c else zero)).
    { induction n as [|n IH]; [cbn; ring|]. change (fsum (S (S n))) with (fun f => add (fsum (S n) f) (f (Z.of_nat (S n)))). cbv beta. rewrite IH.
      replace (1 <=? Z.of_nat (S n)) with true by lia. ring. }
    replace (Z.to_nat m) with (S (Z.to_nat (m - 1))) by lia. apply X.
  Qed.
  Lemma lf_below m k r u : good k -> Z.of_nat k < r -> lf m (el (S k)) r u = lf m (el k) r u -! el k r (Z.of_nat k) *! lf m (el (S k)) (Z.of_nat k) u.
  Proof.
    intros G Hr. unfold lf.
    replace (fsum (Z.to_nat m) (fun c => if 1 <=? c then el (S k) r c *! u c else zero)) with
      (fsum (Z.to_nat m) (fun c => (if 1 <=? c then el k r c *! u c else zero) +! (opp (el k r (Z.of_nat k))) *! (if 1 <=? c then el (S k) (Z.of_nat k) c *! u c else zero))).
    - rewrite fsum_add, fsum_mul. ring.
    - apply fsum_ext. intros c Hc. destruct (Z.leb_spec 1 c) as [H|H]; [|ring]. rewrite el_row by auto. destruct (Z.le_gt_cases (Z.of_nat k) c) as [L|L].
      + rewrite el_below by auto. ring.
      + rewrite el_left by auto. rewrite (el_zero k G (Z.of_nat k) c) by lia. rewrite (el_zero k G r c) by lia.

        transitivity (zero *! u c -! el k r (Z.of_nat k) *! (zero /! pv k *! u c)); [ring|].
        rewrite (Fdiv_def Fth). ring.
  Qed.
  Lemma lf_row m k u : good (S k) -> lf m (el k) (Z.of_nat k) u = pv k *! lf m (el (S k)) (Z.of_nat k) u.
  Proof.
    intros G. unfold lf. rewrite <- fsum_mul. apply fsum_ext. intros c Hc. destruct (Z.leb_spec 1 c) as [H|H]; [|ring]. rewrite el_row by auto.
    assert (pv k <> zero) by (apply G; lia). field. auto.
  Qed.

  (** Rows that vanish after their turn leave the later rows as they were. *)
  Lemma lf_chain m u r n : good n -> (forall i, (1 <= i < n)%nat -> lf m (el (S i)) (Z.of_nat i) u = zero) -> (1 <= n)%nat -> Z.of_nat n <= r ->
    lf m (el n) r u = lf m (el 1) r u.
  Proof.
    intros G Z0 Hn Hr. revert Z0 Hr. induction n as [|n IH]; [lia|]. intros Z0 Hr. destruct (Nat.eq_dec n 0) as [->|Hne]; [reflexivity|].
    rewrite lf_below; [|intros i Hi; apply G; lia|lia]. rewrite Z0 by lia. rewrite IH; [ring|intros i Hi; apply G; lia|lia|intros i Hi; apply Z0; lia|lia].
  Qed.
  Lemma first_step m r u : 0 < m -> pv 0 <> zero -> 1 <= r -> full m D 0 u = zero -> lf m (el 1) r u = full m D r u.
  Proof.
    intros Hm P Hr H0. rewrite full_lf in * by auto. rewrite (lf_below m 0 r u) by (try lia; intros i Hi; lia). change (Z.of_nat 0) with 0. change (el 0) with D.
    assert (G : good 1) by (intros i Hi; assert (i = 0%nat) by lia; subst; auto).
    pose proof (lf_row m 0 u G) as R. change (Z.of_nat 0) with 0 in R. change (el 0) with D in R.
    assert (X : lf m (el 1) 0 u = opp (u 0)).
    { transitivity ((pv 0 *! lf m (el 1) 0 u) /! pv 0); [field; auto|]. rewrite <- R.
      assert (Y : lf m D 0 u = opp (D 0 0 *! u 0)). { transitivity ((D 0 0 *! u 0 +! lf m D 0 u) -! D 0 0 *! u 0); [ring|]. rewrite H0. ring. }
      rewrite Y. change (pv 0) with (D 0 0) in *. field. auto. }
    rewrite X. ring.
  Qed.

  (** ** Back substitution *)
  Lemma back_done m k r : m - 1 - Z.of_nat k <= r -> forall n d, (k <= n)%nat -> e_back E m n d r = e_back E m k d r.
  Proof.
    intros Hr n d. induction 1 as [|n Hn IH]; [reflexivity|]. cbn [e_back]. replace (r =? m - 2 - Z.of_nat n) with false by lia. exact IH.
  Qed.
  Lemma back_at m d i : 0 <= i < m - 1 -> let v := e_back E m (Z.to_nat (m - 1)) d in
    v i = opp (fsum (Z.to_nat (m - 1 - i)) (fun t => d i (i + 1 + t) *! v (i + 1 + t))) /! d i i.
  Proof.
    intros Hi v. unfold v at 1. set (k := Z.to_nat (m - 2 - i)). rewrite (back_done m (S k) i) by lia. cbn [e_back].
    replace (m - 2 - Z.of_nat k) with i by lia. rewrite Z.eqb_refl. change (e_div E) with div. change (e_neg E) with opp. f_equal. f_equal. rewrite e_row_sum.
    replace (Z.to_nat (m - 1 - i)) with (S k) by lia. apply fsum_ext. intros t Ht. f_equal. unfold v. symmetry. apply back_done; lia.
  Qed.
  Lemma back_last m d : 0 < m -> e_back E m (Z.to_nat (m - 1)) d (m - 1) = one.
  Proof. intros Hm. rewrite (back_done m 0) by lia. reflexivity. Qed.

  (** The returned vector with its first entry put right. *)
  Definition mended (m : Z) : Z -> F := fun i => let v := e_back E m (Z.to_nat (m - 1)) (el (Z.to_nat (m - 1))) in if i =? 0 then D 0 0 *! v 0 else v i.

  (** The form of a finished row i >= 1: a one at i, zeros before. *)
  Lemma lf_finished m i n u : good n -> 1 <= i -> (Z.to_nat i < n)%nat -> i < m ->
    lf m (el (S (Z.to_nat i))) i u = u i +! fsum (Z.to_nat (m - 1 - i)) (fun t => el n i (i + 1 + t) *! u (i + 1 + t)).
  Proof.
    intros G Hi Hn Hm. unfold lf.
    assert (G1 : good (S (Z.to_nat i))) by (intros j Hj; apply G; lia).
    rewrite (fsum_ext _ _ (fun c => if i <=? c then el n i c *! u c else zero)).
    - replace (Z.to_nat m) with (Z.to_nat i + S (Z.to_nat (m - 1 - i)))%nat by lia. rewrite fsum_from by lia.
      assert (X : forall n f, fsum (S n) f = f 0 +! fsum n (fun t => f (1 + t))).
      { clear - Fth. intros n f. induction n as [|n IH]; [cbn; ring|]. change (fsum (S (S n)) f) with (fsum (S n) f +! f (Z.of_nat (S n))). rewrite IH. cbn [fsum_to].
        replace (1 + Z.of_nat n) with (Z.of_nat (S n)) by lia. ring. }
      rewrite X. rewrite Z.add_0_r. f_equal.
      + rewrite (el_keep (S (Z.to_nat i)) n) by lia. pose proof (el_one (Z.to_nat i) G1 ltac:(lia)) as O. rewrite Z2Nat.id in O by lia. rewrite O. ring.
      + apply fsum_ext. intros t Ht. now replace (i + (1 + t)) with (i + 1 + t) by lia.
    - intros c Hc. rewrite (el_keep (S (Z.to_nat i)) n) by lia. destruct (Z.leb_spec i c); [now replace (1 <=? c) with true by lia|].
      destruct (Z.leb_spec 1 c); [|reflexivity]. rewrite el_zero by (auto; lia). ring.
  Qed.

  Theorem mended_kernel m : 1 < m -> good (Z.to_nat (m - 1)) ->
    (forall r, 0 <= r < m - 1 -> full m D r (mended m) = zero) /\ full m D (m - 1) (mended m) = pv (Z.to_nat (m - 1)) /\ mended m (m - 1) = one.
  Proof.
    intros Hm G. set (n := Z.to_nat (m - 1)) in *. set (w := mended m). set (v := e_back E m n (el n)).
    assert (Wv : forall i, 1 <= i -> w i = v i) by (intros i Hi; unfold w, mended; replace (i =? 0) with false by lia; reflexivity).
    assert (P0 : pv 0 <> zero) by (apply G; unfold n; lia).
    (* row 0 *)
    assert (R0 : full m D 0 w = zero).
    { rewrite full_lf by lia. pose proof (back_at m (el n) 0 ltac:(lia)) as V0. cbv zeta in V0. fold n in V0. fold v in V0. rewrite el_corner in V0.
      assert (X : fsum (Z.to_nat (m - 1 - 0)) (fun t => el n 0 (0 + 1 + t) *! v (0 + 1 + t)) = lf m D 0 w /! D 0 0).
      { replace (lf m D 0 w /! D 0 0) with (lf m (el 1) 0 w).
        - unfold lf. replace (Z.to_nat m) with (Z.to_nat 1 + Z.to_nat (m - 1))%nat by lia. rewrite fsum_from by lia. replace (m - 1 - 0) with (m - 1) by lia. apply fsum_ext. intros t Ht.
          rewrite Wv by lia. replace (0 + 1 + t) with (1 + t) by lia. rewrite (el_keep 1 n) by lia. reflexivity.
        - pose proof (lf_row m 0 w ltac:(intros i Hi; assert (i = 0%nat) by lia; subst; auto)) as R. change (Z.of_nat 0) with 0 in R. change (el 0) with D in R. rewrite R. change (pv 0) with (D 0 0) in *. field. auto. }
      rewrite X in V0. assert (W0 : w 0 = D 0 0 *! v 0) by reflexivity. rewrite W0, V0. change (pv 0) with (D 0 0) in P0. field. auto. }
    assert (RI : forall i, (1 <= i < n)%nat -> lf m (el (S i)) (Z.of_nat i) w = zero).
    { intros i Hi. replace (S i) with (S (Z.to_nat (Z.of_nat i))) by lia. rewrite (lf_finished m (Z.of_nat i) n w G) by lia. rewrite Wv by lia.
      pose proof (back_at m (el n) (Z.of_nat i) ltac:(lia)) as V. cbv zeta in V. fold n in V. fold v in V.
      assert (O : el n (Z.of_nat i) (Z.of_nat i) = one). { rewrite (el_keep (S i) n) by lia. apply el_one; [intros j Hj; apply G; lia|lia]. }
      rewrite O in V. rewrite (fsum_ext _ _ (fun t => el n (Z.of_nat i) (Z.of_nat i + 1 + t) *! v (Z.of_nat i + 1 + t))) by (intros t Ht; now rewrite Wv by lia).
      rewrite V. field. apply (F_1_neq_0 Fth). }
    assert (LAST : w (m - 1) = one) by (rewrite Wv by lia; apply back_last; lia).
    split; [|split; [|exact LAST]].
    - intros r Hr. destruct (Z.eq_dec r 0) as [->|]; [exact R0|]. rewrite <- first_step by (auto; lia).
      rewrite <- (lf_chain m w r (Z.to_nat r)); [|intros i Hi; apply G; lia|intros i Hi; apply RI; lia|lia|lia].
      pose proof (lf_row m (Z.to_nat r) w ltac:(intros i Hi; apply G; lia)) as R. pose proof (RI (Z.to_nat r) ltac:(lia)) as R'. rewrite R' in R. rewrite Z2Nat.id in R by lia. rewrite R. ring.
    - rewrite <- first_step by (auto; lia). rewrite <- (lf_chain m w (m - 1) n); [|exact G|exact RI|lia|lia].
      unfold lf. rewrite (fsum_ext _ _ (fun c => if m - 1 <=? c then el n (m - 1) c *! w c else zero)).
      + replace (Z.to_nat m) with (Z.to_nat (m - 1) + 1)%nat by lia. rewrite fsum_from by lia. cbn [fsum_to]. change (Z.of_nat 0) with 0. rewrite Z.add_0_r, LAST. unfold pv. replace (Z.of_nat n) with (m - 1) by lia. ring.
      + intros c Hc. destruct (Z.leb_spec 1 c); [|now replace (m - 1 <=? c) with false by lia]. destruct (Z.leb_spec (m - 1) c); [reflexivity|]. rewrite el_zero by (auto; lia). ring.
  Qed.

  (** A vector sent to zero whose last entry is zero is zero. *)
  Theorem kernel_last m u : 1 < m -> good (Z.to_nat (m - 1)) -> (forall r, 0 <= r < m -> full m D r u = zero) ->
    pv (Z.to_nat (m - 1)) *! u (m - 1) = zero /\ (u (m - 1) = zero -> forall c, 0 <= c < m -> u c = zero).
  Proof.
    intros Hm G K. set (n := Z.to_nat (m - 1)) in *. assert (P0 : pv 0 <> zero) by (apply G; unfold n; lia).
    assert (K1 : forall r, 1 <= r < m -> lf m (el 1) r u = zero) by (intros r Hr; rewrite first_step by (auto; try lia; apply K; lia); apply K; lia).
    assert (RI : forall i, (1 <= i < n)%nat -> lf m (el (S i)) (Z.of_nat i) u = zero).
    { intros i. induction i as [i IH] using lt_wf_ind. intros Hi. apply (cancel (pv i)); [apply G; lia|]. rewrite <- lf_row by (intros j Hj; apply G; lia).
      rewrite (lf_chain m u (Z.of_nat i) i); [apply K1; lia|intros j Hj; apply G; lia|intros j Hj; apply IH; lia|lia|lia]. }
    split.
    - rewrite <- (K1 (m - 1)) by lia. rewrite <- (lf_chain m u (m - 1) n); [|exact G|exact RI|lia|lia].
      unfold lf. symmetry. rewrite (fsum_ext _ _ (fun c => if m - 1 <=? c then el n (m - 1) c *! u c else zero)).
      + replace (Z.to_nat m) with (Z.to_nat (m - 1) + 1)%nat by lia. rewrite fsum_from by lia. cbn [fsum_to]. change (Z.of_nat 0) with 0. rewrite Z.add_0_r. unfold pv. replace (Z.of_nat n) with (m - 1) by lia. ring.
      + intros c Hc. destruct (Z.leb_spec 1 c); [|now replace (m - 1 <=? c) with false by lia]. destruct (Z.leb_spec (m - 1) c); [reflexivity|]. rewrite el_zero by (auto; lia). ring.
    - intros U. assert (DOWN : forall k c, m - 1 - Z.of_nat k <= c < m -> 0 <= c -> u c = zero).
      { induction k as [|k IH]; intros c Hc H0; [now replace c with (m - 1) by lia|].
        destruct (Z.eq_dec c (m - 1 - Z.of_nat (S k))) as [->|]; [|apply IH; lia]. set (c := m - 1 - Z.of_nat (S k)) in *.
        destruct (Z.eq_dec c 0) as [Z0|].
        - rewrite Z0 in *. pose proof (K 0 ltac:(lia)) as R. rewrite full_lf in R by lia.
          assert (X : lf m D 0 u = zero).
          { unfold lf. rewrite (fsum_ext _ _ (fun _ => zero)); [apply fsum_zero|]. intros t Ht. destruct (Z.leb_spec 1 t); [|reflexivity]. rewrite IH by lia. ring. }
          rewrite X in R. apply (cancel (D 0 0)); [exact P0|]. rewrite <- R. ring.
        - pose proof (RI (Z.to_nat c) ltac:(lia)) as R. rewrite Z2Nat.id in R by lia. rewrite (lf_finished m c n u G) in R by lia.
          rewrite (fsum_ext _ _ (fun _ => zero)) in R; [rewrite fsum_zero in R; rewrite <- R; ring|]. intros t Ht. rewrite IH by lia. ring. }
      intros c Hc. apply (DOWN (Z.to_nat (m - 1))); lia.
  Qed.

  Definition kernel_free (k : Z) : Prop := forall u, (forall r, 0 <= r < k -> full k D r u = zero) -> forall c, 0 <= c < k -> u c = zero.
  (** Regular leading blocks have nonzero pivots. *)
  Lemma pivots m : (forall k, 1 <= k < m -> kernel_free k) -> good (Z.to_nat (m - 1)).
  Proof.
    intros K. assert (X : forall i, Z.of_nat i < m - 1 -> pv i <> zero); [|intros i Hi; apply X; lia].
    intros i. induction i as [i IH] using lt_wf_ind. intros Hi P. apply (F_1_neq_0 Fth).
    destruct (Nat.eq_dec i 0) as [->|].
    - apply (K 1 ltac:(lia) (fun _ => one)) with (c := 0); [|lia]. intros r Hr. assert (r = 0) by lia. subst r. unfold full. change (Z.to_nat 1) with 1%nat. cbn [fsum_to]. change (Z.of_nat 0) with 0. change (pv 0) with (D 0 0) in P. rewrite P. ring.
    - set (k := Z.of_nat i + 1). assert (G : good (Z.to_nat (k - 1))) by (intros j Hj; apply IH; lia).
      destruct (mended_kernel k ltac:(lia) G) as (M1 & M2 & M3). rewrite <- M3. apply (K k ltac:(lia)); [|lia].
      intros r Hr. destruct (Z.eq_dec r (k - 1)) as [->|]; [|apply M1; lia]. rewrite M2. replace (Z.to_nat (k - 1)) with i by lia. exact P.
  Qed.
End EF.

Section Final.
  Context {F : Type} (zero one : F) (add mul sub : F -> F -> F) (opp : F -> F) (div : F -> F -> F) (inv : F -> F).
  Hypothesis Fth : field_theory zero one add mul sub opp div inv eq.
  Add Field FF2 : Fth.
  Notation E := (exact_earith zero one add mul sub opp div).
  Notation full := (full zero add mul).

  Lemma full_eigen m A lam u r : 0 <= r < m ->
    add (full m (e_shift E A lam) r u) (mul lam (u r)) = fsum_to zero add (Z.to_nat m) (fun c => mul (A r c) (u c)).
  Proof.
    intros Hr. unfold full, ProofEigen3.full.
    rewrite (fsum_ext zero add _ (fun c => mul (e_shift E A lam r c) (u c)) (fun c => add (mul (A r c) (u c)) (if c =? r then opp (mul lam (u r)) else zero))).
    - rewrite (fsum_add _ _ _ _ _ _ _ _ Fth).
      assert (S1 : forall n x, r < Z.of_nat n -> fsum_to zero add n (fun k => if k =? r then x else zero) = x).
      { induction n as [|n IH]; intros x H; [lia|]. cbn [fsum_to]. destruct (Z.eq_dec r (Z.of_nat n)) as [->|].
        - rewrite Z.eqb_refl. rewrite (fsum_ext zero add n _ (fun _ => zero)); [rewrite (fsum_zero _ _ _ _ _ _ _ _ Fth); ring|]. intros k Hk. now replace (k =? Z.of_nat n) with false by lia.
        - rewrite IH by lia. replace (Z.of_nat n =? r) with false by lia. ring. }
      rewrite S1 by lia. ring.
    - intros c Hc. unfold e_shift. cbn [e_sub exact_earith]. rewrite Z.eqb_sym. destruct (Z.eqb_spec c r) as [->|]; ring.
  Qed.
  Lemma eigen_kernel m A lam u : eigenpair zero add mul m A lam u <-> forall r, 0 <= r < m -> full m (e_shift E A lam) r u = zero.
  Proof.
    unfold eigenpair. split; intros H r Hr; pose proof (full_eigen m A lam u r Hr) as X.
    - rewrite (H r Hr) in X. transitivity (sub (add (full m (e_shift E A lam) r u) (mul lam (u r))) (mul lam (u r))); [ring|]. rewrite X. ring.
    - rewrite <- X, (H r Hr). ring.
  Qed.

  Theorem eigen_algorithm m A lam : 1 < m -> (forall k, 1 <= k < m -> leading_regular zero add mul k A lam) ->
    (exists u c, 0 <= c < m /\ u c <> zero /\ eigenpair zero add mul m A lam u) ->
    let v := e_vector E m A lam in
    v (m - 1) = one
    /\ eigenpair zero add mul m A lam (fun i => if i =? 0 then mul (sub (A 0 0) lam) (v 0) else v i)
    /\ (eigenpair zero add mul m A lam v <-> mul (v 0) (sub one (sub (A 0 0) lam)) = zero).
  Proof.
    intros Hm K (u & c & Hc & Uc & Hu) v.
    assert (KF : forall k, 1 <= k < m -> kernel_free zero add mul (e_shift E A lam) k).
    { intros k Hk w Hw. apply (K k Hk). now apply eigen_kernel. }
    pose proof (pivots zero one add mul sub opp div inv Fth (e_shift E A lam) m KF) as G.
    destruct (mended_kernel zero one add mul sub opp div inv Fth (e_shift E A lam) m Hm G) as (M1 & M2 & M3).
    destruct (kernel_last zero one add mul sub opp div inv Fth (e_shift E A lam) m u Hm G (proj1 (eigen_kernel m A lam u) Hu)) as (L1 & L2).
    assert (T0 : pv zero one add mul sub opp div (e_shift E A lam) (Z.to_nat (m - 1)) = zero).
    { apply (cancel zero one add mul sub opp div inv Fth (u (m - 1))); [intros Q; apply Uc; now apply L2|]. refine (eq_trans _ L1). ring. }
    rewrite T0 in M2. set (w := mended zero one add mul sub opp div (e_shift E A lam) m) in *.
    assert (W0 : w 0 = mul (sub (A 0 0) lam) (v 0)) by reflexivity.
    assert (WI : forall i, i <> 0 -> w i = v i) by (intros i Hi; unfold w, mended; replace (i =? 0) with false by lia; reflexivity).
    assert (KW : forall r, 0 <= r < m -> full m (e_shift E A lam) r w = zero) by (intros r Hr; destruct (Z.eq_dec r (m - 1)) as [->|]; [exact M2|apply M1; lia]).
    split; [rewrite <- WI by lia; exact M3|]. split.
    - apply eigen_kernel. intros r Hr. refine (eq_trans _ (KW r Hr)). apply fsum_ext. intros t Ht. f_equal.
    - rewrite eigen_kernel.
      assert (DIFF : forall r, full m (e_shift E A lam) r v = add (full m (e_shift E A lam) r w) (mul (e_shift E A lam r 0) (mul (v 0) (sub one (sub (A 0 0) lam))))).
      { intros r. rewrite (full_lf zero one add mul sub opp div inv Fth (e_shift E A lam) m (e_shift E A lam) r v), (full_lf zero one add mul sub opp div inv Fth (e_shift E A lam) m (e_shift E A lam) r w) by lia.
        assert (X : lf zero add mul m (e_shift E A lam) r v = lf zero add mul m (e_shift E A lam) r w).
        { unfold lf. apply fsum_ext. intros t Ht. destruct (Z.leb_spec 1 t); [|reflexivity]. now rewrite WI by lia. }
        rewrite X, W0. ring. }
      split.
      + intros H. pose proof (H 0 ltac:(lia)) as H0. rewrite DIFF, KW in H0 by lia.
        apply (cancel zero one add mul sub opp div inv Fth (e_shift E A lam 0 0)); [exact (G 0%nat ltac:(lia))|]. refine (eq_trans _ H0). ring.
      + intros H r Hr. rewrite DIFF, KW, H by auto. ring.
  Qed.
End Final.
