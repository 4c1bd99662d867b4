(** * Proofs: transform sizes and magnitudes (C49, C50). *)
From Verif Require Import Base Logic ModelFloat ModelCore ModelMatrix ModelDft SpecBase SpecNum SpecMatrix SpecDft
  ProofCore ProofHM ProofWord ProofArr ProofGrid ProofMatrix ProofGauss ProofInvert ProofLoop.
From Coq Require Import ZifyBool ZifyNat Floats.SpecFloat Znumtheory Zpow_facts.
Ltac Zify.zify_post_hook ::= Z.div_mod_to_equations.
Open Scope Z_scope.

(** ** The table *)
Fixpoint ascending (l : list Z) : bool :=
  match l with
  | x :: ((y :: _) as r) => (x <? y) && ascending r
  | _ => true
  end.

Lemma ascending_nth l : ascending l = true -> forall i j, (i < j < List.length l)%nat -> nth i l 0 < nth j l 0.
Proof.
  induction l as [|x l IH]; intros H i j Hj; [cbn in Hj; lia|].
  assert (Hl : ascending l = true) by (destruct l; cbn in *; auto; apply andb_prop in H; tauto).
  destruct j as [|j]; [lia|]. cbn [List.length] in Hj.
  destruct i as [|i]; [|cbn [nth]; apply IH; auto; lia].
  destruct l as [|y l]; [cbn in Hj; lia|]. cbn [ascending] in H. apply andb_prop in H as [H _].
  change (nth 0 (x :: y :: l) 0) with x. change (nth (S j) (x :: y :: l) 0) with (nth j (y :: l) 0).
  destruct j as [|j]; [cbn; lia|]. pose proof (IH Hl 0%nat (S j) ltac:(cbn [List.length] in *; lia)). cbn [nth] in *. lia.
Qed.

Lemma tab_ascending : ascending optimal_DFT_sizetab = true. Proof. vm_compute. reflexivity. Qed.
Lemma tab_length : List.length optimal_DFT_sizetab = Z.to_nat 1651. Proof. vm_compute. reflexivity. Qed.
Lemma tab_last : dft_last = 1650. Proof. vm_compute. reflexivity. Qed.
Lemma entry_last : dft_entry 1650 = 2125764000. Proof. vm_compute. reflexivity. Qed.
Lemma entry_0 : dft_entry 0 = 1. Proof. vm_compute. reflexivity. Qed.

Lemma entry_lt i j : 0 <= i < j -> j <= 1650 -> dft_entry i < dft_entry j.
Proof. intros. apply (ascending_nth _ tab_ascending). rewrite tab_length. lia. Qed.

(** Every entry is a product of 2, 3 and 5, with at most fourteen 3s. *)
Fixpoint strip (fuel : nat) (p n : Z) : Z :=
  match fuel with
  | O => n
  | S f => if n mod p =? 0 then strip f p (n / p) else n
  end.
Lemma strip_spec p : 0 < p -> forall fuel n, exists a, 0 <= a <= Z.of_nat fuel /\ n = p ^ a * strip fuel p n.
Proof.
  intros Hp. induction fuel as [|f IH]; intros n; cbn [strip].
  - exists 0. change (p ^ 0) with 1. lia.
  - destruct (Z.eqb_spec (n mod p) 0) as [E|_].
    + destruct (IH (n / p)) as (a & Ha & En). exists (a + 1). split; [lia|].
      rewrite Z.pow_add_r, Z.pow_1_r by lia. pose proof (Z.div_mod n p ltac:(lia)) as D. rewrite E in D.
      rewrite D at 1. rewrite En at 1. ring.
    + exists 0. change (p ^ 0) with 1. lia.
Qed.

Lemma tab_smooth_check :
  forallb (fun n => strip 14 5 (strip 14 3 (strip 40 2 n)) =? 1) optimal_DFT_sizetab = true.
Proof. vm_compute. reflexivity. Qed.


Lemma few3_iff n : few3 n <-> exists a b c, 0 <= a /\ 0 <= b <= 14 /\ 0 <= c /\ n = 2 ^ a * 3 ^ b * 5 ^ c.
Proof.
  split.
  - intros ((a & b & c & Ha & Hb & Hc & ->) & Hd). exists a, b, c. repeat split; auto.
    destruct (Z_le_gt_dec b 14) as [|Hg]; auto. destruct Hd.
    exists (2 ^ a * 3 ^ (b - 15) * 5 ^ c). replace b with ((b - 15) + 15) at 1 by lia.
    rewrite Z.pow_add_r by lia. change (3 ^ 15) with 14348907. ring.
  - intros (a & b & c & Ha & Hb & Hc & ->). split; [exists a, b, c; repeat split; auto; lia|].
    intros Hd. change 14348907 with (3 ^ 15) in Hd.
    assert (Hrel : rel_prime (3 ^ 15) (2 ^ a * 5 ^ c)).
    { apply rel_prime_sym. apply Zpow_facts.rel_prime_Zpower_r; [lia|].
      apply rel_prime_sym, rel_prime_mult; apply Zpow_facts.rel_prime_Zpower_r; auto; apply Zgcd_1_rel_prime; reflexivity. }
    assert (Hd' : (3 ^ 15 | 2 ^ a * 5 ^ c * 3 ^ b)).
    { replace (2 ^ a * 5 ^ c * 3 ^ b) with (2 ^ a * 3 ^ b * 5 ^ c) by ring. auto. }
    apply Gauss in Hd'; auto. apply Z.divide_pos_le in Hd'; [|apply Z.pow_pos_nonneg; lia].
    assert (3 ^ b <= 3 ^ 14) by (apply Z.pow_le_mono_r; lia).
    change (3 ^ 14) with 4782969 in *. change (3 ^ 15) with 14348907 in *. lia.
Qed.

Lemma entry_few3 i : 0 <= i <= 1650 -> few3 (dft_entry i).
Proof.
  intros Hi. apply few3_iff.
  assert (Hin : In (dft_entry i) optimal_DFT_sizetab) by (apply nth_In; rewrite tab_length; lia).
  pose proof tab_smooth_check as C. rewrite forallb_forall in C. apply C in Hin. apply Z.eqb_eq in Hin.
  destruct (strip_spec 2 ltac:(lia) 40 (dft_entry i)) as (a & Ha & Ea).
  destruct (strip_spec 3 ltac:(lia) 14 (strip 40 2 (dft_entry i))) as (b & Hb & Eb).
  destruct (strip_spec 5 ltac:(lia) 14 (strip 14 3 (strip 40 2 (dft_entry i)))) as (c & Hc & Ec).
  exists a, b, c. split; [lia|]. split; [lia|]. split; [lia|].
  rewrite Ea, Eb, Ec, Hin. ring.
Qed.

(** Every such number up to the largest entry is in the table. *)
Definition upto_nat (n : nat) : list Z := map Z.of_nat (seq 0 n).
Lemma in_upto_nat n x : 0 <= x < Z.of_nat n -> In x (upto_nat n).
Proof. intros H. unfold upto_nat. apply in_map_iff. exists (Z.to_nat x). split; [lia|]. apply in_seq. lia. Qed.

Lemma tab_complete_check :
  forallb (fun a => forallb (fun b => forallb (fun c =>
    let v := 2 ^ a * 3 ^ b * 5 ^ c in
    (2125764000 <? v) || existsb (Z.eqb v) optimal_DFT_sizetab) (upto_nat 15)) (upto_nat 15)) (upto_nat 32) = true.
Proof. vm_compute. reflexivity. Qed.

Lemma pow_small p k n : 2 <= p -> 0 <= k -> p ^ k <= 2125764000 -> p ^ n > 2125764000 -> 0 <= n -> k < n.
Proof.
  intros Hp Hk H1 H2 Hn. destruct (Z_lt_ge_dec k n); auto.
  assert (p ^ n <= p ^ k) by (apply Z.pow_le_mono_r; lia). lia.
Qed.

Lemma few3_entry k : few3 k -> k <= 2125764000 -> exists i, 0 <= i <= 1650 /\ dft_entry i = k.
Proof.
  intros H Hk. apply few3_iff in H as (a & b & c & Ha & Hb & Hc & ->).
  assert (P2 : 0 < 2 ^ a) by (apply Z.pow_pos_nonneg; lia).
  assert (P3 : 0 < 3 ^ b) by (apply Z.pow_pos_nonneg; lia).
  assert (P5 : 0 < 5 ^ c) by (apply Z.pow_pos_nonneg; lia).
  assert (L2 : 2 ^ a <= 2125764000) by nia.
  assert (L5 : 5 ^ c <= 2125764000) by nia.
  assert (B2 : a < 32) by (apply (pow_small 2 a 32); auto; try lia; reflexivity).
  assert (B5 : c < 15) by (apply (pow_small 5 c 15); auto; try lia; reflexivity).
  pose proof tab_complete_check as C. rewrite forallb_forall in C.
  specialize (C a (in_upto_nat 32 a ltac:(lia))). rewrite forallb_forall in C.
  specialize (C b (in_upto_nat 15 b ltac:(lia))). rewrite forallb_forall in C.
  specialize (C c (in_upto_nat 15 c ltac:(lia))). cbv zeta in C.
  apply orb_prop in C as [C|C]; [apply Z.ltb_lt in C; lia|].
  apply existsb_exists in C as (x & Hx & E). apply Z.eqb_eq in E. rewrite E.
  apply (In_nth _ _ 0) in Hx as (i & Hi & Ei). rewrite tab_length in Hi. exists (Z.of_nat i). split; [lia|].
  unfold dft_entry. now rewrite Nat2Z.id.
Qed.

(** ** The search *)
Lemma search_ok n : forall fuel a b, 0 <= a <= b -> b <= 1650 -> b - a < 2 ^ Z.of_nat fuel ->
  (forall i, 0 <= i < a -> dft_entry i < n) -> n <= dft_entry b ->
  exists r, a <= r <= b /\ dft_search fuel n a b = Some (dft_entry r) /\ n <= dft_entry r
    /\ forall i, 0 <= i < r -> dft_entry i < n.
Proof.
  induction fuel as [|f IH]; intros a b Hab Hb Hf Hl Hn; cbn [dft_search].
  - change (2 ^ Z.of_nat 0) with 1 in Hf. replace (a <? b) with false by lia. exists b. split; [lia|].
    split; [reflexivity|]. split; auto. intros i Hi. apply Hl. lia.
  - replace (Z.of_nat (S f)) with (Z.of_nat f + 1) in Hf by lia. rewrite Z.pow_add_r, Z.pow_1_r in Hf by lia.
    destruct (Z.ltb_spec a b) as [Hlt|Hge].
    + rewrite Z.shiftr_div_pow2 by lia. change (2 ^ 1) with 2. set (c := (a + b) / 2).
      assert (Hc : a <= c < b) by (unfold c; lia).
      destruct (Z.leb_spec n (dft_entry c)) as [Hle|Hgt].
      * destruct (IH a c) as (r & Hr & E & H1 & H2); auto; try (unfold c in *; lia). exists r. split; [lia|]. auto.
      * destruct (IH (c + 1) b) as (r & Hr & E & H1 & H2); auto; try (unfold c in *; lia).
        { intros i Hi. destruct (Z.eq_dec i c) as [->|]; auto. pose proof (entry_lt i c ltac:(lia) ltac:(lia)). lia. }
        exists r. split; [lia|]. auto.
    + exists b. split; [lia|]. split; [reflexivity|]. split; auto. intros i Hi. apply Hl. lia.
Qed.

Lemma dft_outside n : -2147483648 <= n <= 2147483647 -> n < 0 \/ 2125764000 <= n -> get_optimal_DFT_size n = Some (-1).
Proof.
  intros Hn Ho. unfold get_optimal_DFT_size. rewrite tab_last, entry_last. unfold u32.
  now replace (n mod 4294967296 >=? 2125764000 mod 4294967296) with true by lia.
Qed.

Lemma dft_inside n : 0 <= n < 2125764000 -> exists r, get_optimal_DFT_size n = Some r /\ least_from few3 n r.
Proof.
  intros Hn. unfold get_optimal_DFT_size. rewrite tab_last, entry_last. unfold u32.
  replace (n mod 4294967296 >=? 2125764000 mod 4294967296) with false by lia.
  destruct (search_ok n 32 0 1650) as (r & Hr & E & H1 & H2); try lia.
  - rewrite entry_last. lia.
  - exists (dft_entry r). split; [exact E|]. split; [apply entry_few3; lia|]. split; auto.
    intros k Hk Hnk. destruct (Z_le_gt_dec k 2125764000) as [Hle|Hgt].
    + destruct (few3_entry k Hk Hle) as (i & Hi & <-).
      destruct (Z_lt_ge_dec i r) as [Hlt|Hge]; [pose proof (H2 i ltac:(lia)); lia|].
      destruct (Z.eq_dec i r) as [->|]; [lia|]. pose proof (entry_lt r i ltac:(lia) ltac:(lia)). lia.
    + assert (dft_entry r <= dft_entry 1650).
      { destruct (Z.eq_dec r 1650) as [->|]; [lia|]. pose proof (entry_lt r 1650 ltac:(lia) ltac:(lia)). lia. }
      rewrite entry_last in *. lia.
Qed.

(** A run of exact answers: from lo to a table entry below the next multiple of 3^15. *)
Lemma dft_small n : 0 <= n <= 14171760 -> exists r, get_optimal_DFT_size n = Some r /\ least_from smooth n r.
Proof.
  intros Hn. destruct (dft_inside n ltac:(lia)) as (r & E & (Hs & Hd) & H1 & H2). exists r. split; auto.
  split; auto. split; auto. intros k Hk Hnk.
  assert (Hr : r <= 14171760).
  { apply H2; [|lia]. replace 14171760 with (dft_entry 813) by (vm_compute; reflexivity). apply entry_few3. lia. }
  destruct (Z_le_gt_dec k 14171760) as [Hle|]; [|lia].
  assert (Hp : 0 < k).
  { destruct Hk as (a & b & c & Ha & Hb & Hc & ->). apply Z.mul_pos_pos; [apply Z.mul_pos_pos|]; apply Z.pow_pos_nonneg; lia. }
  apply H2; auto. split; auto. intros D. apply Z.divide_pos_le in D; lia.
Qed.

Lemma dft_refuted : exists n r, 0 < n <= 2125764000 /\ get_optimal_DFT_size n = Some r /\ smooth n /\ n < r.
Proof.
  exists 14348907, 14400000. split; [lia|]. split; [vm_compute; reflexivity|]. split; [|lia].
  exists 0, 15, 0. repeat split; lia.
Qed.

(** ** The magnitude *)
Section Mag.
  Variables (pow2 sqrt_ : sf -> sf) (e : env) (s : st) (p1 p2 p3 : ptr) (mr mi md : smat).
  Variables (R C : Z) (X Y W : Z -> Z -> Z).
  Hypotheses (H1 : sm_at s p1 = Some mr) (H2 : sm_at s p2 = Some mi) (H3 : sm_at s p3 = Some md).
  Hypotheses (R1 : sm_rows mr = R) (R2 : sm_rows mi = R) (R3 : sm_rows md = R).
  Hypotheses (C1 : sm_cols mr = C) (C2 : sm_cols mi = C) (C3 : sm_cols md = C).
  Hypotheses (T1 : sm_type mr = 4) (T2 : sm_type mi = 4) (T3 : sm_type md = 4).
  Hypotheses (HR : 0 < R) (HC : 0 < C) (HB : R * C <= 2147483647).
  Hypotheses (M1 : matrix s (sm_data mr) 4 R C X) (M3 : matrix s (sm_data md) 4 R C W).
  Hypotheses (D1 : sm_data mr <> sm_data md) (D2 : sm_data mi <> sm_data md).

  Definition mag_body (pr pi pd : ptr) (i j : Z) : M unit :=
      k <- ev (i * C + j)%C ;;
      x <- loadf pr k ;;
      k' <- ev (i * C * j)%C ;;
      y <- loadf pi k' ;;
      d <- ev (i * C + j)%C ;;
      storef pd d
        (fl_of_db (sqrt_ (db_add (pow2 (db_of_fl x)) (pow2 (db_of_fl y))))).

  Lemma mag_head : hypercv_magnitude pow2 sqrt_ p1 p2 p3 e s = 
    for_ 0 R (fun i => for_ 0 C (mag_body (sm_data mr) (sm_data mi) (sm_data md) i)) e s.
  Proof.
    unfold hypercv_magnitude.
    rewrite (bind_ret _ _ _ _ _ _ (sget_ok _ _ e s H1)), (bind_ret _ _ _ _ _ _ (sget_ok _ _ e s H2)),
      (bind_ret _ _ _ _ _ _ (sget_ok _ _ e s H3)).
    rewrite R1, R2, R3, C1, C2, C3, T1, T2, T3. rewrite !bind_assert by lia. reflexivity.
  Qed.

  Lemma mag_run : matrix s (sm_data mi) 4 R C Y -> (R - 1) * (C - 1) < R ->
    exists s', hypercv_magnitude pow2 sqrt_ p1 p2 p3 e s = Ret tt s'
      /\ matrix s' (sm_data md) 4 R C (fun i j => magnitude_word pow2 sqrt_ (X i j) (Y (i * j) 0))
      /\ only_bytes s (sm_data md) 0 (R * C * 4) s'.
  Proof.
    intros M2 Hs. rewrite mag_head.
    destruct (matrix_arr s _ 4 R C X ltac:(lia) HR HC M1) as (q1 & E1 & A1).
    destruct (matrix_arr s _ 4 R C Y ltac:(lia) HR HC M2) as (q2 & E2 & A2).
    destruct (matrix_arr s _ 4 R C W ltac:(lia) HR HC M3) as (q3 & E3 & A3).
    rewrite E1, E2, E3 in *.
    destruct (grid_run e s q3 4 R C (fun t => W (t / C) (t mod C))
      (fun t => magnitude_word pow2 sqrt_ (X (t / C) (t mod C)) (Y (t / C * (t mod C)) 0))
      (mag_body (Some q1) (Some q2) (Some q3))) as (s' & E & A' & I');
      [lia|lia|exact A3| |exists s'; split; [exact E|]; split; [|apply inside_only; exact I']].
    2:{ apply (arr_matrix s' q3 4 R C (fun i j => magnitude_word pow2 sqrt_ (X i j) (Y (i * j) 0))). exact A'. }
    intros i j s1 Hi Hj A I. unfold mag_body.
    apply (arr_inside _ _ _ _ _ q1 _ _ _ _ I) in A1; [|left; congruence].
    apply (arr_inside _ _ _ _ _ q2 _ _ _ _ I) in A2; [|left; congruence].
    pose proof (cell_range R C i j Hi Hj) as Hc.
    assert (Hij : 0 <= i * j < R) by nia.
    assert (Hk : 0 <= i * C * j < R * C) by nia.
    rewrite (bind_ret _ _ _ _ _ _ (ev_cell e s1 R C i j Hi Hj HB)).
    rewrite (bind_ret _ _ _ _ _ _ (loadf_arr e s1 q1 (R * C) _ _ A1 Hc)). cbv beta.
    rewrite (bind_ret _ _ _ _ _ _ (ev_ok (i * C * j)%C (i * C * j) e s1
      ltac:(unfold ci; rewrite cmul_ok by nia; rewrite cmul_ok by nia; reflexivity))).
    rewrite (bind_ret _ _ _ _ _ _ (loadf_arr e s1 q2 (R * C) _ _ A2 Hk)). cbv beta.
    rewrite (bind_ret _ _ _ _ _ _ (ev_cell e s1 R C i j Hi Hj HB)).
    match goal with |- context [storef _ _ ?x] =>
      destruct (storef_arr e s1 q3 (R * C) _ (i * C + j) x A Hc) as (s2 & Es & As & Is) end.
    exists s2. split; [exact Es|]. split; [|exact Is]. eapply upto_step; [exact As|].
    rewrite cell_div, cell_mod by lia. replace (i * C * j) with (i * j * C + 0) by ring.
    rewrite cell_div, cell_mod by lia. reflexivity.
  Qed.

  (** With exact-size arrays the call reads outside as soon as the product
      index can leave the array. *)
  Lemma mag_ub q f : bytes_at s (sm_data mi) = Some (q, R * C * 4, f) -> R <= (R - 1) * (C - 1) ->
    hypercv_magnitude pow2 sqrt_ p1 p2 p3 e s = UB.
  Proof.
    intros M2 Hs. rewrite mag_head.
    destruct (matrix_arr s _ 4 R C X ltac:(lia) HR HC M1) as (q1 & E1 & A1).
    destruct (matrix_arr s _ 4 R C W ltac:(lia) HR HC M3) as (q3 & E3 & A3).
    destruct (bytes_at_inv _ _ _ _ _ M2) as [E2 I2]. rewrite E1, E2, E3 in *.
    set (Inv := fun s1 => inside s q3 0 (R * C * 4) s1 /\ exists g, arr s1 q3 0 4 (R * C) g).
    assert (I0 : Inv s).
    { split; [|eauto]. destruct (arr_isb _ _ _ _ _ _ A3) as (N & d & Hd). eapply inside_refl; eauto. }
    assert (Hload : forall i j s1, 0 <= i < R -> 0 <= j < C -> Inv s1 ->
       exists x, bind (ev (i * C + j)%C) (fun k => loadf (Some q1) k) e s1 = Ret x s1).
    { intros i j s1 Hi Hj [I _]. pose proof (cell_range R C i j Hi Hj) as Hc.
      apply (arr_inside _ _ _ _ _ q1 _ _ _ _ I) in A1; [|left; congruence].
      rewrite (bind_ret _ _ _ _ _ _ (ev_cell e s1 R C i j Hi Hj HB)).
      rewrite (loadf_arr e s1 q1 (R * C) _ _ A1 Hc). eauto. }
    assert (Hidx : forall i j s1, 0 <= i < R -> 0 <= j < C ->
       ev (i * C * j)%C e s1 = UB \/ ev (i * C * j)%C e s1 = Ret (i * C * j) s1).
    { intros i j s1 Hi Hj. unfold ci. rewrite cmul_ok by nia. unfold cmul, cop, chk.
      destruct (in_int (i * C * j)); cbn; auto. }
    assert (Hbig : forall t s1, R * C <= t -> Inv s1 -> loadf (Some q) t e s1 = UB).
    { intros t s1 Ht [I _]. apply (inside_old _ _ _ _ _ q _ _ I) in I2; [|congruence].
      unfold loadf. cbn [loadle]. rewrite !bind_assoc. apply bind_ub. eapply load8_oob; eauto. lia. }
    assert (Hsmall : forall t s1, 0 <= t < R * C -> Inv s1 -> exists y, loadf (Some q) t e s1 = Ret y s1).
    { intros t s1 Ht [I _]. apply (inside_old _ _ _ _ _ q _ _ I) in I2; [|congruence].
      eexists. apply (loadf_arr e s1 q (R * C) _ t (arr_of s1 q (R * C * 4) f 0 4 (R * C) I2 ltac:(lia) ltac:(lia) ltac:(lia)) Ht). }
    assert (Hbody : forall i j s1, 0 <= i < R -> 0 <= j < C -> Inv s1 ->
      (R * C <= i * C * j -> mag_body (Some q1) (Some q) (Some q3) i j e s1 = UB)
      /\ (mag_body (Some q1) (Some q) (Some q3) i j e s1 = UB
          \/ exists s2, mag_body (Some q1) (Some q) (Some q3) i j e s1 = Ret tt s2 /\ Inv s2)).
    { intros i j s1 Hi Hj HI. destruct (Hload i j s1 Hi Hj HI) as (x & Ex).
      unfold mag_body. rewrite <- !(bind_assoc (ev (i * C + j)%C) (fun k => loadf (Some q1) k)). rewrite !(bind_ret _ _ _ _ _ _ Ex).
      destruct (Hidx i j s1 Hi Hj) as [U|Ek].
      { split; [intros _|left]; apply bind_ub; auto. }
      rewrite !(bind_ret _ _ _ _ _ _ Ek).
      destruct (Z_lt_ge_dec (i * C * j) (R * C)) as [Hlt|Hge].
      - split; [lia|]. right. destruct (Hsmall (i * C * j) s1 ltac:(nia) HI) as (y & Ey).
        rewrite (bind_ret _ _ _ _ _ _ Ey), (bind_ret _ _ _ _ _ _ (ev_cell e s1 R C i j Hi Hj HB)).
        destruct HI as [I (g & A)].
        match goal with |- context [storef _ _ ?x] =>
          destruct (storef_arr e s1 q3 (R * C) _ (i * C + j) x A (cell_range R C i j Hi Hj)) as (s2 & Es & As & Is) end.
        exists s2. split; [exact Es|]. split; [eapply inside_trans; eauto|eauto].
      - split; [intros _|left]; apply bind_ub, Hbig; auto; lia. }
    apply (for_ub_some e 0 R _ Inv (R - 1) s); [lia|exact I0| |].
    - intros i s1 Hi HI. apply (for_either e 0 C _ Inv s1 HI). intros j s2 Hj HI2. now apply Hbody.
    - intros s1 HI. apply (for_ub_some e 0 C _ Inv (C - 1) s1); [lia|exact HI| |].
      + intros j s2 Hj HI2. apply Hbody; auto; lia.
      + intros s2 HI2. apply Hbody; auto; try lia. nia.
  Qed.
End Mag.

Lemma magnitude_run pow2 sqrt_ e s p1 p2 p3 mr mi md R C X Y W :
  float_image s p1 mr R C X -> float_image s p2 mi R C Y -> float_image s p3 md R C W ->
  sm_data mr <> sm_data md -> sm_data mi <> sm_data md -> (R - 1) * (C - 1) < R ->
  exists s', hypercv_magnitude pow2 sqrt_ p1 p2 p3 e s = Ret tt s'
    /\ matrix s' (sm_data md) 4 R C (fun i j => magnitude_word pow2 sqrt_ (X i j) (Y (i * j) 0))
    /\ only_bytes s (sm_data md) 0 (R * C * 4) s'.
Proof.
  intros (A1 & B1 & C1 & D1 & E1 & F1 & G1 & M1) (A2 & B2 & C2 & D2 & E2 & F2 & G2 & M2) (A3 & B3 & C3 & D3 & E3 & F3 & G3 & M3) N1 N2 H.
  eapply mag_run; eauto.
Qed.
Lemma magnitude_ub pow2 sqrt_ e s p1 p2 p3 mr mi md R C X Y W q f :
  float_image s p1 mr R C X -> float_image s p2 mi R C Y -> float_image s p3 md R C W ->
  sm_data mr <> sm_data md -> sm_data mi <> sm_data md ->
  bytes_at s (sm_data mi) = Some (q, R * C * 4, f) -> R <= (R - 1) * (C - 1) ->
  hypercv_magnitude pow2 sqrt_ p1 p2 p3 e s = UB.
Proof.
  intros (A1 & B1 & C1 & D1 & E1 & F1 & G1 & M1) (A2 & B2 & C2 & D2 & E2 & F2 & G2 & M2) (A3 & B3 & C3 & D3 & E3 & F3 & G3 & M3) N1 N2 H1 H2.
  eapply mag_ub; eauto.
Qed.
