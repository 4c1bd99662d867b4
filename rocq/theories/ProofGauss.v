(** * Proofs: Gauss-Jordan inversion over a field (C40). *)
From Verif Require Import Base ModelMatrix SpecMatrix ProofGrid.
From Coq Require Import ZifyBool ZifyNat Field_theory Ring Field.
Ltac Zify.zify_post_hook ::= Z.div_mod_to_equations.
Open Scope Z_scope.

Section GJ.
  Context {F : Type} (zero one : F) (add mul sub : F -> F -> F) (opp : F -> F) (div : F -> F -> F) (inv : F -> F).
  Hypothesis Fth : field_theory zero one add mul sub opp div inv eq.
  Variable isz : F -> bool.
  Hypothesis isz_ok : forall x, isz x = true <-> x = zero.
  Add Field FF : Fth.
  Variable m : Z.
  Hypothesis Hm : 0 <= m.

  Notation A := (exact_arith zero one add mul opp inv isz).
  Local Infix "+!" := add (at level 50, left associativity).
  Local Infix "*!" := mul (at level 40, left associativity).
  Notation fsum := (fsum_to zero add).
  Notation mat := (Z -> F).

  Lemma fsum_ext n f g : (forall k, 0 <= k < Z.of_nat n -> f k = g k) -> fsum n f = fsum n g.
  Proof. induction n as [|n IH]; intros H; cbn [fsum_to]; auto. rewrite IH, H by (intros; try apply H; lia). reflexivity. Qed.
  Lemma fsum_add n f g : fsum n (fun k => f k +! g k) = fsum n f +! fsum n g.
  Proof. induction n as [|n IH]; cbn [fsum_to]; [ring|]. rewrite IH. ring. Qed.
  Lemma fsum_mul n c f : fsum n (fun k => c *! f k) = c *! fsum n f.
  Proof. induction n as [|n IH]; cbn [fsum_to]; [ring|]. rewrite IH. ring. Qed.
  Lemma fsum_zero n : fsum n (fun _ => zero) = zero.
  Proof. induction n as [|n IH]; cbn [fsum_to]; auto. rewrite IH. ring. Qed.
  Lemma fsum_swap n p f : fsum n (fun i => fsum p (fun j => f i j)) = fsum p (fun j => fsum n (fun i => f i j)).
  Proof.
    induction n as [|n IH]; cbn [fsum_to]; [now rewrite fsum_zero|]. rewrite IH. now rewrite <- fsum_add.
  Qed.
  Lemma fsum_single n a x : 0 <= a < Z.of_nat n -> fsum n (fun k => if k =? a then x else zero) = x.
  Proof.
    induction n as [|n IH]; intros H; [lia|]. cbn [fsum_to]. destruct (Z.eq_dec a (Z.of_nat n)) as [->|].
    - rewrite Z.eqb_refl. rewrite (fsum_ext n _ (fun _ => zero)); [rewrite fsum_zero; ring|].
      intros k Hk. now replace (k =? Z.of_nat n) with false by lia.
    - rewrite IH by lia. replace (Z.of_nat n =? a) with false by lia. ring.
  Qed.

  (** Row a of d times the vector v. *)
  Definition dot (d : mat) (a : Z) (v : Z -> F) : F := fsum (Z.to_nat m) (fun k => d (a * m + k) *! v k).
  Definition ent (d : mat) (a b : Z) : F := d (a * m + b).
  Definition idm (a b : Z) : F := if a =? b then one else zero.
  Notation inr a := (0 <= a < m).

  Lemma dot_ext d d' a v v' : (forall k, inr k -> d (a * m + k) = d' (a * m + k)) -> (forall k, inr k -> v k = v' k) -> dot d a v = dot d' a v'.
  Proof. intros H H'. apply fsum_ext. intros k Hk. now rewrite H, H' by lia. Qed.

  Lemma in_row_ent r a b : inr a -> inr b -> in_row m r (a * m + b) = (a =? r).
  Proof.
    intros Ha Hb. unfold in_row. destruct (Z.eqb_spec a r) as [->|N].
    - lia.
    - destruct (Z.lt_ge_cases a r); [replace (r * m <=? a * m + b) with false by nia; reflexivity|].
      replace (a * m + b <? r * m + m) with false by nia. apply Bool.andb_false_r.
  Qed.

  (** ** Row operations, entry by entry and as linear maps *)
  Lemma ent_swap d r1 r2 a b : inr a -> inr b ->
    ent (g_swap m d r1 r2) a b = if a =? r1 then ent d r2 b else if a =? r2 then ent d r1 b else ent d a b.
  Proof.
    intros Ha Hb. unfold ent, g_swap. rewrite !in_row_ent by auto.
    destruct (Z.eqb_spec a r1) as [->|]; [f_equal; lia|]. destruct (Z.eqb_spec a r2) as [->|]; [f_equal; lia|reflexivity].
  Qed.
  Lemma ent_scale d r p a b : inr a -> inr b ->
    ent (g_scale A m d r p) a b = if a =? r then ent d a b *! inv p else ent d a b.
  Proof. intros Ha Hb. unfold ent, g_scale. rewrite in_row_ent by auto. now destruct (a =? r). Qed.
  Lemma ent_shear d r1 r2 c a b : inr a -> inr b ->
    ent (g_shear A m d r1 r2 c) a b = if a =? r1 then ent d a b +! opp c *! ent d r2 b else ent d a b.
  Proof.
    intros Ha Hb. unfold ent, g_shear. rewrite in_row_ent by auto. destruct (Z.eqb_spec a r1) as [->|]; auto.
    cbn [a_shear exact_arith]. do 3 f_equal. lia.
  Qed.

  Lemma dot_ent d a v : dot d a v = fsum (Z.to_nat m) (fun k => ent d a k *! v k).
  Proof. reflexivity. Qed.
  Lemma dot_swap d r1 r2 a v : inr a ->
    dot (g_swap m d r1 r2) a v = if a =? r1 then dot d r2 v else if a =? r2 then dot d r1 v else dot d a v.
  Proof.
    intros Ha. rewrite !dot_ent.
    destruct (a =? r1) eqn:E1; [|destruct (a =? r2) eqn:E2]; apply fsum_ext; intros k Hk; rewrite ent_swap by lia;
      rewrite E1; [|rewrite E2|rewrite E2]; reflexivity.
  Qed.
  Lemma dot_scale d r p a v : inr a ->
    dot (g_scale A m d r p) a v = if a =? r then inv p *! dot d a v else dot d a v.
  Proof.
    intros Ha. rewrite !dot_ent. destruct (a =? r) eqn:E1; [rewrite <- fsum_mul|]; apply fsum_ext; intros k Hk;
      rewrite ent_scale by lia; rewrite E1; [ring|reflexivity].
  Qed.
  Lemma dot_shear d r1 r2 c a v : inr a ->
    dot (g_shear A m d r1 r2 c) a v = if a =? r1 then dot d a v +! opp c *! dot d r2 v else dot d a v.
  Proof.
    intros Ha. rewrite !dot_ent. destruct (a =? r1) eqn:E1; [rewrite <- fsum_mul, <- fsum_add|]; apply fsum_ext; intros k Hk;
      rewrite ent_shear by lia; rewrite E1; [ring|reflexivity].
  Qed.

  (** ** Kernels *)
  Definition kern (d : mat) (v : Z -> F) : Prop := forall a, inr a -> dot d a v = zero.

  Lemma mul_zero_l x : zero *! x = zero. Proof. ring. Qed.
  Lemma inv_mul p : p <> zero -> p *! inv p = one.
  Proof. intros H. rewrite (Rmul_comm (F_R Fth)). apply (Finv_l Fth). auto. Qed.

  Lemma kern_swap d r1 r2 v : inr r1 -> inr r2 -> kern (g_swap m d r1 r2) v -> kern d v.
  Proof.
    intros H1 H2 K a Ha. destruct (Z.eq_dec a r1) as [->|N1].
    - specialize (K r2 H2). rewrite dot_swap in K by auto. rewrite Z.eqb_refl in K.
      destruct (Z.eqb_spec r2 r1) as [->|]; auto.
    - destruct (Z.eq_dec a r2) as [->|N2].
      + specialize (K r1 H1). rewrite dot_swap in K by auto. now rewrite Z.eqb_refl in K.
      + specialize (K a Ha). rewrite dot_swap in K by auto.
        now replace (a =? r1) with false in K by lia; replace (a =? r2) with false in K by lia.
  Qed.
  Lemma kern_scale d r p v : p <> zero -> kern (g_scale A m d r p) v -> kern d v.
  Proof.
    intros Hp K a Ha. specialize (K a Ha). rewrite dot_scale in K by auto. destruct (a =? r); auto.
    transitivity (p *! inv p *! dot d a v); [rewrite inv_mul by auto; ring|].
    transitivity (p *! (inv p *! dot d a v)); [ring|]. rewrite K. ring.
  Qed.
  Lemma kern_shear d r1 r2 c v : r1 <> r2 -> inr r2 -> kern (g_shear A m d r1 r2 c) v -> kern d v.
  Proof.
    intros N H2 K a Ha. pose proof (K a Ha) as Ka. pose proof (K r2 H2) as K2.
    rewrite dot_shear in Ka, K2 by auto. replace (r2 =? r1) with false in K2 by lia.
    destruct (a =? r1); auto. rewrite K2 in Ka. rewrite <- Ka. ring.
  Qed.

  (** ** The invariant *)
  Variable A0 : mat.
  Definition rel (res mat : Z -> F) : Prop :=
    (forall a b, inr a -> inr b -> ent mat a b = dot res a (fun k => A0 (k * m + b)))
    /\ (forall v, kern mat v -> kern A0 v)
    /\ (forall v, kern res v -> forall a, inr a -> v a = zero).

  Lemma rel_swap res mat r1 r2 : inr r1 -> inr r2 -> rel res mat -> rel (g_swap m res r1 r2) (g_swap m mat r1 r2).
  Proof.
    intros H1 H2 (I1 & I2 & I4). split; [|split].
    - intros a b Ha Hb. rewrite ent_swap, dot_swap by auto. destruct (a =? r1); [|destruct (a =? r2)]; apply I1; auto.
    - intros v K. apply I2. eapply kern_swap; [| |exact K]; auto.
    - intros v K. apply I4. eapply kern_swap; [| |exact K]; auto.
  Qed.
  Lemma rel_scale res mat r p : p <> zero -> rel res mat -> rel (g_scale A m res r p) (g_scale A m mat r p).
  Proof.
    intros Hp (I1 & I2 & I4). split; [|split].
    - intros a b Ha Hb. rewrite ent_scale, dot_scale by auto. destruct (a =? r); rewrite I1 by auto; [ring|reflexivity].
    - intros v K. apply I2. eapply kern_scale; [|exact K]; auto.
    - intros v K. apply I4. eapply kern_scale; [|exact K]; auto.
  Qed.
  Lemma rel_shear res mat r1 r2 c : r1 <> r2 -> inr r2 -> rel res mat -> rel (g_shear A m res r1 r2 c) (g_shear A m mat r1 r2 c).
  Proof.
    intros N H2 (I1 & I2 & I4). split; [|split].
    - intros a b Ha Hb. rewrite ent_shear, dot_shear by auto. destruct (a =? r1); rewrite !I1 by auto; reflexivity.
    - intros v K. apply I2. eapply kern_shear; [| |exact K]; auto.
    - intros v K. apply I4. eapply kern_shear; [| |exact K]; auto.
  Qed.

  Definition cols (i : Z) (mat : Z -> F) : Prop := forall a c, inr a -> 0 <= c < i -> c < m -> ent mat a c = idm a c.

  Lemma clear_ok fuel i j res mat : inr i -> 0 <= j -> j + Z.of_nat fuel = m ->
    rel res mat -> cols i mat -> ent mat i i = one ->
    (forall a, 0 <= a < j -> a <> i -> ent mat a i = zero) ->
    rel (fst (g_clear A m fuel i j res mat)) (snd (g_clear A m fuel i j res mat))
    /\ cols (i + 1) (snd (g_clear A m fuel i j res mat)).
  Proof.
    revert j res mat. induction fuel as [|fuel IH]; intros j res mat Hi Hj Hf R C E Z0; cbn [g_clear fst snd].
    - split; auto. intros a c Ha Hc Hcm. destruct (Z.eq_dec c i) as [->|]; [|apply C; auto; lia].
      unfold idm. destruct (Z.eqb_spec a i) as [->|]; auto. apply Z0; auto. lia.
    - destruct (Z.eqb_spec i j) as [->|N].
      + apply IH; auto; try lia. intros a Ha Na. apply Z0; auto. lia.
      + apply IH; auto; try lia.
        * apply rel_shear; auto.
        * intros a c Ha Hc Hcm. rewrite ent_shear by lia. rewrite !C by auto. destruct (a =? j); auto.
          unfold idm at 2. replace (i =? c) with false by lia. ring.
        * rewrite ent_shear by lia. now replace (i =? j) with false by lia.
        * intros a Ha Na. rewrite ent_shear by lia. destruct (Z.eqb_spec a j) as [->|].
          { rewrite E. unfold ent. ring. }
          { apply Z0; auto; lia. }
  Qed.

  Lemma step_ok i res mat : inr i -> rel res mat -> cols i mat -> ent mat i i <> zero ->
    rel (fst (g_step A m i res mat)) (snd (g_step A m i res mat)) /\ cols (i + 1) (snd (g_step A m i res mat)).
  Proof.
    intros Hi R C P. unfold g_step. fold (ent mat i i). apply clear_ok; auto; try lia.
    - now apply rel_scale.
    - intros a c Ha Hc Hcm. rewrite ent_scale by lia. rewrite C by auto. destruct (Z.eqb_spec a i) as [->|]; auto.
      unfold idm. replace (i =? c) with false by lia. ring.
    - rewrite ent_scale, Z.eqb_refl by lia. apply inv_mul. auto.
  Qed.

  Lemma find_ok fuel mat i r : 0 <= r ->
    match g_find A m fuel mat i r with
    | Some r' => r <= r' < r + Z.of_nat fuel /\ ent mat r' i <> zero
    | None => forall a, r <= a < r + Z.of_nat fuel -> ent mat a i = zero
    end.
  Proof.
    revert r. induction fuel as [|fuel IH]; intros r Hr; cbn [g_find]; [intros; lia|].
    change (a_is_zero A (mat (r * m + i))) with (isz (ent mat r i)).
    destruct (isz (ent mat r i)) eqn:E.
    - specialize (IH (r + 1) ltac:(lia)). destruct (g_find A m fuel mat i (r + 1)) as [r'|].
      + destruct IH. split; auto. lia.
      + intros a Ha. destruct (Z.eq_dec a r) as [->|]; [now apply isz_ok|]. apply IH. lia.
    - split; [lia|]. intros Q. apply isz_ok in Q. congruence.
  Qed.

  (** A non-zero vector in the kernel. *)
  Definition singular : Prop := exists v, kern A0 v /\ exists i, inr i /\ v i <> zero.

  Lemma stuck_singular i res mat : inr i -> rel res mat -> cols i mat ->
    (forall a, i <= a < m -> ent mat a i = zero) -> singular.
  Proof.
    intros Hi (_ & I2 & _) C S.
    exists (fun k => if k =? i then one else if k <? i then opp (ent mat k i) else zero). split.
    - apply I2. intros a Ha. rewrite dot_ent.
      rewrite (fsum_ext _ _ (fun k => (if k =? i then ent mat a i else zero)
          +! (if k =? a then (if a <? i then opp (ent mat a i) else zero) else zero))).
      + rewrite fsum_add, !fsum_single by lia. destruct (Z.ltb_spec a i); [ring|]. rewrite S by lia. ring.
      + intros k Hk. destruct (Z.eqb_spec k i) as [->|N].
        * destruct (Z.eqb_spec i a) as [<-|]; [|ring]. replace (i <? i) with false by lia. ring.
        * destruct (Z.ltb_spec k i).
          { rewrite C by lia. unfold idm. rewrite (Z.eqb_sym k a). destruct (Z.eqb_spec a k) as [->|]; [|ring].
            replace (k <? i) with true by lia. ring. }
          { destruct (Z.eqb_spec k a) as [->|]; [|ring]. replace (a <? i) with false by lia. ring. }
    - exists i. split; auto. rewrite Z.eqb_refl. apply (F_1_neq_0 Fth).
  Qed.

  Lemma loop_ok fuel i res mat : 0 <= i -> i + Z.of_nat fuel = m -> rel res mat -> cols i mat ->
    let r := g_loop A m fuel i res mat in
    if fst r then rel (fst (snd r)) (snd (snd r)) /\ cols m (snd (snd r)) else singular.
  Proof.
    revert i res mat. induction fuel as [|fuel IH]; intros i res mat Hi Hf R C; cbv zeta; cbn [g_loop].
    - cbn [fst snd]. replace m with i by lia. auto.
    - change (a_is_zero A (mat (i * m + i))) with (isz (ent mat i i)).
      destruct (isz (ent mat i i)) eqn:E.
      + pose proof (find_ok (Z.to_nat (m - i - 1)) mat i (i + 1) ltac:(lia)) as Fd.
        destruct (g_find A m (Z.to_nat (m - i - 1)) mat i (i + 1)) as [r|].
        * destruct Fd as [Hr Er].
          destruct (step_ok i (g_swap m res i r) (g_swap m mat i r)) as [R' C']; try lia.
          { apply rel_swap; auto; lia. }
          { intros a c Ha Hc Hcm. rewrite ent_swap by lia. rewrite !C by lia. unfold idm.
            destruct (Z.eqb_spec a i) as [->|]; [replace (r =? c) with false by lia; now replace (i =? c) with false by lia|].
            destruct (Z.eqb_spec a r) as [->|]; [replace (r =? c) with false by lia; now replace (i =? c) with false by lia|reflexivity]. }
          { rewrite ent_swap, Z.eqb_refl by lia. exact Er. }
          apply IH; auto; lia.
        * cbn [fst]. apply (stuck_singular i res mat); auto; try lia.
          intros a Ha. destruct (Z.eq_dec a i) as [->|]; [now apply isz_ok|]. apply Fd. lia.
      + destruct (step_ok i res mat) as [R' C']; auto; try lia.
        { intros Q. apply isz_ok in Q. congruence. }
        apply IH; auto; lia.
  Qed.

  Lemma ent_identity a b : inr a -> inr b -> ent (g_identity A m) a b = idm a b.
  Proof. intros Ha Hb. unfold ent, g_identity. now rewrite cell_div, cell_mod by lia. Qed.
  Lemma dot_identity a v : inr a -> dot (g_identity A m) a v = v a.
  Proof.
    intros Ha. rewrite dot_ent. rewrite (fsum_ext _ _ (fun k => if k =? a then v a else zero)).
    - apply fsum_single. lia.
    - intros k Hk. rewrite ent_identity by lia. unfold idm. rewrite (Z.eqb_sym k a).
      destruct (Z.eqb_spec a k) as [->|]; ring.
  Qed.

  Lemma gauss_ok : let r := gauss_jordan A m A0 in
    if fst r then rel (fst (snd r)) (snd (snd r)) /\ cols m (snd (snd r)) else singular.
  Proof.
    apply loop_ok; try lia.
    - split; [|split]; auto.
      + intros a b Ha Hb. now rewrite dot_identity.
      + intros v K a Ha. specialize (K a Ha). now rewrite dot_identity in K.
    - intros a c Ha Hc. lia.
  Qed.

  (** ** Products *)
  Lemma product_dot X Y i j : product_at zero add mul m X Y i j = dot X i (fun k => Y (k * m + j)).
  Proof. reflexivity. Qed.
  Lemma dot_dot X Y a v : inr a -> dot X a (fun l => dot Y l v) = fsum (Z.to_nat m) (fun k => product_at zero add mul m X Y a k *! v k).
  Proof.
    intros Ha. unfold product_at, dot.
    transitivity (fsum (Z.to_nat m) (fun l => fsum (Z.to_nat m) (fun k => X (a * m + l) *! Y (l * m + k) *! v k))).
    - apply fsum_ext. intros l Hl. rewrite <- fsum_mul. apply fsum_ext. intros k Hk. ring.
    - rewrite fsum_swap. apply fsum_ext. intros k Hk.
      transitivity (fsum (Z.to_nat m) (fun l => v k *! (X (a * m + l) *! Y (l * m + k)))).
      + apply fsum_ext. intros; ring.
      + rewrite fsum_mul. ring.
  Qed.
  Lemma sum_id a v : inr a -> fsum (Z.to_nat m) (fun k => idm a k *! v k) = v a.
  Proof.
    intros Ha. rewrite (fsum_ext _ _ (fun k => if k =? a then v a else zero)); [apply fsum_single; lia|].
    intros k Hk. unfold idm. rewrite (Z.eqb_sym k a). destruct (Z.eqb_spec a k) as [->|]; ring.
  Qed.

  Lemma left_inverse_not_singular B : inverse_of zero one add mul m B A0 -> ~ singular.
  Proof.
    intros HB (v & K & i & Hi & Vi). apply Vi. rewrite <- (sum_id i v Hi).
    transitivity (fsum (Z.to_nat m) (fun k => product_at zero add mul m B A0 i k *! v k)).
    { apply fsum_ext. intros k Hk. now rewrite HB by lia. }
    rewrite <- dot_dot by auto. unfold dot at 1.
    rewrite (fsum_ext _ _ (fun _ => zero)); [apply fsum_zero|]. intros k Hk. rewrite K by lia. ring.
  Qed.

  Lemma gauss_invertible B : inverse_of zero one add mul m B A0 ->
    exists res mat', gauss_jordan A m A0 = (true, (res, mat'))
      /\ inverse_of zero one add mul m res A0 /\ inverse_of zero one add mul m A0 res.
  Proof.
    intros HB. pose proof gauss_ok as G. cbv zeta in G.
    destruct (gauss_jordan A m A0) as [[|] [res mat']] eqn:E; cbn [fst snd] in G.
    - exists res, mat'. split; auto. destruct G as [(I1 & I2 & I4) C].
      assert (L : inverse_of zero one add mul m res A0).
      { intros i j Hi Hj. rewrite product_dot, <- I1 by auto. rewrite C by lia. reflexivity. }
      split; auto. intros i j Hi Hj.
      assert (K : kern res (fun k => product_at zero add mul m A0 res k j +! opp (idm k j))).
      { intros a Ha. rewrite dot_ent.
        transitivity (fsum (Z.to_nat m) (fun k => ent res a k *! product_at zero add mul m A0 res k j)
                      +! opp one *! fsum (Z.to_nat m) (fun k => ent res a k *! idm k j)).
        { rewrite <- fsum_mul, <- fsum_add. apply fsum_ext. intros k Hk. ring. }
        pose proof (dot_dot res A0 a (fun k => res (k * m + j)) Ha) as D.
        unfold dot at 1 in D. fold (ent res) in D.
        transitivity (fsum (Z.to_nat m) (fun k => product_at zero add mul m res A0 a k *! res (k * m + j))
            +! opp one *! ent res a j).
        { f_equal; [exact D|]. f_equal. rewrite (fsum_ext _ _ (fun k => if k =? j then ent res a j else zero)); [apply fsum_single; lia|].
          intros k Hk. unfold idm. destruct (Z.eqb_spec k j) as [->|]; ring. }
        rewrite (fsum_ext _ _ (fun k => idm a k *! res (k * m + j))) by (intros k Hk; now rewrite L by lia).
        rewrite (sum_id a (fun k => res (k * m + j)) Ha). unfold ent. ring. }
      specialize (I4 _ K i Hi). cbv beta in I4. change (if i =? j then one else zero) with (idm i j).
      transitivity ((product_at zero add mul m A0 res i j +! opp (idm i j)) +! idm i j); [ring|].
      rewrite I4. ring.
    - exfalso. eapply left_inverse_not_singular; eauto.
  Qed.

  Lemma gauss_singular : (forall B, ~ inverse_of zero one add mul m B A0) ->
    fst (gauss_jordan A m A0) = false /\ singular.
  Proof.
    intros HB. pose proof gauss_ok as G. cbv zeta in G.
    destruct (gauss_jordan A m A0) as [[|] [res mat']] eqn:E; cbn [fst snd] in *; auto.
    exfalso. destruct G as [(I1 & _) C]. apply (HB res). intros i j Hi Hj.
    rewrite product_dot, <- I1 by auto. rewrite C by lia. reflexivity.
  Qed.
End GJ.
