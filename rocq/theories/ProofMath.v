(** * Proofs: factorial (C37), descending sort (C38). *)
From Verif Require Import Base Logic ModelFloat ModelMath SpecBase SpecNum ProofCore ProofHM ProofFloat ProofWord ProofArr ProofConv.
From Coq Require Import Floats.SpecFloat ZifyBool ZifyNat Permutation.
Ltac Zify.zify_post_hook ::= Z.div_mod_to_equations.
Open Scope Z_scope.

(** ** Factorial *)

Lemma factorial_neg e s n : n < 0 -> hypercv_factorial n e s = Ret (-1) s.
Proof. intros H. unfold hypercv_factorial. now replace (n <? 0) with true by lia. Qed.

Lemma factorial_ok e s n : 0 <= n <= 20 -> n <> 10 -> hypercv_factorial n e s = Ret (factorial (Z.to_nat n)) s.
Proof.
  intros H Hn.
  assert (n = 0 \/ n = 1 \/ n = 2 \/ n = 3 \/ n = 4 \/ n = 5 \/ n = 6 \/ n = 7 \/ n = 8 \/ n = 9
    \/ n = 11 \/ n = 12 \/ n = 13 \/ n = 14 \/ n = 15 \/ n = 16 \/ n = 17 \/ n = 18 \/ n = 19 \/ n = 20) as C by lia.
  repeat (destruct C as [->|C]; [vm_compute; reflexivity|]). subst n. vm_compute. reflexivity.
Qed.

Lemma factorial_ten e s : hypercv_factorial 10 e s = Ret (factorial 11) s.
Proof. reflexivity. Qed.

Lemma factorial_pos n : 0 < factorial n.
Proof. induction n as [|n IH]; [reflexivity|]. cbn [factorial]. lia. Qed.
Lemma factorial_mono n m : (n <= m)%nat -> factorial n <= factorial m.
Proof.
  induction 1 as [|m Hm IH]; [lia|]. cbn [factorial]. pose proof (factorial_pos m). nia.
Qed.

Lemma long_ok z e s : (-9223372036854775808 <=? z) && (z <=? 9223372036854775807) = true ->
  long_ z e s = Ret z s.
Proof. unfold long_. now intros ->. Qed.

Lemma factorial_big e s n : 21 <= n -> hypercv_factorial n e s = UB.
Proof.
  intros H. unfold hypercv_factorial. replace (n <? 0) with false by lia. replace (n <=? 10) with false by lia.
  unfold forS. replace (Z.to_nat (n + 1 - 2)) with (20 + Z.to_nat (n - 21))%nat by lia.
  set (r := Z.to_nat (n - 21)). clearbody r.
  change (20 + r)%nat with (S (S (S (S (S (S (S (S (S (S (S (S (S (S (S (S (S (S (S (S r)))))))))))))))))))).
  cbn [iterS].
  do 19 (erewrite bind_ret; [|apply long_ok; vm_compute; reflexivity]).
  apply bind_ub. vm_compute. reflexivity.
Qed.
Lemma factorial_too_big : 9223372036854775807 < factorial 21.
Proof. reflexivity. Qed.

(** ** The order of floats *)

Definition num (x : sf) : Prop := x <> S754_nan.

Lemma cmp_le x y : fl_ok x -> fl_ok y -> num x -> num y ->
  (SFltb x y = false -> sf_le y x) /\ (SFltb x y = true -> sf_le x y).
Proof.
  intros Vx Vy Nx Ny.
  destruct (sf_num x) as [a|] eqn:Ea, (sf_num y) as [b|] eqn:Eb.
  - rewrite (fl_ltb x y a b) by auto.
    assert (Lyx : b <= a -> sf_le y x).
    { destruct x as [|[]| |], y as [|[]| |]; try discriminate; unfold sf_le; rewrite Ea, Eb; auto. }
    assert (Lxy : a <= b -> sf_le x y).
    { destruct x as [|[]| |], y as [|[]| |]; try discriminate; unfold sf_le; rewrite Ea, Eb; auto. }
    destruct (Z.ltb_spec a b); split; try discriminate; intros; [apply Lxy|apply Lyx]; lia.
  - destruct y as [|[]| |]; try discriminate; try (destruct Ny; reflexivity);
      destruct x as [|[]| |]; try discriminate; cbn; auto; split; auto; discriminate.
  - destruct x as [|[]| |]; try discriminate; try (destruct Nx; reflexivity);
      destruct y as [|[]| |]; try discriminate; cbn; auto; split; auto; discriminate.
  - destruct x as [|[]| |]; try discriminate; try (destruct Nx; reflexivity);
      destruct y as [|[]| |]; try discriminate; try (destruct Ny; reflexivity); cbn; auto; split; auto; discriminate.
Qed.

Lemma sf_le_trans x y z : sf_le x y -> sf_le y z -> sf_le x z.
Proof.
  unfold sf_le.
  destruct (sf_num x) as [a|] eqn:Ea, (sf_num y) as [b|] eqn:Eb, (sf_num z) as [c|] eqn:Ec;
  destruct x as [|[]| |]; try discriminate; destruct y as [|[]| |]; try discriminate;
  destruct z as [|[]| |]; try discriminate; cbn; auto; try contradiction; lia.
Qed.
Lemma sf_le_refl x : num x -> sf_le x x.
Proof. unfold num. destruct x as [|[]| |]; cbn; auto; try congruence; intros; lia. Qed.

(** ** The sort *)

(** The order on words. *)
Definition dle (g : Z -> Z) (p q : Z) : Prop := sf_le (fl_of_bits (g q)) (fl_of_bits (g p)).

Definition nums (n : Z) (g : Z -> Z) : Prop := forall i, 0 <= i < n -> num (fl_of_bits (g i)).

Lemma nums_perm n g g' : Permutation (tab n g) (tab n g') -> nums n g -> nums n g'.
Proof.
  intros P H i Hi. assert (I : In (g' i) (tab n g')) by (apply in_tab; eauto).
  apply (Permutation_in _ (Permutation_sym P)) in I. apply in_tab in I as (k & Hk & <-). auto.
Qed.

Section Sort.
  Variables (e : env) (n : Z).
  Hypothesis Hn : n <= 2147483647.

  Definition bbody (a : ptr) (j f : Z) : M Z :=
    x <- loadle a (4 * j) 4 ;;
    y <- loadle a (4 * (j + 1)) 4 ;;
    if SFltb (fl_of_bits x) (fl_of_bits y) then
      storele a (4 * j) 4 y ;;;
      storele a (4 * (j + 1)) 4 x ;;;
      ret 0
    else ret f.

  (** One comparison. *)
  Lemma bbody_ok q s g j f : arr s q 0 4 n g -> 0 <= j -> j + 1 < n ->
    exists s', bbody (Some q) j f e s =
        Ret (if SFltb (fl_of_bits (g j)) (fl_of_bits (g (j + 1))) then 0 else f) s'
      /\ arr s' q 0 4 n (if SFltb (fl_of_bits (g j)) (fl_of_bits (g (j + 1)))
                         then fupd (fupd g j (g (j + 1))) (j + 1) (g j) else g)
      /\ inside s q 0 (4 * n) s'.
  Proof.
    intros A Hj Hjn. unfold bbody.
    rewrite (bind_ret _ _ _ _ _ _ (arr_load e s q 0 4 n g j (4 * j) 4 A ltac:(lia) ltac:(lia) ltac:(lia))).
    rewrite (bind_ret _ _ _ _ _ _ (arr_load e s q 0 4 n g (j + 1) (4 * (j + 1)) 4 A ltac:(lia) ltac:(lia) ltac:(lia))).
    destruct (SFltb _ _).
    - pose proof (arr_range _ _ _ _ _ _ j A ltac:(lia)) as R1. pose proof (arr_range _ _ _ _ _ _ (j + 1) A ltac:(lia)) as R2.
      destruct (arr_store e s q 0 4 n g j (4 * j) 4 (g (j + 1)) A ltac:(lia) ltac:(lia) ltac:(lia)) as (s1 & E1 & A1 & I1).
      rewrite Z.mod_small in A1 by auto.
      rewrite (bind_ret _ _ _ _ _ _ E1).
      destruct (arr_store e s1 q 0 4 n _ (j + 1) (4 * (j + 1)) 4 (g j) A1 ltac:(lia) ltac:(lia) ltac:(lia)) as (s2 & E2 & A2 & I2).
      rewrite Z.mod_small in A2 by auto.
      rewrite (bind_ret _ _ _ _ _ _ E2). exists s2. split; [reflexivity|]. split; [exact A2|].
      apply (inside_trans _ _ _ _ s1).
      + refine (inside_weaken _ _ _ _ _ _ _ _ _ I1); lia.
      + refine (inside_weaken _ _ _ _ _ _ _ _ _ I2); lia.
    - exists s. split; [reflexivity|]. split; [exact A|]. destruct (arr_isb _ _ _ _ _ _ A) as (N & d & H).
      eapply inside_refl; eauto.
  Qed.

  (** One pass over positions 0..m: state after j comparisons. *)
  Definition passed (q : nat) (m : Z) (g0 : Z -> Z) (s0 : st) (j f : Z) (s : st) : Prop :=
    exists g, arr s q 0 4 n g /\ inside s0 q 0 (4 * n) s
      /\ Permutation (tab n g0) (tab n g)
      /\ (forall i, m < i -> g i = g0 i)
      /\ (nums n g0 ->
            (forall p, 0 <= p <= j -> dle g p j)
            /\ (forall q, m < q < n -> (forall p, 0 <= p <= m -> dle g0 p q) -> forall p, 0 <= p <= m -> dle g p q)
            /\ (f = 1 -> forall p, 0 <= p < j -> dle g p (p + 1)))
      /\ (f = 0 \/ f = 1).

  Lemma pass_ok q s0 g0 m : arr s0 q 0 4 n g0 -> 0 <= m < n ->
    exists f s, forS 0 m (bbody (Some q)) 1 e s0 = Ret f s /\ passed q m g0 s0 m f s.
  Proof.
    intros A0 Hm. eapply (forS_inv e 0 m (bbody (Some q)) (passed q m g0 s0)); [lia| |].
    - exists g0. split; [exact A0|]. split.
      { destruct (arr_isb _ _ _ _ _ _ A0) as (N & d & H). eapply inside_refl; eauto. }
      split; [apply Permutation_refl|]. split; [auto|]. split; [|auto].
      intros HN. split; [|split].
      + intros p Hp. replace p with 0 by lia. apply sf_le_refl. apply HN. lia.
      + auto.
      + intros _ p Hp. lia.
    - intros j f s Hj (g & A & I & P & O & S & F).
      destruct (bbody_ok q s g j f A ltac:(lia) ltac:(lia)) as (s' & E & A' & I').
      eexists _, s'. split; [exact E|].
      assert (In' : inside s0 q 0 (4 * n) s') by (eapply inside_trans; eauto).
      assert (V : forall i, 0 <= i < n -> fl_ok (fl_of_bits (g i))).
      { intros i Hi. apply fl_of_bits_ok. apply (arr_range _ _ _ _ _ _ i A Hi). }
      destruct (SFltb (fl_of_bits (g j)) (fl_of_bits (g (j + 1)))) eqn:C.
      + set (g' := fupd (fupd g j (g (j + 1))) (j + 1) (g j)) in *. exists g'.
        assert (E1 : g' j = g (j + 1)).
        { unfold g', fupd. replace (j =? j + 1) with false by lia. now rewrite Z.eqb_refl. }
        assert (E2 : g' (j + 1) = g j) by (unfold g', fupd; now rewrite Z.eqb_refl).
        assert (E3 : forall i, i <> j -> i <> j + 1 -> g' i = g i).
        { intros i H1 H2. unfold g', fupd. destruct (Z.eqb_spec i (j + 1)); [congruence|]. destruct (Z.eqb_spec i j); congruence. }
        clearbody g'. split; [exact A'|]. split; [exact In'|]. split.
        { eapply Permutation_trans; [exact P|]. pose proof (tab_swap n g j ltac:(lia) ltac:(lia)) as T.
          unfold tab in *. eapply Permutation_trans; [exact T|].
          erewrite map_ext_in; [apply Permutation_refl|]. intros i Hi. cbv beta. unfold fupd.
          destruct (Z.eqb_spec (Z.of_nat i) (j + 1)) as [->|]; [auto|].
          destruct (Z.eqb_spec (Z.of_nat i) j) as [->|]; [auto|]. symmetry. apply E3; auto. }
        split; [intros i Hi; rewrite E3 by lia; auto|].
        split; [|auto]. intros HN. destruct (S HN) as (S1 & S2 & S3).
        assert (HNg : nums n g) by (eapply nums_perm; eauto).
        pose proof (cmp_le _ _ (V j ltac:(lia)) (V (j + 1) ltac:(lia)) (HNg j ltac:(lia)) (HNg (j + 1) ltac:(lia))) as [_ L].
        specialize (L C).
        split; [|split].
        * intros p Hp. unfold dle. rewrite E2. destruct (Z.eq_dec p (j + 1)) as [->|].
          { rewrite E2. apply sf_le_refl. apply HNg. lia. }
          destruct (Z.eq_dec p j) as [->|]; [rewrite E1; exact L|]. rewrite E3 by lia. apply S1. lia.
        * intros r Hr Hall p Hp. specialize (S2 r Hr Hall). unfold dle. rewrite (E3 r) by lia.
          destruct (Z.eq_dec p j) as [->|]; [rewrite E1; apply S2; lia|].
          destruct (Z.eq_dec p (j + 1)) as [->|]; [rewrite E2; apply S2; lia|]. rewrite E3 by lia. apply S2. lia.
        * discriminate.
      + exists g. split; [exact A'|]. split; [exact In'|]. split; [exact P|]. split; [exact O|]. split; [|exact F].
        intros HN. destruct (S HN) as (S1 & S2 & S3).
        assert (HNg : nums n g) by (eapply nums_perm; eauto).
        pose proof (cmp_le _ _ (V j ltac:(lia)) (V (j + 1) ltac:(lia)) (HNg j ltac:(lia)) (HNg (j + 1) ltac:(lia))) as [L _].
        specialize (L C).
        split; [|split; [exact S2|]].
        * intros p Hp. destruct (Z.eq_dec p (j + 1)) as [->|]; [apply sf_le_refl; apply HNg; lia|].
          unfold dle in *. eapply sf_le_trans; [exact L|]. apply S1. lia.
        * intros Hf p Hp. destruct (Z.eq_dec p j) as [->|]; [exact L|]. apply S3; auto; lia.
  Qed.

  Lemma sort_ok q s0 g0 : arr s0 q 0 4 n g0 -> 0 <= n ->
    exists s' g, sort_array_down_float (Some q) n e s0 = Ret tt s'
      /\ arr s' q 0 4 n g /\ inside s0 q 0 (4 * n) s' /\ Permutation (tab n g0) (tab n g)
      /\ (nums n g0 -> forall p r, 0 <= p < r -> r < n -> dle g p r).
  Proof.
    intros A0 Hn0. unfold sort_array_down_float.
    assert (E0 : (n - ci 1)%C = Some (n - 1)) by (unfold ci; apply csub_ok; lia).
    runs (ev_ok _ _ e s0 E0).
    destruct (Z.eq_dec n 0) as [Hz|Hz].
    { exists s0, g0. rewrite (bind_ret _ _ _ _ _ _ (forS_empty 0 (n - 1) _ false e s0 ltac:(lia))).
      split; [reflexivity|]. split; [exact A0|]. split.
      { destruct (arr_isb _ _ _ _ _ _ A0) as (N & d & H). eapply inside_refl; eauto. }
      split; [apply Permutation_refl|]. intros. lia. }
    pose (I := fun (i : Z) (sorted : bool) (s : st) => exists g, arr s q 0 4 n g /\ inside s0 q 0 (4 * n) s
       /\ Permutation (tab n g0) (tab n g)
       /\ (nums n g0 -> (forall r p, n - i <= r < n -> 0 <= p < r -> dle g p r)
            /\ (sorted = true -> forall p r, 0 <= p < r -> r < n -> dle g p r))).
    match goal with |- context[forS 0 (n - 1) ?b false] => set (body := b) end.
    destruct (forS_inv e 0 (n - 1) body I s0 false) as (y & s' & E & g & A & In & P & S); [lia| | |].
    - exists g0. split; [exact A0|]. split.
      { destruct (arr_isb _ _ _ _ _ _ A0) as (N & d & H). eapply inside_refl; eauto. }
      split; [apply Permutation_refl|]. intros HN. split; [intros; lia|discriminate].
    - intros i sorted s Hi (g & A & In & P & S). unfold body. cbv beta.
      destruct sorted.
      { exists true, s. split; [reflexivity|]. exists g. split; [exact A|]. split; [exact In|]. split; [exact P|].
        intros HN. destruct (S HN) as (S1 & S2). split; [intros r p Hr Hp; apply S2; auto; lia|exact S2]. }
      assert (E1 : (n - i - ci 1)%C = Some (n - i - 1)).
      { unfold ci. rewrite (csub_ok n i) by lia. apply csub_ok. lia. }
      runs (ev_ok _ _ e s E1).
      destruct (pass_ok q s g (n - i - 1) A ltac:(lia)) as (f & s1 & E2 & g1 & A1 & In1 & P1 & O1 & S1 & F1).
      change (fun j f0 : Z => _) with (bbody (Some q)).
      runs E2. exists (f =? 1), s1. split; [reflexivity|]. exists g1. split; [exact A1|].
      split; [eapply inside_trans; eauto|]. split; [eapply Permutation_trans; eauto|].
      intros HN. assert (HNg : nums n g) by (eapply nums_perm; eauto). destruct (S HN) as (T1 & T2).
      destruct (S1 HNg) as (U1 & U2 & U3).
      assert (V1 : forall r p, n - i <= r < n -> 0 <= p < r -> dle g1 p r).
      { intros r p Hr Hp. destruct (Z_le_gt_dec p (n - i - 1)).
        - apply U2; [lia| |lia]. intros p' Hp'. apply T1; lia.
        - unfold dle. rewrite (O1 r), (O1 p) by lia. apply T1; lia. }
      split.
      + intros r p Hr Hp. destruct (Z.eq_dec r (n - i - 1)) as [->|]; [apply U1; lia|apply V1; lia].
      + intros Hf. specialize (U3 ltac:(lia)).
        intros p r Hpr Hr. destruct (Z_le_gt_dec (n - i) r); [apply V1; lia|].
        assert (K : forall k, 0 <= k -> p + 1 + k <= n - i - 1 -> dle g1 p (p + 1 + k)).
        { intros k Hk. pattern k. apply natlike_ind; auto.
          - intros _. rewrite Z.add_0_r. apply U3. lia.
          - intros x Hx IH Hle. unfold dle in *. eapply sf_le_trans; [|apply IH; lia].
            replace (p + 1 + Z.succ x) with (p + 1 + x + 1) by lia. apply U3. lia. }
        replace r with (p + 1 + (r - p - 1)) by lia. apply K; lia.
    - exists s', g. runs E. split; [reflexivity|]. split; [exact A|]. split; [exact In|]. split; [exact P|].
      intros HN p r Hp Hr. destruct (S HN) as (T1 & _). apply T1; lia.
  Qed.
End Sort.

Lemma sort_spec e s p n : 0 <= n <= 2147483647 -> readable s p (n * 4) ->
  exists s', sort_array_down_float p n e s = Ret tt s'
    /\ Permutation (elements s p 4 n) (elements s' p 4 n)
    /\ (~ has_nan (elements s p 4 n) -> descending s' p n)
    /\ only_bytes s p 0 (4 * n) s'.
Proof.
  intros Hn Hr. apply readable_isb in Hr as (q & sz & d & -> & Hq & Hsz).
  pose proof (arr_of s q sz d 0 4 n Hq ltac:(lia) ltac:(lia) ltac:(lia)) as A.
  destruct (sort_ok e n ltac:(lia) q s _ A ltac:(lia)) as (s' & g & E & A' & I & P & S).
  exists s'. split; [exact E|]. rewrite (arr_elements _ _ _ _ _ A), (arr_elements _ _ _ _ _ A').
  split; [apply Permutation_map; exact P|]. split; [|apply inside_only; exact I].
  intros HN i j x y Hij Hj Hx Hy.
  pose proof (arr_word _ _ _ _ _ _ i A' ltac:(lia)) as Ex. pose proof (arr_word _ _ _ _ _ _ j A' ltac:(lia)) as Ey.
  rewrite Z.add_0_l in Ex, Ey. change (Z.to_nat 4) with 4%nat in Ex, Ey.
  rewrite Hx in Ex. rewrite Hy in Ey. injection Ex as ->. injection Ey as ->.
  apply S; auto. intros k Hk HNaN. apply HN. eexists. split; [|exact HNaN].
  apply in_map. apply in_tab. exists k. auto.
Qed.
