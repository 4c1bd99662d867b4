(** * Proofs: matrix product and transpose (C39). *)
From Verif Require Import Base Logic ModelFloat ModelDouble ModelMatrix SpecBase SpecNum SpecMatrix
  ProofCore ProofHM ProofFloat ProofFloat2 ProofWord ProofArr ProofGrid.
From Coq Require Import ZifyBool ZifyNat Floats.SpecFloat.
Ltac Zify.zify_post_hook ::= Z.div_mod_to_equations.
Open Scope Z_scope.

Lemma sumz_0 f : sumz 0 f = 0. Proof. reflexivity. Qed.
Lemma sumz_S n f : 0 <= n -> sumz (n + 1) f = sumz n f + f n.
Proof.
  intros H. unfold sumz. replace (Z.to_nat (n + 1)) with (S (Z.to_nat n)) by lia. cbn [sum_to].
  now rewrite Z2Nat.id.
Qed.
Lemma foldz_S {T} n (f : T -> Z -> T) a : 0 <= n -> foldz (n + 1) f a = f (foldz n f a) n.
Proof.
  intros H. unfold foldz. replace (Z.to_nat (n + 1)) with (S (Z.to_nat n)) by lia. cbn [fold_to].
  now rewrite Z2Nat.id.
Qed.

Lemma matrix_range s p es r c X i j : 0 < es -> matrix s p es r c X -> 0 <= i < r -> 0 <= j < c -> 0 <= X i j < 256 ^ es.
Proof.
  intros He H Hi Hj. destruct (matrix_arr s p es r c X He ltac:(lia) ltac:(lia) H) as (q & -> & A).
  pose proof (arr_range _ _ _ _ _ _ (i * c + j) A (cell_range r c i j Hi Hj)) as R. cbv beta in R.
  now rewrite cell_div, cell_mod in R by lia.
Qed.

Lemma loadle_cell e s q es r c X i j off : arr s q 0 es (r * c) (fun t => X (t / c) (t mod c)) -> 0 < es ->
  0 <= i < r -> 0 <= j < c -> off = (i * c + j) * es -> loadle (Some q) off (Z.to_nat es) e s = Ret (X i j) s.
Proof.
  intros A He Hi Hj ->. rewrite (arr_load e s q 0 es (r * c) _ (i * c + j) _ _ A (cell_range r c i j Hi Hj)); [|lia|lia].
  now rewrite cell_div, cell_mod by lia.
Qed.

Lemma only_refl s p lo hi : only_bytes s p lo hi s.
Proof. split; [auto|]. split; [auto|]. split; [intros k _ _; auto|]. auto. Qed.

Lemma ev_cell e s m n i j : 0 <= i < m -> 0 <= j < n -> m * n <= 2147483647 ->
  ev (i * n + j)%C e s = Ret (i * n + j) s.
Proof.
  intros Hi Hj B. pose proof (cell_range m n i j Hi Hj). apply ev_ok. unfold ci.
  rewrite cmul_ok, cadd_ok; [reflexivity|nia|nia].
Qed.

Section Mul.
  Variables (es : Z) (mac : Z -> Z -> Z -> option Z).
  Hypothesis Hes : 0 < es.
  Variables (e : env) (s : st) (x y z : ptr) (m k n : Z) (X Y W : Z -> Z -> Z) (P : Z -> Z -> Z -> Z).
  Hypotheses (Hm : 0 <= m) (Hk : 0 <= k) (Hn : 0 <= n).
  Hypotheses (Bmk : m * k <= 2147483647) (Bkn : k * n <= 2147483647) (Bmn : m * n <= 2147483647).
  Hypotheses (Hx : matrix s x es m k X) (Hy : matrix s y es k n Y) (Hz : matrix s z es m n W).
  Hypotheses (Hxz : x <> z) (Hyz : y <> z).
  Hypothesis P0 : forall i j, 0 <= i < m -> 0 <= j < n -> P i j 0 = W i j.
  Hypothesis PS : forall i j t, 0 <= i < m -> 0 <= j < n -> 0 <= t < k ->
    exists r, mac (P i j t) (X i t) (Y t j) = Some r /\ r mod 256 ^ es = P i j (t + 1).

  Lemma mul_run : exists s', MulMatrix_with es mac x y z m k n e s = Ret tt s'
    /\ matrix s' z es m n (fun i j => P i j k) /\ only_bytes s z 0 (m * n * es) s'.
  Proof.
    destruct (Z.eq_dec m 0) as [->|Hm0].
    { exists s. split; [reflexivity|]. split; [intros i j Hi; lia|apply only_refl]. }
    destruct (Z.eq_dec n 0) as [->|Hn0].
    { exists s. split; [|split; [intros i j Hi Hj; lia|apply only_refl]].
      unfold MulMatrix_with. destruct (for_inv e 0 m (fun nm => for_ 0 0 (fun nn => for_ 0 k (fun nk =>
        zi <- ev (nm * 0 + nn)%C ;; xi <- ev (nm * k + nk)%C ;; yi <- ev (nk * 0 + nn)%C ;;
        a <- loadle x (xi * es) (Z.to_nat es) ;; b <- loadle y (yi * es) (Z.to_nat es) ;;
        c <- loadle z (zi * es) (Z.to_nat es) ;; r <- ev (mac c a b) ;;
        storele z (zi * es) (Z.to_nat es) r))) (fun _ s1 => s1 = s) s) as (s' & E & ->); auto.
      intros i s1 _ ->. exists s. split; reflexivity. }
    destruct (matrix_arr s z es m n W Hes ltac:(lia) ltac:(lia) Hz) as (qz & -> & Az).
    set (g := fun t => W (t / n) (t mod n)) in Az. set (h := fun t => P (t / n) (t mod n) k).
    destruct (grid_run e s qz es m n g h (fun nm nn => for_ 0 k (fun nk =>
        zi <- ev (nm * n + nn)%C ;; xi <- ev (nm * k + nk)%C ;; yi <- ev (nk * n + nn)%C ;;
        a <- loadle x (xi * es) (Z.to_nat es) ;; b <- loadle y (yi * es) (Z.to_nat es) ;;
        c <- loadle (Some qz) (zi * es) (Z.to_nat es) ;; r <- ev (mac c a b) ;;
        storele (Some qz) (zi * es) (Z.to_nat es) r)) Hm Hn Az)
      as (s' & E & A' & I'); [|exists s'; split; [exact E|]; split; [apply arr_matrix; exact A'|apply inside_only; exact I']].
    intros i j s1 Hi Hj A1 I1. set (t0 := i * n + j) in *.
    assert (Ht0 : 0 <= t0 < m * n) by (apply cell_range; auto).
    destruct (for_inv e 0 k (fun nk =>
        zi <- ev (i * n + j)%C ;; xi <- ev (i * k + nk)%C ;; yi <- ev (nk * n + j)%C ;;
        a <- loadle x (xi * es) (Z.to_nat es) ;; b <- loadle y (yi * es) (Z.to_nat es) ;;
        c <- loadle (Some qz) (zi * es) (Z.to_nat es) ;; r <- ev (mac c a b) ;;
        storele (Some qz) (zi * es) (Z.to_nat es) r)
      (fun t s2 => arr s2 qz 0 es (m * n) (fupd (upto t0 h g) t0 (P i j t)) /\ inside s1 qz 0 (m * n * es) s2) s1)
      as (s2 & E2 & A2 & I2).
    - lia.
    - split.
      + eapply arr_ext; [|exact A1]. intros r Hr. unfold fupd. destruct (Z.eqb_spec r t0) as [->|]; auto.
        rewrite upto_le by lia. unfold g. unfold t0. rewrite cell_div, cell_mod by lia. symmetry. apply P0; auto.
      + destruct (arr_isb _ _ _ _ _ _ A1) as (N & d & Hd). eapply inside_refl; eauto.
    - intros t s2 Ht [A2 I2].
      assert (Hk0 : 0 < k) by lia.
      destruct (matrix_arr s x es m k X Hes ltac:(lia) ltac:(lia) Hx) as (qx & Ex & Ax).
      destruct (matrix_arr s y es k n Y Hes ltac:(lia) ltac:(lia) Hy) as (qy & Ey & Ay).
      rewrite Ex, Ey in *.
      assert (I02 : inside s qz 0 (m * n * es) s2) by (eapply inside_trans; eauto).
      apply (arr_inside _ _ _ _ _ qx _ _ _ _ I02) in Ax; [|left; congruence].
      apply (arr_inside _ _ _ _ _ qy _ _ _ _ I02) in Ay; [|left; congruence].
      pose proof (cell_range m k i t Hi Ht). pose proof (cell_range k n t j Ht Hj).
      rewrite (bind_ret _ _ _ _ _ _ (ev_cell e s2 m n i j Hi Hj Bmn)). fold t0.
      rewrite (bind_ret _ _ _ _ _ _ (ev_cell e s2 m k i t Hi Ht Bmk)).
      rewrite (bind_ret _ _ _ _ _ _ (ev_cell e s2 k n t j Ht Hj Bkn)).
      rewrite (bind_ret _ _ _ _ _ _ (loadle_cell e s2 qx es m k X i t _ Ax Hes Hi Ht eq_refl)).
      rewrite (bind_ret _ _ _ _ _ _ (loadle_cell e s2 qy es k n Y t j _ Ay Hes Ht Hj eq_refl)).
      rewrite (bind_ret _ _ _ _ _ _ (arr_load e s2 qz 0 es (m * n) _ t0 (t0 * es) (Z.to_nat es) A2 Ht0 ltac:(lia) ltac:(lia))).
      unfold fupd at 1. rewrite Z.eqb_refl.
      destruct (PS i j t Hi Hj Ht) as (r & Er & Pr).
      rewrite (bind_ret _ _ _ _ _ _ (ev_ok _ r e s2 Er)).
      destruct (arr_store e s2 qz 0 es (m * n) _ t0 (t0 * es) (Z.to_nat es) r A2 Ht0 ltac:(lia) ltac:(lia)) as (s3 & E3 & A3 & I3).
      exists s3. split; [exact E3|]. rewrite Pr in A3. split.
      + eapply arr_ext; [|exact A3]. intros u Hu. unfold fupd. destruct (Z.eqb_spec u t0); auto.
      + eapply inside_trans; [exact I2|]. refine (inside_weaken _ _ _ _ _ _ _ _ _ I3); clearbody t0; clear - Ht0 Hes; nia.
    - exists s2. split; [exact E2|]. split; [|exact I2]. eapply upto_step; [exact A2|].
      unfold h, t0. now rewrite cell_div, cell_mod by lia.
  Qed.
End Mul.

(** ** Wrapping types *)
Lemma promoted_ok dec c a b : int_range (dec a * dec b) -> int_range (dec c + dec a * dec b) ->
  mac_promoted dec c a b = Some (dec c + dec a * dec b).
Proof. unfold int_range. intros H1 H2. unfold mac_promoted, ci. rewrite cmul_ok, cadd_ok by lia. reflexivity. Qed.

Lemma sgn_mod n w : 0 < n -> exists q, sgn n w = w + q * 2 ^ n.
Proof.
  intros Hn. assert (0 < 2 ^ n) by (apply Z.pow_pos_nonneg; lia). unfold sgn. cbv zeta.
  pose proof (Z.div_mod w (2 ^ n) ltac:(lia)).
  destruct (w mod 2 ^ n <? 2 ^ (n - 1)); [exists (- (w / 2 ^ n))|exists (- (w / 2 ^ n) - 1)]; nia.
Qed.
Lemma sgn_range n w : 0 < n -> - 2 ^ (n - 1) <= sgn n w < 2 ^ (n - 1).
Proof.
  intros Hn. assert (E : 2 ^ n = 2 * 2 ^ (n - 1)) by (rewrite <- Z.pow_succ_r by lia; f_equal; lia).
  assert (0 < 2 ^ (n - 1)) by (apply Z.pow_pos_nonneg; lia).
  unfold sgn. cbv zeta. pose proof (Z.mod_pos_bound w (2 ^ n) ltac:(lia)).
  destruct (Z.ltb_spec (w mod 2 ^ n) (2 ^ (n - 1))); lia.
Qed.

Lemma mod_add_mul M c a b c' a' b' : 0 < M -> (exists q, c' = c + q * M) -> (exists q, a' = a + q * M) ->
  (exists q, b' = b + q * M) -> (c' + a' * b') mod M = (c + a * b) mod M.
Proof.
  intros HM [q1 ->] [q2 ->] [q3 ->].
  replace (c + q1 * M + (a + q2 * M) * (b + q3 * M)) with (c + a * b + (q1 + a * q3 + q2 * b + q2 * q3 * M) * M) by ring.
  apply Z.mod_add. lia.
Qed.

Definition wrapping : list (Z * (ptr -> ptr -> ptr -> Z -> Z -> Z -> M unit)) :=
  [ (1, MulMatrix_char); (1, MulMatrix_uchar); (2, MulMatrix_short); (4, MulMatrix_uint) ].

Lemma mul_wrap_gen es mac e s x y z m k n X Y W : 0 < es ->
  0 <= m -> 0 <= k -> 0 <= n -> m * k <= 2147483647 -> k * n <= 2147483647 -> m * n <= 2147483647 ->
  matrix s x es m k X -> matrix s y es k n Y -> matrix s z es m n W -> x <> z -> y <> z ->
  (forall c a b, 0 <= c < 256 ^ es -> 0 <= a < 256 ^ es -> 0 <= b < 256 ^ es ->
     exists r, mac c a b = Some r /\ r mod 256 ^ es = (c + a * b) mod 256 ^ es) ->
  exists s', MulMatrix_with es mac x y z m k n e s = Ret tt s'
    /\ matrix s' z es m n (fun i j => (W i j + sumz k (fun t => X i t * Y t j)) mod 256 ^ es)
    /\ only_bytes s z 0 (m * n * es) s'.
Proof.
  intros He Hm Hk Hn B1 B2 B3 Hx Hy Hz N1 N2 Hmac.
  assert (P : 0 < 256 ^ es) by (apply Z.pow_pos_nonneg; lia).
  apply (mul_run es mac He e s x y z m k n X Y W
    (fun i j t => (W i j + sumz t (fun t => X i t * Y t j)) mod 256 ^ es)); auto.
  - intros i j Hi Hj. rewrite sumz_0, Z.add_0_r. apply Z.mod_small. eapply matrix_range; eauto.
  - intros i j t Hi Hj Ht.
    destruct (Hmac ((W i j + sumz t (fun t => X i t * Y t j)) mod 256 ^ es) (X i t) (Y t j)) as (r & E & R).
    + apply Z.mod_pos_bound; auto.
    + eapply matrix_range; eauto.
    + eapply matrix_range; eauto.
    + exists r. split; auto. rewrite R, sumz_S by lia. rewrite Z.add_mod_idemp_l by lia. f_equal. ring.
Qed.

Lemma mul_wrap e s x y z m k n X Y W es f : In (es, f) wrapping ->
  0 <= m -> 0 <= k -> 0 <= n -> m * k <= 2147483647 -> k * n <= 2147483647 -> m * n <= 2147483647 ->
  matrix s x es m k X -> matrix s y es k n Y -> matrix s z es m n W -> x <> z -> y <> z ->
  exists s', f x y z m k n e s = Ret tt s'
    /\ matrix s' z es m n (fun i j => (W i j + sumz k (fun t => X i t * Y t j)) mod 256 ^ es)
    /\ only_bytes s z 0 (m * n * es) s'.
Proof.
  intros Hin. unfold wrapping in Hin. cbn [In] in Hin.
  destruct Hin as [E|[E|[E|[E|[]]]]]; injection E as <- <-; intros;
    apply mul_wrap_gen with (X := X) (Y := Y); auto; try lia; intros c a b Hc Ha Hb.
  - assert (G : forall w, int_range (sgn 8 w * sgn 8 w) /\ -128 <= sgn 8 w <= 127).
    { intros w. pose proof (sgn_range 8 w ltac:(lia)) as R. change (2 ^ (8 - 1)) with 128 in R. unfold int_range. nia. }
    eexists. split; [apply promoted_ok|].
    + pose proof (G a). pose proof (G b). unfold int_range. nia.
    + pose proof (G a). pose proof (G b). pose proof (G c). unfold int_range. nia.
    + change (256 ^ 1) with (2 ^ 8). apply mod_add_mul; [lia| | |]; apply sgn_mod; lia.
  - change (256 ^ 1) with 256 in *. eexists. split; [apply promoted_ok; unfold int_range; nia|reflexivity].
  - assert (G : forall w, -32768 <= sgn 16 w <= 32767).
    { intros w. pose proof (sgn_range 16 w ltac:(lia)) as R. change (2 ^ (16 - 1)) with 32768 in R. lia. }
    eexists. split; [apply promoted_ok|].
    + pose proof (G a). pose proof (G b). unfold int_range. nia.
    + pose proof (G a). pose proof (G b). pose proof (G c). unfold int_range. nia.
    + change (256 ^ 2) with (2 ^ 16). apply mod_add_mul; [lia| | |]; apply sgn_mod; lia.
  - change (256 ^ 4) with 4294967296 in *. eexists. split; [reflexivity|]. unfold u32.
    rewrite Z.mod_mod by lia. now rewrite Z.add_mod_idemp_r by lia.
Qed.

(** ** int and unsigned short: the promoted computation may overflow *)
Lemma signed_sgn w : 0 <= w < 4294967296 -> signed_word 4 w = sgn 32 w.
Proof.
  intros H. unfold signed_word, sgn. change (8 * 4) with 32. change (2 ^ 32) with 4294967296.
  cbv zeta. now rewrite Z.mod_small by lia.
Qed.
Lemma sgn_id z : int_range z -> sgn 32 (z mod 4294967296) = z.
Proof.
  unfold int_range. intros H. unfold sgn. cbv zeta. change (2 ^ 32) with 4294967296. change (2 ^ (32 - 1)) with 2147483648.
  rewrite Z.mod_mod by lia. destruct (Z.ltb_spec (z mod 4294967296) 2147483648); lia.
Qed.

Lemma mulm_int e s x y z m k n X Y W :
  0 <= m -> 0 <= k -> 0 <= n -> m * k <= 2147483647 -> k * n <= 2147483647 -> m * n <= 2147483647 ->
  matrix s x 4 m k X -> matrix s y 4 k n Y -> matrix s z 4 m n W -> x <> z -> y <> z ->
  (forall i j t, 0 <= i < m -> 0 <= j < n -> 0 <= t < k ->
     int_range (signed_word 4 (X i t) * signed_word 4 (Y t j))
     /\ int_range (signed_word 4 (W i j) + sumz (t + 1) (fun t => signed_word 4 (X i t) * signed_word 4 (Y t j)))) ->
  exists s' V, MulMatrix_int x y z m k n e s = Ret tt s'
    /\ matrix s' z 4 m n V
    /\ (forall i j, 0 <= i < m -> 0 <= j < n ->
          signed_word 4 (V i j) = signed_word 4 (W i j) + sumz k (fun t => signed_word 4 (X i t) * signed_word 4 (Y t j)))
    /\ only_bytes s z 0 (m * n * 4) s'.
Proof.
  intros Hm Hk Hn B1 B2 B3 Hx Hy Hz N1 N2 Ho.
  set (v := fun i j t => signed_word 4 (W i j) + sumz t (fun t => signed_word 4 (X i t) * signed_word 4 (Y t j))).
  assert (R : forall p r c U i j, matrix s p 4 r c U -> 0 <= i < r -> 0 <= j < c -> 0 <= U i j < 4294967296).
  { intros p r c U i j HU Hi Hj. pose proof (matrix_range s p 4 r c U i j ltac:(lia) HU Hi Hj) as R.
    change (256 ^ 4) with 4294967296 in R. lia. }
  assert (V0 : forall i j, 0 <= i < m -> 0 <= j < n -> int_range (v i j 0)).
  { intros i j Hi Hj. unfold v. rewrite sumz_0, Z.add_0_r, signed_sgn by (eapply R; eauto).
    pose proof (sgn_range 32 (W i j) ltac:(lia)) as G. change (2 ^ (32 - 1)) with 2147483648 in G. unfold int_range. lia. }
  assert (Vt : forall i j t, 0 <= i < m -> 0 <= j < n -> 0 <= t <= k -> int_range (v i j t)).
  { intros i j t Hi Hj Ht. destruct (Z.eq_dec t 0) as [->|]; [apply V0; auto|].
    destruct (Ho i j (t - 1)) as [_ O]; auto; [lia|]. replace (t - 1 + 1) with t in O by lia. exact O. }
  destruct (mul_run 4 (mac_promoted (sgn 32)) ltac:(lia) e s x y z m k n X Y W (fun i j t => v i j t mod 4294967296))
    as (s' & E & M & O); auto.
  - intros i j Hi Hj. pose proof (R _ _ _ _ _ _ Hz Hi Hj) as Rw. unfold v. rewrite sumz_0, Z.add_0_r.
    unfold signed_word. change (2 ^ (8 * 4 - 1)) with 2147483648. change (2 ^ (8 * 4)) with 4294967296.
    destruct (Z.ltb_spec (W i j) 2147483648); lia.
  - intros i j t Hi Hj Ht. destruct (Ho i j t Hi Hj Ht) as [O1 O2].
    rewrite !signed_sgn in O1 by (eapply R; eauto).
    exists (v i j (t + 1)). split; [|reflexivity].
    rewrite promoted_ok; rewrite ?sgn_id by (apply Vt; auto; lia).
    + f_equal. unfold v. rewrite sumz_S by lia. rewrite !(signed_sgn (X i t)), !(signed_sgn (Y t j)) by (eapply R; eauto). ring.
    + exact O1.
    + unfold v in *. rewrite sumz_S in O2 by lia.
      rewrite (signed_sgn (X i t)), (signed_sgn (Y t j)) in O2 by (eapply R; eauto).
      unfold int_range in *. lia.
  - exists s', (fun i j => v i j k mod 4294967296). split; [exact E|]. split; [exact M|]. split; [|exact O].
    intros i j Hi Hj. rewrite signed_sgn by (apply Z.mod_pos_bound; lia). rewrite sgn_id by (apply Vt; auto; lia). reflexivity.
Qed.

Lemma mul_ushort e s x y z m k n X Y W :
  0 <= m -> 0 <= k -> 0 <= n -> m * k <= 2147483647 -> k * n <= 2147483647 -> m * n <= 2147483647 ->
  matrix s x 2 m k X -> matrix s y 2 k n Y -> matrix s z 2 m n W -> x <> z -> y <> z ->
  (forall i j t, 0 <= i < m -> 0 <= j < n -> 0 <= t < k -> X i t * Y t j + 65535 <= 2147483647) ->
  exists s', MulMatrix_ushort x y z m k n e s = Ret tt s'
    /\ matrix s' z 2 m n (fun i j => (W i j + sumz k (fun t => X i t * Y t j)) mod 256 ^ 2)
    /\ only_bytes s z 0 (m * n * 2) s'.
Proof.
  intros Hm Hk Hn B1 B2 B3 Hx Hy Hz N1 N2 Ho. change (256 ^ 2) with 65536.
  apply (mul_run 2 (mac_promoted (fun w => w)) ltac:(lia) e s x y z m k n X Y W
    (fun i j t => (W i j + sumz t (fun t => X i t * Y t j)) mod 65536)); auto.
  - intros i j Hi Hj. rewrite sumz_0, Z.add_0_r. apply Z.mod_small.
    pose proof (matrix_range s z 2 m n W i j ltac:(lia) Hz Hi Hj) as R. change (256 ^ 2) with 65536 in R. lia.
  - intros i j t Hi Hj Ht. specialize (Ho i j t Hi Hj Ht).
    pose proof (matrix_range s x 2 m k X i t ltac:(lia) Hx Hi Ht) as R1.
    pose proof (matrix_range s y 2 k n Y t j ltac:(lia) Hy Ht Hj) as R2.
    eexists. split; [apply promoted_ok; unfold int_range|].
    + nia.
    + assert (0 <= X i t * Y t j) by nia. lia.
    + change (256 ^ 2) with 65536. rewrite sumz_S by lia. rewrite Z.add_mod_idemp_l by lia. f_equal. ring.
Qed.

(** ** Floats and doubles: the operations in the order of the index *)
Lemma mul_float e s x y z m k n X Y W :
  0 <= m -> 0 <= k -> 0 <= n -> m * k <= 2147483647 -> k * n <= 2147483647 -> m * n <= 2147483647 ->
  matrix s x 4 m k X -> matrix s y 4 k n Y -> matrix s z 4 m n W -> x <> z -> y <> z ->
  exists s' V, MulMatrix_float x y z m k n e s = Ret tt s'
    /\ matrix s' z 4 m n V
    /\ (forall i j, 0 <= i < m -> 0 <= j < n ->
          fl_of_bits (V i j) = foldz k (fun a t => fl_add a (fl_mul (fl_of_bits (X i t)) (fl_of_bits (Y t j)))) (fl_of_bits (W i j)))
    /\ only_bytes s z 0 (m * n * 4) s'.
Proof.
  intros Hm Hk Hn B1 B2 B3 Hx Hy Hz N1 N2.
  set (a := fun i j t => foldz t (fun a t => fl_add a (fl_mul (fl_of_bits (X i t)) (fl_of_bits (Y t j)))) (fl_of_bits (W i j))).
  assert (R : forall p r c U i j, matrix s p 4 r c U -> 0 <= i < r -> 0 <= j < c -> 0 <= U i j < 4294967296).
  { intros p r c U i j HU Hi Hj. pose proof (matrix_range s p 4 r c U i j ltac:(lia) HU Hi Hj) as R.
    change (256 ^ 4) with 4294967296 in R. lia. }
  assert (V : forall i j t, 0 <= i < m -> 0 <= j < n -> 0 <= t <= k -> fl_ok (a i j t)).
  { intros i j t Hi Hj Ht. destruct Ht as [Ht0 Ht]. revert Ht. pattern t. apply natlike_ind; auto.
    - intros _. apply fl_of_bits_ok. eapply R; eauto.
    - intros u Hu IH Hle. unfold Z.succ in *. unfold a. rewrite foldz_S by lia. apply fl_add_ok; [apply IH; lia|].
      apply fl_mul_ok; apply fl_of_bits_ok; eapply R; eauto; lia. }
  set (b := fun i j t => if t =? 0 then W i j else bits_of_fl (a i j t)).
  assert (Vb : forall i j t, 0 <= i < m -> 0 <= j < n -> 0 <= t <= k -> fl_of_bits (b i j t) = a i j t).
  { intros i j t Hi Hj Ht. unfold b. destruct (Z.eqb_spec t 0) as [->|]; [reflexivity|]. apply fl_bits_fl. apply V; auto. }
  destruct (mul_run 4 mac_float ltac:(lia) e s x y z m k n X Y W b) as (s' & E & Ma & O); auto.
  - intros i j t Hi Hj Ht. eexists. split; [reflexivity|]. rewrite Vb by (auto; lia).
    unfold b. replace (t + 1 =? 0) with false by lia. unfold a at 2. rewrite foldz_S by lia. fold (a i j t).
    change (256 ^ 4) with 4294967296. apply Z.mod_small. apply bits_of_fl_range.
    pose proof (V i j (t + 1) Hi Hj ltac:(lia)) as Q. unfold a in Q. rewrite foldz_S in Q by lia. exact Q.
  - eexists s', _. split; [exact E|]. split; [exact Ma|]. split; [|exact O].
    intros i j Hi Hj. rewrite Vb by (auto; lia). reflexivity.
Qed.

Lemma mul_double e s x y z m k n X Y W :
  0 <= m -> 0 <= k -> 0 <= n -> m * k <= 2147483647 -> k * n <= 2147483647 -> m * n <= 2147483647 ->
  matrix s x 8 m k X -> matrix s y 8 k n Y -> matrix s z 8 m n W -> x <> z -> y <> z ->
  exists s' V, MulMatrix_double x y z m k n e s = Ret tt s'
    /\ matrix s' z 8 m n V
    /\ (forall i j, 0 <= i < m -> 0 <= j < n ->
          db_of_bits (V i j) = foldz k (fun a t => db_add a (db_mul (db_of_bits (X i t)) (db_of_bits (Y t j)))) (db_of_bits (W i j)))
    /\ only_bytes s z 0 (m * n * 8) s'.
Proof.
  intros Hm Hk Hn B1 B2 B3 Hx Hy Hz N1 N2.
  set (a := fun i j t => foldz t (fun a t => db_add a (db_mul (db_of_bits (X i t)) (db_of_bits (Y t j)))) (db_of_bits (W i j))).
  assert (R : forall p r c U i j, matrix s p 8 r c U -> 0 <= i < r -> 0 <= j < c -> 0 <= U i j < 18446744073709551616).
  { intros p r c U i j HU Hi Hj. pose proof (matrix_range s p 8 r c U i j ltac:(lia) HU Hi Hj) as R.
    change (256 ^ 8) with 18446744073709551616 in R. lia. }
  assert (V : forall i j t, 0 <= i < m -> 0 <= j < n -> 0 <= t <= k -> db_ok (a i j t)).
  { intros i j t Hi Hj Ht. destruct Ht as [Ht0 Ht]. revert Ht. pattern t. apply natlike_ind; auto.
    - intros _. apply db_of_bits_ok. eapply R; eauto.
    - intros u Hu IH Hle. unfold Z.succ in *. unfold a. rewrite foldz_S by lia. apply db_add_ok; [apply IH; lia|].
      apply db_mul_ok; apply db_of_bits_ok; eapply R; eauto; lia. }
  set (b := fun i j t => if t =? 0 then W i j else bits_of_db (a i j t)).
  assert (Vb : forall i j t, 0 <= i < m -> 0 <= j < n -> 0 <= t <= k -> db_of_bits (b i j t) = a i j t).
  { intros i j t Hi Hj Ht. unfold b. destruct (Z.eqb_spec t 0) as [->|]; [reflexivity|]. apply db_bits_db. apply V; auto. }
  destruct (mul_run 8 mac_double ltac:(lia) e s x y z m k n X Y W b) as (s' & E & Ma & O); auto.
  - intros i j t Hi Hj Ht. eexists. split; [reflexivity|]. rewrite Vb by (auto; lia).
    unfold b. replace (t + 1 =? 0) with false by lia. unfold a at 2. rewrite foldz_S by lia. fold (a i j t).
    change (256 ^ 8) with 18446744073709551616. apply Z.mod_small. apply bits_of_db_range.
    pose proof (V i j (t + 1) Hi Hj ltac:(lia)) as Q. unfold a in Q. rewrite foldz_S in Q by lia. exact Q.
  - eexists s', _. split; [exact E|]. split; [exact Ma|]. split; [|exact O].
    intros i j Hi Hj. rewrite Vb by (auto; lia). reflexivity.
Qed.

(** Exactness for integers: no rounding as long as products and partial sums
    stay within the precision. *)
Lemma foldz_float_int k (x y : Z -> sf) (X Y : Z -> Z) w W : 0 <= k -> isint 24 128 w W ->
  (forall t, 0 <= t < k -> isint 24 128 (x t) (X t) /\ isint 24 128 (y t) (Y t)
     /\ Z.abs (X t * Y t) <= 16777216 /\ Z.abs (W + sumz (t + 1) (fun t => X t * Y t)) <= 16777216) ->
  isint 24 128 (foldz k (fun a t => fl_add a (fl_mul (x t) (y t))) w) (W + sumz k (fun t => X t * Y t)).
Proof.
  intros Hk Hw. pattern k. apply natlike_ind; auto.
  - intros _. now rewrite sumz_0, Z.add_0_r.
  - intros u Hu IH H. unfold Z.succ in *. rewrite foldz_S by lia. destruct (H u ltac:(lia)) as (H1 & H2 & H3 & H4).
    rewrite sumz_S in * by lia. rewrite Z.add_assoc. apply add_int; try lia.
    + apply IH. intros t Ht. apply H. lia.
    + apply mul_int; try lia; auto.
Qed.
Lemma foldz_double_int k (x y : Z -> sf) (X Y : Z -> Z) w W : 0 <= k -> isint 53 1024 w W ->
  (forall t, 0 <= t < k -> isint 53 1024 (x t) (X t) /\ isint 53 1024 (y t) (Y t)
     /\ Z.abs (X t * Y t) <= 9007199254740992 /\ Z.abs (W + sumz (t + 1) (fun t => X t * Y t)) <= 9007199254740992) ->
  isint 53 1024 (foldz k (fun a t => db_add a (db_mul (x t) (y t))) w) (W + sumz k (fun t => X t * Y t)).
Proof.
  intros Hk Hw. pattern k. apply natlike_ind; auto.
  - intros _. now rewrite sumz_0, Z.add_0_r.
  - intros u Hu IH H. unfold Z.succ in *. rewrite foldz_S by lia. destruct (H u ltac:(lia)) as (H1 & H2 & H3 & H4).
    rewrite sumz_S in * by lia. rewrite Z.add_assoc. apply add_int; try lia.
    + apply IH. intros t Ht. apply H. lia.
    + apply mul_int; try lia; auto.
Qed.

Lemma mul_float_int e s x y z m k n X Y W X' Y' W' :
  0 <= m -> 0 <= k -> 0 <= n -> m * k <= 2147483647 -> k * n <= 2147483647 -> m * n <= 2147483647 ->
  matrix s x 4 m k X -> matrix s y 4 k n Y -> matrix s z 4 m n W -> x <> z -> y <> z ->
  (forall i t, 0 <= i < m -> 0 <= t < k -> float_int (X i t) (X' i t)) ->
  (forall t j, 0 <= t < k -> 0 <= j < n -> float_int (Y t j) (Y' t j)) ->
  (forall i j, 0 <= i < m -> 0 <= j < n -> float_int (W i j) (W' i j)) ->
  (forall i j t, 0 <= i < m -> 0 <= j < n -> 0 <= t < k ->
     Z.abs (X' i t * Y' t j) <= 16777216
     /\ Z.abs (W' i j + sumz (t + 1) (fun t => X' i t * Y' t j)) <= 16777216) ->
  exists s' V, MulMatrix_float x y z m k n e s = Ret tt s'
    /\ matrix s' z 4 m n V
    /\ (forall i j, 0 <= i < m -> 0 <= j < n -> float_int (V i j) (W' i j + sumz k (fun t => X' i t * Y' t j)))
    /\ only_bytes s z 0 (m * n * 4) s'.
Proof.
  intros Hm Hk Hn B1 B2 B3 Hx Hy Hz N1 N2 Ix Iy Iz Ho.
  destruct (mul_float e s x y z m k n X Y W) as (s' & V & E & Ma & HV & O); auto.
  exists s', V. split; [exact E|]. split; [exact Ma|]. split; [|exact O].
  intros i j Hi Hj. unfold float_int. rewrite HV by auto.
  assert (R : forall p r c U i j z, matrix s p 4 r c U -> 0 <= i < r -> 0 <= j < c -> float_int (U i j) z -> isint 24 128 (fl_of_bits (U i j)) z).
  { intros p r c U i0 j0 z0 HU Hi0 Hj0 Q. split; [|exact Q]. apply fl_of_bits_ok.
    pose proof (matrix_range s p 4 r c U i0 j0 ltac:(lia) HU Hi0 Hj0) as R. change (256 ^ 4) with 4294967296 in R. lia. }
  apply (foldz_float_int k (fun t => fl_of_bits (X i t)) (fun t => fl_of_bits (Y t j)) (X' i) (fun t => Y' t j)); auto.
  - eapply R; eauto.
  - intros t Ht. split; [eapply R; eauto|]. split; [eapply (R y); eauto|]. apply Ho; auto.
Qed.
Lemma mul_double_int e s x y z m k n X Y W X' Y' W' :
  0 <= m -> 0 <= k -> 0 <= n -> m * k <= 2147483647 -> k * n <= 2147483647 -> m * n <= 2147483647 ->
  matrix s x 8 m k X -> matrix s y 8 k n Y -> matrix s z 8 m n W -> x <> z -> y <> z ->
  (forall i t, 0 <= i < m -> 0 <= t < k -> double_int (X i t) (X' i t)) ->
  (forall t j, 0 <= t < k -> 0 <= j < n -> double_int (Y t j) (Y' t j)) ->
  (forall i j, 0 <= i < m -> 0 <= j < n -> double_int (W i j) (W' i j)) ->
  (forall i j t, 0 <= i < m -> 0 <= j < n -> 0 <= t < k ->
     Z.abs (X' i t * Y' t j) <= 9007199254740992
     /\ Z.abs (W' i j + sumz (t + 1) (fun t => X' i t * Y' t j)) <= 9007199254740992) ->
  exists s' V, MulMatrix_double x y z m k n e s = Ret tt s'
    /\ matrix s' z 8 m n V
    /\ (forall i j, 0 <= i < m -> 0 <= j < n -> double_int (V i j) (W' i j + sumz k (fun t => X' i t * Y' t j)))
    /\ only_bytes s z 0 (m * n * 8) s'.
Proof.
  intros Hm Hk Hn B1 B2 B3 Hx Hy Hz N1 N2 Ix Iy Iz Ho.
  destruct (mul_double e s x y z m k n X Y W) as (s' & V & E & Ma & HV & O); auto.
  exists s', V. split; [exact E|]. split; [exact Ma|]. split; [|exact O].
  intros i j Hi Hj. unfold double_int. rewrite HV by auto.
  assert (R : forall p r c U i j z, matrix s p 8 r c U -> 0 <= i < r -> 0 <= j < c -> double_int (U i j) z -> isint 53 1024 (db_of_bits (U i j)) z).
  { intros p r c U i0 j0 z0 HU Hi0 Hj0 Q. split; [|exact Q]. apply db_of_bits_ok.
    pose proof (matrix_range s p 8 r c U i0 j0 ltac:(lia) HU Hi0 Hj0) as R. change (256 ^ 8) with 18446744073709551616 in R. lia. }
  apply (foldz_double_int k (fun t => db_of_bits (X i t)) (fun t => db_of_bits (Y t j)) (X' i) (fun t => Y' t j)); auto.
  - eapply R; eauto.
  - intros t Ht. split; [eapply R; eauto|]. split; [eapply (R y); eauto|]. apply Ho; auto.
Qed.

(** ** Transposes *)
Definition transposes : list (Z * (ptr -> ptr -> Z -> Z -> M unit)) :=
  [ (8, TransMatrix_double); (2, TransMatrix_short); (1, TransMatrix_char); (2, TransMatrix_ushort);
    (1, TransMatrix_uchar); (4, TransMatrix_int); (4, TransMatrix_float); (4, TransMatrix_uint) ].

Lemma trans_run es e s x z m n X W : 0 < es -> 0 <= m -> 0 <= n -> m * n <= 2147483647 ->
  matrix s x es m n X -> matrix s z es n m W -> x <> z ->
  exists s', TransMatrix_with es x z m n e s = Ret tt s'
    /\ matrix s' z es n m (fun i j => X j i) /\ only_bytes s z 0 (n * m * es) s'.
Proof.
  intros He Hm Hn B Hx Hz Nxz.
  destruct (Z.eq_dec m 0) as [->|Hm0].
  { exists s. split; [reflexivity|]. split; [intros i j Hi Hj; lia|apply only_refl]. }
  destruct (Z.eq_dec n 0) as [->|Hn0].
  { exists s. split; [|split; [intros i j Hi Hj; lia|apply only_refl]].
    unfold TransMatrix_with. destruct (for_inv e 0 m (fun nm => for_ 0 0 (fun nn =>
      zi <- ev (nn * m + nm)%C ;; xi <- ev (nm * 0 + nn)%C ;;
      a <- loadle x (xi * es) (Z.to_nat es) ;; storele z (zi * es) (Z.to_nat es) a)) (fun _ s1 => s1 = s) s) as (s' & E & ->); auto.
    intros i s1 _ ->. exists s. split; reflexivity. }
  destruct (matrix_arr s z es n m W He ltac:(lia) ltac:(lia) Hz) as (qz & -> & Az).
  destruct (matrix_arr s x es m n X He ltac:(lia) ltac:(lia) Hx) as (qx & -> & Ax).
  assert (Hne : qx <> qz) by congruence.
  destruct (scatter_run e s qz es (n * m) m n (fun nm nn => nn * m + nm) X (fun nm nn =>
      zi <- ev (nn * m + nm)%C ;; xi <- ev (nm * n + nn)%C ;;
      a <- loadle (Some qx) (xi * es) (Z.to_nat es) ;; storele (Some qz) (zi * es) (Z.to_nat es) a) He Hm Hn)
    as (s' & g' & E & A' & H' & I').
  - eexists. exact Az.
  - intros i j Hi Hj. apply cell_range; auto.
  - intros i j i' j' Hi Hj Hi' Hj' Q.
    pose proof (f_equal (fun t => t / m) Q) as Q1. pose proof (f_equal (fun t => t mod m) Q) as Q2. cbv beta in Q1, Q2.
    rewrite !cell_div in Q1 by lia. rewrite !cell_mod in Q2 by lia. auto.
  - intros i j s1 g1 Hi Hj I1 A1.
    pose proof (cell_range m n i j Hi Hj). pose proof (cell_range n m j i Hj Hi) as Hp.
    apply (arr_inside _ _ _ _ _ qx _ _ _ _ I1) in Ax; [|left; congruence].
    rewrite (bind_ret _ _ _ _ _ _ (ev_cell e s1 n m j i Hj Hi ltac:(lia))).
    rewrite (bind_ret _ _ _ _ _ _ (ev_cell e s1 m n i j Hi Hj B)).
    rewrite (bind_ret _ _ _ _ _ _ (loadle_cell e s1 qx es m n X i j _ Ax He Hi Hj eq_refl)).
    destruct (arr_store e s1 qz 0 es (n * m) _ (j * m + i) ((j * m + i) * es) (Z.to_nat es) (X i j) A1 Hp ltac:(lia) ltac:(lia)) as (s3 & E3 & A3 & I3).
    exists s3. split; [exact E3|]. rewrite Z.mod_small in A3 by (eapply matrix_range; eauto). split; [exact A3|].
    refine (inside_weaken _ _ _ _ _ _ _ _ _ I3); clear - Hp He; nia.
  - exists s'. split; [exact E|]. split; [|apply inside_only; exact I'].
    apply arr_matrix. eapply arr_ext; [|exact A']. intros t Ht. cbv beta.
    destruct (cell_split n m t ltac:(lia) Ht) as (Et & H1 & H2). rewrite <- (H' (t mod m) (t / m)) by auto. now f_equal.
Qed.

Lemma trans_all es f e s x z m n X W : In (es, f) transposes -> 0 <= m -> 0 <= n -> m * n <= 2147483647 ->
  matrix s x es m n X -> matrix s z es n m W -> x <> z ->
  exists s', f x z m n e s = Ret tt s'
    /\ matrix s' z es n m (fun i j => X j i) /\ only_bytes s z 0 (n * m * es) s'.
Proof.
  intros Hin. cbn [transposes In] in Hin.
  repeat (destruct Hin as [E|Hin]; [injection E as <- <-; intros; eapply trans_run; eauto; lia|]). destruct Hin.
Qed.
