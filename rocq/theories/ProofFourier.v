(** * Proofs: what the Fourier transforms compute. *)
From Verif Require Import Base Logic ModelFloat ModelCore ModelConv ModelGeom ModelFourier SpecBase SpecNum SpecMatrix SpecFourier
  ProofCore ProofLayout ProofHM ProofWord ProofArr ProofGrid ProofMatrix ProofFold ProofFloat ProofInvert ProofStat.
From Coq Require Import Floats.SpecFloat ZifyBool ZifyNat.
Ltac Zify.zify_post_hook ::= Z.div_mod_to_equations.
Open Scope Z_scope.

Ltac runs H := rewrite (bind_ret _ _ _ _ _ _ H).

(** Nested loops with an invariant over the cells. *)
Lemma grid_inv e m n (body : Z -> Z -> M unit) (I : Z -> st -> Prop) s : 0 <= m -> 0 <= n -> I 0 s ->
  (forall i j s1, 0 <= i < m -> 0 <= j < n -> I (i * n + j) s1 -> exists s2, body i j e s1 = Ret tt s2 /\ I (i * n + j + 1) s2) ->
  exists s', for_ 0 m (fun i => for_ 0 n (body i)) e s = Ret tt s' /\ I (m * n) s'.
Proof.
  intros Hm Hn I0 Hb. destruct (for_inv e 0 m (fun i => for_ 0 n (body i)) (fun i s1 => I (i * n) s1) s) as (s' & E & I'); [lia|exact I0| |eauto].
  intros i s1 Hi I1. destruct (for_inv e 0 n (body i) (fun j s2 => I (i * n + j) s2) s1) as (s2 & E2 & I2); [lia|now rewrite Z.add_0_r| |].
  - intros j s2 Hj I2. destruct (Hb i j s2 Hi Hj I2) as (s3 & E3 & I3). exists s3. split; auto. now rewrite Z.add_assoc.
  - exists s2. split; auto. replace ((i + 1) * n) with (i * n + n) by lia. auto.
Qed.

(** Two sums in one loop. *)
Lemma foldz_pair {A B} n (f : A -> Z -> A) (g : B -> Z -> B) (z : A * B) :
  foldz n (fun z i => (f (fst z) i, g (snd z) i)) z = (foldz n f (fst z), foldz n g (snd z)).
Proof.
  unfold foldz. induction (Z.to_nat n) as [|k IH]; [now destruct z|]. cbn [fold_to]. now rewrite IH.
Qed.

Lemma only_two_of s p q n s' : keeps s [p; q] n s' -> List.length (objs s') = List.length (objs s) ->
  (p < List.length (objs s))%nat -> (q < List.length (objs s))%nat -> only_two s (Some p) (Some q) n s'.
Proof.
  intros (A1 & A2 & A3 & A4 & A5) L Lp Lq. split; [auto|]. split; [auto|]. split; [exact A3|].
  intros r t [->| ->] Ht; apply A4; cbn; auto.
Qed.
Lemma inside_length s q lo hi s' : inside s q lo hi s' -> List.length (objs s') = List.length (objs s).
Proof. intros H. apply inside_only in H. apply H. Qed.

Section Run.
  Variables cos_ sin_ : sf -> sf.
  Notation mach := (machine cos_ sin_).

  Lemma back_angle R C i j x y : dft_back (dft_temp R C i j x y) = angle mach R C (-1) i j x y.
  Proof. reflexivity. Qed.
  Lemma fwd_angle R C i j x y : dft_fwd (dft_temp R C i j x y) = angle mach R C 1 i j x y.
  Proof. reflexivity. Qed.

  (** ** Forward *)
  Section Fwd.
    Variables (rd : ptr -> Z -> M Z) (es : Z).
    Hypothesis Hrd : forall e s q n g t, arr s q 0 es n g -> 0 <= t < n -> rd (Some q) t e s = Ret (g t) s.

    Lemma dft_sums e s q R C P i j : 0 < R -> 0 < C -> R * C <= 2147483647 ->
      arr s q 0 es (R * C) (fun t => P (t / C) (t mod C)) ->
      forS 0 R (fun x z =>
        forS 0 C (fun y z =>
          let temp := dft_temp R C i j x y in
          k <- ev (x * C + y)%C ;;
          v <- rd (Some q) k ;;
          let re := fl_of_db (db_add (db_of_fl (fst z)) (db_mul (db_of_Z v) (cos_ (dft_back temp)))) in
          k <- ev (x * C + y)%C ;;
          v <- rd (Some q) k ;;
          let im := fl_of_db (db_add (db_of_fl (snd z)) (db_mul (db_of_Z v) (sin_ (dft_back temp)))) in
          ret (re, im)) z) (fl_of_Z 0, fl_of_Z 0) e s
      = Ret (dft_re mach R C P i j, dft_im mach R C P i j) s.
    Proof.
      intros HR HC HB A.
      rewrite (forS_pure e s R _ (fun z x => foldz C (fun z y =>
         (fl_of_db (db_add (db_of_fl (fst z)) (db_mul (db_of_Z (P x y)) (cos_ (dft_back (dft_temp R C i j x y))))),
          fl_of_db (db_add (db_of_fl (snd z)) (db_mul (db_of_Z (P x y)) (sin_ (dft_back (dft_temp R C i j x y))))))) z)); [|lia|].
      2:{ intros x z Hx. apply forS_pure; [lia|]. intros y w Hy. cbv zeta.
          pose proof (cell_range R C x y Hx Hy) as Hc.
          runs (ev_cell e s R C x y Hx Hy HB). runs (Hrd e s q _ _ _ A Hc).
          runs (ev_cell e s R C x y Hx Hy HB). runs (Hrd e s q _ _ _ A Hc).
          cbv beta. rewrite cell_div, cell_mod by lia. reflexivity. }
      f_equal. unfold dft_re, dft_im, grid_sum.
      refine (eq_trans _ (foldz_pair R
        (fun a x => foldz C (fun a y => narrow mach (d_add mach (widen mach a) (d_mul mach (d_int mach (P x y)) (d_cos mach (angle mach R C (-1) i j x y))))) a)
        (fun a x => foldz C (fun a y => narrow mach (d_add mach (widen mach a) (d_mul mach (d_int mach (P x y)) (d_sin mach (angle mach R C (-1) i j x y))))) a)
        (f_int mach 0, f_int mach 0))).
      apply foldz_ext. intros z x Hx.
      exact (foldz_pair C
        (fun a y => narrow mach (d_add mach (widen mach a) (d_mul mach (d_int mach (P x y)) (d_cos mach (angle mach R C (-1) i j x y)))))
        (fun a y => narrow mach (d_add mach (widen mach a) (d_mul mach (d_int mach (P x y)) (d_sin mach (angle mach R C (-1) i j x y))))) z).
    Qed.

    Lemma dft_with_run e s src re im ms mr mi ty R C P X Y :
      sheet s src ms ty es R C P -> sheet s re mr 4 4 R C X -> sheet s im mi 4 4 R C Y -> 0 < es ->
      sm_chan ms = 1 -> sm_chan mr = 1 -> sm_chan mi = 1 ->
      sm_data ms <> sm_data mr -> sm_data ms <> sm_data mi -> sm_data mr <> sm_data mi ->
      exists s', dft_with cos_ sin_ rd src re im e s = Ret tt s'
        /\ matrix s' (sm_data mr) 4 R C (fun i j => float_word (dft_re mach R C P i j))
        /\ matrix s' (sm_data mi) 4 R C (fun i j => float_word (dft_im mach R C P i j))
        /\ only_two s (sm_data mr) (sm_data mi) (R * C * 4) s'.
    Proof.
      intros (S1 & R1 & C1 & T1 & HR & HC & HB & M1) (S2 & R2 & C2 & T2 & _ & _ & _ & M2) (S3 & R3 & C3 & T3 & _ & _ & _ & M3) He K1 K2 K3 N1 N2 N3.
      unfold dft_with.
      assert (NN : nonnull src && nonnull re && nonnull im = true).
      { destruct src; [|discriminate S1]. destruct re; [|discriminate S2]. destruct im; [|discriminate S3]. reflexivity. }
      rewrite bind_assert by exact NN.
      runs (sget_ok _ _ e s S1). runs (sget_ok _ _ e s S2). runs (sget_ok _ _ e s S3).
      rewrite R1, R2, R3, C1, C2, C3, T2, T3, K1, K2, K3. rewrite bind_assert by lia. rewrite !bind_assert by reflexivity.
      destruct (matrix_arr s _ es R C P ltac:(lia) HR HC M1) as (q1 & E1 & A1).
      destruct (matrix_arr s _ 4 R C X ltac:(lia) HR HC M2) as (q2 & E2 & A2).
      destruct (matrix_arr s _ 4 R C Y ltac:(lia) HR HC M3) as (q3 & E3 & A3).
      rewrite E1, E2, E3 in *. cbv zeta.
      set (hr := fun t => float_word (dft_re mach R C P (t / C) (t mod C))).
      set (hi := fun t => float_word (dft_im mach R C P (t / C) (t mod C))).
      match goal with |- context [for_ 0 R (fun i => for_ 0 C (fun j => @?b i j)) e s] =>
        destruct (grid_inv e R C b (fun t s1 => arr s1 q2 0 4 (R * C) (upto t hr (fun t => X (t / C) (t mod C)))
          /\ arr s1 q3 0 4 (R * C) (upto t hi (fun t => Y (t / C) (t mod C)))
          /\ keeps s [q2; q3] (R * C * 4) s1 /\ List.length (objs s1) = List.length (objs s)) s) as (s' & E & B1 & B2 & B3 & B4) end.
      - lia.
      - lia.
      - split; [exact (arr_ext _ _ _ _ _ _ _ (fun t Ht => eq_sym (upto_le 0 hr _ t ltac:(lia))) A2)|].
        split; [exact (arr_ext _ _ _ _ _ _ _ (fun t Ht => eq_sym (upto_le 0 hi _ t ltac:(lia))) A3)|].
        split; [apply keeps_refl|reflexivity].
      - intros i j s1 Hi Hj (B1 & B2 & B3 & B4). cbv beta.
        assert (A1' : arr s1 q1 0 es (R * C) (fun t => P (t / C) (t mod C))).
        { eapply keeps_arr; [exact B3| |exact A1]. intros [Q|[Q|[]]]; congruence. }
        pose proof (cell_range R C i j Hi Hj) as Hc.
        runs (dft_sums e s1 q1 R C P i j HR HC HB A1').
        runs (ev_cell e s1 R C i j Hi Hj HB).
        destruct (storef_arr e s1 q2 (R * C) _ (i * C + j) (dft_re mach R C P i j) B1 Hc) as (s2 & F2 & G2 & I2).
        cbn [fst snd]. runs F2. runs (ev_cell e s2 R C i j Hi Hj HB).
        apply (arr_inside _ _ _ _ _ q3 _ _ _ _ I2) in B2; [|left; congruence].
        destruct (storef_arr e s2 q3 (R * C) _ (i * C + j) (dft_im mach R C P i j) B2 Hc) as (s3 & F3 & G3 & I3).
        exists s3. split; [exact F3|].
        apply (arr_inside _ _ _ _ _ q2 _ _ _ _ I3) in G2; [|left; congruence].
        split; [eapply upto_step; [exact G2|]; unfold hr; rewrite cell_div, cell_mod by lia; reflexivity|].
        split; [eapply upto_step; [exact G3|]; unfold hi; rewrite cell_div, cell_mod by lia; reflexivity|].
        split; [|rewrite (inside_length _ _ _ _ _ I3), (inside_length _ _ _ _ _ I2); exact B4].
        eapply keeps_trans; [exact B3|]. eapply keeps_trans.
        + eapply inside_keeps; [exact I2|lia|lia|cbn; auto].
        + eapply inside_keeps; [exact I3|lia|lia|cbn; auto].
      - exists s'. split; [exact E|].
        split; [apply (arr_matrix s' q2 4 R C (fun i j => float_word (dft_re mach R C P i j)))|
          split; [apply (arr_matrix s' q3 4 R C (fun i j => float_word (dft_im mach R C P i j)))|]].
        + eapply arr_ext; [|exact B1]. intros t Ht. now rewrite upto_lt by lia.
        + eapply arr_ext; [|exact B2]. intros t Ht. now rewrite upto_lt by lia.
        + destruct (arr_isb _ _ _ _ _ _ A2) as (n2 & d2 & I2). destruct (arr_isb _ _ _ _ _ _ A3) as (n3 & d3 & I3).
          apply only_two_of; auto; eapply isb_lt; eauto.
    Qed.
  End Fwd.

  Lemma rd1 e s q n g t : arr s q 0 1 n g -> 0 <= t < n -> load8 (Some q) t e s = Ret (g t) s.
  Proof.
    intros A Ht. pose proof (arr_load e s q 0 1 n g t t 1%nat A Ht ltac:(lia) ltac:(lia)) as L.
    cbn [loadle] in L. unfold bind in L. unfold bind, ret in *. destruct (load8 (Some q) t e s) as [v s1| | |]; try discriminate L.
    injection L as L1 L2. subst. f_equal. lia.
  Qed.
  Lemma rd2 e s q n g t : arr s q 0 2 n g -> 0 <= t < n -> loadle (Some q) (2 * t) 2 e s = Ret (g t) s.
  Proof. intros A Ht. exact (arr_load e s q 0 2 n g t (2 * t) 2%nat A Ht ltac:(lia) ltac:(lia)). Qed.

  (** The heads of hypercv_dft. *)
  Lemma dft_head e s src re im ms mr mi ty es R C P X Y :
    sheet s src ms ty es R C P -> sheet s re mr 4 4 R C X -> sheet s im mi 4 4 R C Y ->
    sm_chan ms = 1 -> sm_chan mr = 1 -> sm_chan mi = 1 ->
    hypercv_dft cos_ sin_ src re im e s =
      (if ty =? 1 then hypercv_dft_uchar cos_ sin_ src re im
       else if ty =? 12 then hypercv_dft_ushort cos_ sin_ src re im else ret tt) e s.
  Proof.
    intros (S1 & R1 & C1 & T1 & HR & HC & HB & M1) (S2 & R2 & C2 & T2 & _ & _ & _ & M2) (S3 & R3 & C3 & T3 & _ & _ & _ & M3) K1 K2 K3.
    unfold hypercv_dft.
    assert (NN : nonnull src && nonnull re && nonnull im = true).
    { destruct src; [|discriminate S1]. destruct re; [|discriminate S2]. destruct im; [|discriminate S3]. reflexivity. }
    rewrite bind_assert by exact NN.
    runs (sget_ok _ _ e s S1). runs (sget_ok _ _ e s S2). runs (sget_ok _ _ e s S3).
    rewrite R1, R2, R3, C1, C2, C3, T1, T2, T3, K1, K2, K3. rewrite bind_assert by lia. now rewrite !bind_assert by reflexivity.
  Qed.

  (** ** Back *)
  Section Bwd.
    Variables (ty es : Z) (wr : ptr -> Z -> Z -> M unit).
    Hypothesis He : 0 < es.
    Hypothesis Hwr : forall e s q n g t v, arr s q 0 es n g -> 0 <= t < n -> 0 <= v < 256 ->
      exists s', wr (Some q) t v e s = Ret tt s' /\ arr s' q 0 es n (fupd g t v) /\ inside s q 0 (n * es) s'.

    Lemma sat_range x : 0 <= saturate_cast_float2uchar x < 256.
    Proof.
      unfold saturate_cast_float2uchar. destruct (SFltb _ x); [lia|]. destruct (SFltb x _); [lia|].
      unfold u8. apply Z.mod_pos_bound. lia.
    Qed.

    Lemma idft_with_run e s re im dst mr mi md R C X Y W :
      sheet s re mr 4 4 R C X -> sheet s im mi 4 4 R C Y -> sheet s dst md ty es R C W ->
      sm_data md <> sm_data mr -> sm_data md <> sm_data mi ->
      exists s', idft_with cos_ sin_ ty wr re im dst e s = Ret tt s'
        /\ matrix s' (sm_data md) es R C (fun i j => saturate_cast_float2uchar
             (dft_inverse mach R C (fun x y => fl_of_bits (X x y)) (fun x y => fl_of_bits (Y x y)) i j))
        /\ only_bytes s (sm_data md) 0 (R * C * es) s'.
    Proof.
      intros (S1 & R1 & C1 & T1 & HR & HC & HB & M1) (S2 & R2 & C2 & T2 & _ & _ & _ & M2) (S3 & R3 & C3 & T3 & _ & _ & _ & M3) N1 N2.
      unfold idft_with. runs (sget_ok _ _ e s S1). runs (sget_ok _ _ e s S2). runs (sget_ok _ _ e s S3).
      rewrite R1, R2, R3, C1, C2, C3, T1, T2, T3. rewrite bind_assert by lia. rewrite bind_assert by reflexivity. rewrite bind_assert by lia.
      destruct (matrix_arr s _ 4 R C X ltac:(lia) HR HC M1) as (q1 & E1 & A1).
      destruct (matrix_arr s _ 4 R C Y ltac:(lia) HR HC M2) as (q2 & E2 & A2).
      destruct (matrix_arr s _ es R C W ltac:(lia) HR HC M3) as (q3 & E3 & A3).
      rewrite E1, E2, E3 in *. cbv zeta.
      set (h := fun i j => saturate_cast_float2uchar
             (dft_inverse mach R C (fun x y => fl_of_bits (X x y)) (fun x y => fl_of_bits (Y x y)) i j)).
      match goal with |- context [for_ 0 R (fun i => for_ 0 C (fun j => @?b i j)) e s] =>
        destruct (grid_run e s q3 es R C (fun t => W (t / C) (t mod C)) (fun t => h (t / C) (t mod C)) b) as (s' & E & A' & I') end;
        [lia|lia|exact A3| |exists s'; split; [exact E|]; split; [apply (arr_matrix s' q3 es R C h); exact A'|apply inside_only; exact I']].
      intros i j s1 Hi Hj A I. cbv beta.
      apply (arr_inside _ _ _ _ _ q1 _ _ _ _ I) in A1; [|left; congruence].
      apply (arr_inside _ _ _ _ _ q2 _ _ _ _ I) in A2; [|left; congruence].
      pose proof (cell_range R C i j Hi Hj) as Hc.
      match goal with |- context [forS 0 R ?b ?z] => assert (F : forS 0 R b z e s1 = Ret (grid_sum mach R C (fun x y =>
          d_sub mach (d_mul mach (widen mach (fl_of_bits (X x y))) (d_cos mach (angle mach R C 1 i j x y)))
              (d_mul mach (widen mach (fl_of_bits (Y x y))) (d_sin mach (angle mach R C 1 i j x y))))) s1) end.
      { unfold grid_sum. apply forS_pure; [lia|]. intros x z Hx. apply forS_pure; [lia|]. intros y w Hy. cbv zeta.
        pose proof (cell_range R C x y Hx Hy) as Hd.
        runs (ev_cell e s1 R C x y Hx Hy HB). runs (loadf_arr e s1 q1 (R * C) _ _ A1 Hd).
        runs (ev_cell e s1 R C x y Hx Hy HB). runs (loadf_arr e s1 q2 (R * C) _ _ A2 Hd).
        cbv beta. rewrite cell_div, cell_mod by lia. reflexivity. }
      runs F. runs (ev_ok (R * C)%C (R * C) e s1 ltac:(unfold ci; rewrite cmul_ok by nia; reflexivity)).
      runs (ev_cell e s1 R C i j Hi Hj HB).
      destruct (Hwr e s1 q3 (R * C) _ (i * C + j) (h i j) A Hc (sat_range _)) as (s2 & Es & As & Is).
      exists s2. split; [exact Es|]. split; [|exact Is]. eapply upto_step; [exact As|].
      now rewrite cell_div, cell_mod by lia.
    Qed.
  End Bwd.

  Lemma wr1 e s q n g t v : arr s q 0 1 n g -> 0 <= t < n -> 0 <= v < 256 ->
    exists s', store8 (Some q) t v e s = Ret tt s' /\ arr s' q 0 1 n (fupd g t v) /\ inside s q 0 (n * 1) s'.
  Proof.
    intros A Ht Hv. destruct (arr_store e s q 0 1 n g t t 1%nat v A Ht ltac:(lia) ltac:(lia)) as (s' & E & A' & I').
    exists s'. cbn [storele] in E. change (256 ^ 1) with 256 in A'. rewrite Z.mod_small in A', E by lia.
    split; [|split; [exact A'|eapply inside_weaken; [| |exact I']; lia]].
    unfold bind in E. destruct (store8 (Some q) t v e s) as [[] s1| | |] eqn:F; try discriminate E. exact E.
  Qed.
  Lemma wr2 e s q n g t v : arr s q 0 2 n g -> 0 <= t < n -> 0 <= v < 256 ->
    exists s', storele (Some q) (2 * t) 2 v e s = Ret tt s' /\ arr s' q 0 2 n (fupd g t v) /\ inside s q 0 (n * 2) s'.
  Proof.
    intros A Ht Hv. destruct (arr_store e s q 0 2 n g t (2 * t) 2%nat v A Ht ltac:(lia) ltac:(lia)) as (s' & E & A' & I').
    exists s'. change (256 ^ 2) with 65536 in A'. rewrite Z.mod_small in A' by lia.
    split; [exact E|]. split; [exact A'|eapply inside_weaken; [| |exact I']; lia].
  Qed.

  Lemma idft_head e s re im dst md : sm_at s dst = Some md ->
    hypercv_idft cos_ sin_ re im dst e s = (if sm_type md =? 1 then hypercv_idft_uchar cos_ sin_ re im dst
      else if sm_type md =? 12 then hypercv_idft_ushort cos_ sin_ re im dst else ret tt) e s.
  Proof. intros H. unfold hypercv_idft. now runs (sget_ok _ _ e s H). Qed.

  (** ** Spectrum *)
  Lemma move_alternate x y : 0 <= x + y -> (if Z.rem (x + y) 2 =? 0 then 1 else -1) = alternate x y.
  Proof.
    intros H. unfold alternate. rewrite Z.rem_mod_nonneg by lia. rewrite Zmod_even. destruct (Z.even (x + y)); reflexivity.
  Qed.

  Lemma spectrum_run e s src dst ms md ty ty' R C P W :
    sheet s src ms ty 1 R C P -> sheet s dst md ty' 1 R C W -> sm_data ms <> sm_data md -> R + C <= 2147483647 ->
    exists s', hypercv_dft_frespectrum cos_ sin_ src dst e s = Ret tt s'
      /\ matrix s' (sm_data md) 1 R C (fun i j => saturate_cast_float2uchar
           (magnitude_of mach R C (spectrum_re mach R C P i j) (spectrum_im mach R C P i j)))
      /\ only_bytes s (sm_data md) 0 (R * C) s'.
  Proof.
    intros (S1 & R1 & C1 & T1 & HR & HC & HB & M1) (S2 & R2 & C2 & T2 & _ & _ & _ & M2) N1 HS.
    unfold hypercv_dft_frespectrum. rewrite bind_assert by (destruct src; [reflexivity|discriminate S1]).
    rewrite bind_assert by (destruct dst; [reflexivity|discriminate S2]).
    runs (sget_ok _ _ e s S1). runs (sget_ok _ _ e s S2). rewrite R1, R2, C1, C2. rewrite bind_assert by lia.
    destruct (matrix_arr s _ 1 R C P ltac:(lia) HR HC M1) as (q1 & E1 & A1).
    destruct (matrix_arr s _ 1 R C W ltac:(lia) HR HC M2) as (q3 & E3 & A3).
    rewrite E1, E3 in *. cbv zeta.
    set (h := fun i j => saturate_cast_float2uchar
           (magnitude_of mach R C (spectrum_re mach R C P i j) (spectrum_im mach R C P i j))).
    match goal with |- context [for_ 0 R (fun i => for_ 0 C (fun j => @?b i j)) e s] =>
      destruct (grid_run e s q3 1 R C (fun t => W (t / C) (t mod C)) (fun t => h (t / C) (t mod C)) b) as (s' & E & A' & I') end;
      [lia|lia|exact A3| |exists s'; split; [exact E|]; split; [apply (arr_matrix s' q3 1 R C h); exact A'|
         apply inside_only in I'; now rewrite Z.mul_1_r in I']].
    intros i j s1 Hi Hj A I. cbv beta.
    apply (arr_inside _ _ _ _ _ q1 _ _ _ _ I) in A1; [|left; congruence].
    pose proof (cell_range R C i j Hi Hj) as Hc.
    match goal with |- context [forS 0 R ?b ?z] => assert (F : forS 0 R b z e s1 =
      Ret (spectrum_re mach R C P i j, spectrum_im mach R C P i j) s1) end.
    { rewrite (forS_pure e s1 R _ (fun z x => foldz C (fun z y =>
         (narrow mach (d_add mach (widen mach (fst z)) (d_mul mach (d_mul mach (d_int mach (P x y)) (d_cos mach (angle mach R C (-1) i j x y))) (d_int mach (alternate x y)))),
          narrow mach (d_add mach (widen mach (snd z)) (d_mul mach (d_mul mach (d_int mach (P x y)) (d_sin mach (angle mach R C (-1) i j x y))) (d_int mach (alternate x y)))))) z)); [|lia|].
      2:{ intros x z Hx. apply forS_pure; [lia|]. intros y w Hy. cbv zeta.
          pose proof (cell_range R C x y Hx Hy) as Hd.
          runs (ev_ok (x + y)%C (x + y) e s1 ltac:(unfold ci; rewrite cadd_ok by lia; reflexivity)).
          rewrite move_alternate by lia.
          runs (ev_cell e s1 R C x y Hx Hy HB). runs (rd1 e s1 q1 _ _ _ A1 Hd).
          runs (ev_cell e s1 R C x y Hx Hy HB). runs (rd1 e s1 q1 _ _ _ A1 Hd).
          cbv beta. rewrite cell_div, cell_mod by lia. reflexivity. }
      f_equal. unfold spectrum_re, spectrum_im, grid_sum.
      refine (eq_trans _ (foldz_pair R
        (fun a x => foldz C (fun a y => narrow mach (d_add mach (widen mach a) (d_mul mach (d_mul mach (d_int mach (P x y)) (d_cos mach (angle mach R C (-1) i j x y))) (d_int mach (alternate x y))))) a)
        (fun a x => foldz C (fun a y => narrow mach (d_add mach (widen mach a) (d_mul mach (d_mul mach (d_int mach (P x y)) (d_sin mach (angle mach R C (-1) i j x y))) (d_int mach (alternate x y))))) a)
        (f_int mach 0, f_int mach 0))).
      apply foldz_ext. intros z x Hx.
      exact (foldz_pair C
        (fun a y => narrow mach (d_add mach (widen mach a) (d_mul mach (d_mul mach (d_int mach (P x y)) (d_cos mach (angle mach R C (-1) i j x y))) (d_int mach (alternate x y)))))
        (fun a y => narrow mach (d_add mach (widen mach a) (d_mul mach (d_mul mach (d_int mach (P x y)) (d_sin mach (angle mach R C (-1) i j x y))) (d_int mach (alternate x y))))) z). }
    runs F. runs (ev_ok (R * C)%C (R * C) e s1 ltac:(unfold ci; rewrite cmul_ok by nia; reflexivity)).
    runs (ev_cell e s1 R C i j Hi Hj HB).
    destruct (wr1 e s1 q3 (R * C) _ (i * C + j) (h i j) A Hc (sat_range _)) as (s2 & Es & As & Is).
    exists s2. split; [exact Es|]. split; [|exact Is]. eapply upto_step; [exact As|].
    now rewrite cell_div, cell_mod by lia.
  Qed.
End Run.

Theorem fourier_run : forall cos_ sin_ e s src re im ms mr mi ty es R C P X Y,
  (ty = 1 /\ es = 1 \/ ty = 12 /\ es = 2) ->
  sheet s src ms ty es R C P -> sheet s re mr 4 4 R C X -> sheet s im mi 4 4 R C Y ->
  sm_chan ms = 1 -> sm_chan mr = 1 -> sm_chan mi = 1 ->
  sm_data ms <> sm_data mr -> sm_data ms <> sm_data mi -> sm_data mr <> sm_data mi ->
  exists s', hypercv_dft cos_ sin_ src re im e s = Ret tt s'
    /\ matrix s' (sm_data mr) 4 R C (fun i j => float_word (dft_re (machine cos_ sin_) R C P i j))
    /\ matrix s' (sm_data mi) 4 R C (fun i j => float_word (dft_im (machine cos_ sin_) R C P i j))
    /\ only_two s (sm_data mr) (sm_data mi) (R * C * 4) s'.
Proof.
  intros cos_ sin_ e s src re im ms mr mi ty es R C P X Y [[-> ->]|[-> ->]] S1 S2 S3 K1 K2 K3 N1 N2 N3;
    rewrite (dft_head cos_ sin_ e s src re im ms mr mi _ _ R C P X Y S1 S2 S3 K1 K2 K3).
  - exact (dft_with_run cos_ sin_ load8 1 rd1 e s src re im ms mr mi 1 R C P X Y S1 S2 S3 ltac:(lia) K1 K2 K3 N1 N2 N3).
  - exact (dft_with_run cos_ sin_ (fun p k => loadle p (2 * k) 2) 2 rd2 e s src re im ms mr mi 12 R C P X Y S1 S2 S3 ltac:(lia) K1 K2 K3 N1 N2 N3).
Qed.

Theorem fourier_other : forall cos_ sin_ e s src re im ms mr mi ty es R C P X Y,
  ty <> 1 -> ty <> 12 ->
  sheet s src ms ty es R C P -> sheet s re mr 4 4 R C X -> sheet s im mi 4 4 R C Y ->
  sm_chan ms = 1 -> sm_chan mr = 1 -> sm_chan mi = 1 ->
  hypercv_dft cos_ sin_ src re im e s = Ret tt s.
Proof.
  intros cos_ sin_ e s src re im ms mr mi ty es R C P X Y N1 N2 S1 S2 S3 K1 K2 K3.
  rewrite (dft_head cos_ sin_ e s src re im ms mr mi _ _ R C P X Y S1 S2 S3 K1 K2 K3).
  replace (ty =? 1) with false by lia. replace (ty =? 12) with false by lia. reflexivity.
Qed.

Theorem fourier_back : forall cos_ sin_ e s re im dst mr mi md ty es R C X Y W,
  (ty = 1 /\ es = 1 \/ ty = 12 /\ es = 2) ->
  sheet s re mr 4 4 R C X -> sheet s im mi 4 4 R C Y -> sheet s dst md ty es R C W ->
  sm_data md <> sm_data mr -> sm_data md <> sm_data mi ->
  exists s', hypercv_idft cos_ sin_ re im dst e s = Ret tt s'
    /\ matrix s' (sm_data md) es R C (fun i j => saturate_cast_float2uchar
         (dft_inverse (machine cos_ sin_) R C (fun x y => fl_of_bits (X x y)) (fun x y => fl_of_bits (Y x y)) i j))
    /\ only_bytes s (sm_data md) 0 (R * C * es) s'.
Proof.
  intros cos_ sin_ e s re im dst mr mi md ty es R C X Y W [[-> ->]|[-> ->]] S1 S2 S3 N1 N2;
    rewrite (idft_head cos_ sin_ e s re im dst md ltac:(apply S3)); destruct (proj2 S3) as (_ & _ & T & _); rewrite T.
  - exact (idft_with_run cos_ sin_ 1 1 store8 ltac:(lia) wr1 e s re im dst mr mi md R C X Y W S1 S2 S3 N1 N2).
  - exact (idft_with_run cos_ sin_ 12 2 (fun p k v => storele p (2 * k) 2 v) ltac:(lia) wr2 e s re im dst mr mi md R C X Y W S1 S2 S3 N1 N2).
Qed.

Theorem spectrum_code : forall cos_ sin_ e s src dst ms md ty ty' R C P W,
  sheet s src ms ty 1 R C P -> sheet s dst md ty' 1 R C W -> sm_data ms <> sm_data md -> R + C <= 2147483647 ->
  exists s', hypercv_dft_frespectrum cos_ sin_ src dst e s = Ret tt s'
    /\ matrix s' (sm_data md) 1 R C (fun i j => saturate_cast_float2uchar
         (magnitude_of (machine cos_ sin_) R C (spectrum_re (machine cos_ sin_) R C P i j) (spectrum_im (machine cos_ sin_) R C P i j)))
    /\ only_bytes s (sm_data md) 0 (R * C) s'.
Proof. exact spectrum_run. Qed.
