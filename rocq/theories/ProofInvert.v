(** * Proofs: the inversion code computes Gauss-Jordan in floats (C40). *)
From Verif Require Import Base Logic ModelFloat ModelDouble ModelMatrix SpecBase SpecNum SpecMatrix
  ProofCore ProofHM ProofCopy ProofFloat ProofFloat2 ProofWord ProofArr ProofGrid ProofMatrix.
From Coq Require Import ZifyBool ZifyNat Floats.SpecFloat.
Ltac Zify.zify_post_hook ::= Z.div_mod_to_equations.
Open Scope Z_scope.

(** ** Changing the first n bytes of some objects, and allocating *)
Definition keeps (s : st) (l : list nat) (n : Z) (s' : st) : Prop :=
  files s' = files s /\ (List.length (objs s) <= List.length (objs s'))%nat
  /\ unchanged_except (map Some l) s s'
  /\ (forall q i, In q l -> (q < List.length (objs s))%nat -> ~ 0 <= i < n -> byte_at s' (Some q) i = byte_at s (Some q) i)
  /\ (heap_ok s -> heap_ok s').

Lemma in_some q l : In (Some q) (map Some l) -> @In nat q l.
Proof. intros H. apply in_map_iff in H as (x & [= ->] & H). auto. Qed.

Lemma keeps_refl s l n : keeps s l n s.
Proof. split; [auto|]. split; [auto|]. split; [intros k _ _; auto|]. auto. Qed.
Lemma keeps_trans s l n s1 s2 : keeps s l n s1 -> keeps s1 l n s2 -> keeps s l n s2.
Proof.
  intros (A1 & A2 & A3 & A4 & A5) (B1 & B2 & B3 & B4 & B5). split; [congruence|]. split; [lia|]. split; [|split; [|auto]].
  - intros k Hk Hn. rewrite B3, A3; auto. lia.
  - intros q i Hq Hl Hi. rewrite B4, A4; auto. lia.
Qed.
Lemma keeps_weaken s l l' n n' s' : n <= n' -> incl l l' -> keeps s l n s' -> keeps s l' n' s'.
Proof.
  intros Hn Hl (A1 & A2 & A3 & A4 & A5). split; auto. split; auto. split; [|split; auto].
  - intros k Hk H. apply A3; auto. intros Q. apply H. apply in_map_iff in Q as (x & [= ->] & Q). apply in_map_iff. eauto.
  - intros q i Hq Hlt Hi. destruct (in_dec Nat.eq_dec q l) as [Hin|Hin].
    + apply A4; auto. lia.
    + apply nth_byte_at. apply A3; auto. intros Q. apply in_some in Q. auto.
Qed.
Lemma inside_keeps s q lo hi s' n l : inside s q lo hi s' -> 0 <= lo -> hi <= n -> In q l -> keeps s l n s'.
Proof.
  intros H Hlo Hhi Hq. pose proof (inside_only _ _ _ _ _ H) as (A1 & A2 & A3 & A4 & A5).
  apply (keeps_weaken s [q] l n n s'); [lia|intros x [<-|[]]; auto|].
  split; auto. split; [rewrite A2; lia|]. split; [exact A3|]. split; [|intros; eapply inside_heap_ok; eauto].
  intros q' i [<-|[]] Hl Hi. apply A5. lia.
Qed.
Lemma keeps_isb s l n s' q N d : keeps s l n s' -> ~ In q l -> isb s q N d -> isb s' q N d.
Proof.
  intros (A1 & A2 & A3 & A4) Hq H. unfold isb. rewrite (nth_bytes_at s s' q); auto.
  apply A3; [eapply isb_lt; eauto|]. intros Q. apply Hq. now apply in_some.
Qed.
Lemma keeps_arr s l n s' q base es k g : keeps s l n s' -> ~ In q l -> arr s q base es k g -> arr s' q base es k g.
Proof. intros K Hq (N & d & H & H'). exists N, d. split; auto. eapply keeps_isb; eauto. Qed.

Lemma word_shift d d' n : forall off off', (forall t, 0 <= t < Z.of_nat n -> d (off + t) = d' (off' + t)) ->
  word d off n = word d' off' n.
Proof.
  induction n as [|n IH]; intros off off' H; [reflexivity|]. cbn [word].
  pose proof (H 0 ltac:(lia)) as H0. rewrite !Z.add_0_r in H0. rewrite H0. do 2 f_equal. apply IH.
  intros t Ht. rewrite <- !Z.add_assoc. apply H. lia.
Qed.

Lemma memcpy_same e s q sz d doff soff n : isb s q sz d -> 0 <= n -> 0 <= doff -> doff + n <= sz -> 0 <= soff -> soff + n <= sz ->
  doff + n <= soff \/ soff + n <= doff ->
  memcpy (Some q) doff (Some q) soff n e s =
  Ret tt (putd s q (fun i => if (doff <=? i) && (i <? doff + n) then d (i - doff + soff) else d i)).
Proof.
  unfold isb, memcpy. intros -> H1 H2 H3 H4 H5 H6.
  replace ((0 <=? n) && (0 <=? doff) && (doff + n <=? sz) && (0 <=? soff) && (soff + n <=? sz)
    && (negb (Nat.eqb q q) || (doff + n <=? soff) || (soff + n <=? doff) || (n =? 0))) with true by lia. reflexivity.
Qed.

Lemma row_before m r1 r2 : 0 < m -> r1 < r2 -> r1 * m + m <= r2 * m.
Proof. intros. nia. Qed.

(** ** swap_rows_float *)
Lemma swap_rows_run e s q m g r1 r2 : heap_ok s -> 0 < m -> m * m <= 2147483647 -> arr s q 0 4 (m * m) g ->
  0 <= r1 < m -> 0 <= r2 < m -> r1 <> r2 ->
  exists s', swap_rows_float (Some q) m m r1 r2 e s = Ret tt s'
    /\ arr s' q 0 4 (m * m) (g_swap m g r1 r2) /\ keeps s [q] (m * m * 4) s'.
Proof.
  intros Hs Hm B (N & d & I & _ & _ & HN & W) H1 H2 Hne.
  assert (Bm : m <= 2147483647) by nia.
  assert (R1 : 0 <= r1 * m /\ r1 * m + m <= m * m) by nia. assert (R2 : 0 <= r2 * m /\ r2 * m + m <= m * m) by nia.
  assert (RR : r1 * m + m <= r2 * m \/ r2 * m + m <= r1 * m).
  { destruct (Z.lt_ge_cases r1 r2); [left|right]; apply row_before; lia. }
  set (o1 := r1 * m) in *. set (o2 := r2 * m) in *.
  unfold swap_rows_float.
  replace ((0 <=? r1) && (r1 <? m) && (0 <=? r2) && (r2 <? m)) with true by lia. rewrite bind_assert by reflexivity.
  replace (negb (r1 =? r2)) with true by lia. rewrite bind_assert by reflexivity.
  assert (U : u64 (m * 4) = 4 * m) by (unfold u64; rewrite Z.mod_small; lia). rewrite U.
  set (k := List.length (objs s)).
  set (s1 := mkSt (objs s ++ [mkObj (e_addr e k) (4 * m) k true (CBytes (e_junk e k))]) (files s)).
  assert (E1 : malloc (4 * m) e s = Ret (Some k) s1).
  { unfold malloc. replace ((0 <=? 4 * m) && (4 * m <? 2 ^ 62)) with true; [reflexivity|]. change (2 ^ 62) with 4611686018427387904. lia. }
  runs E1.
  assert (V1 : ev (r1 * m)%C e s1 = Ret o1 s1) by (apply ev_ok; unfold ci; rewrite cmul_ok; [reflexivity|fold o1; lia]).
  assert (V2 : ev (r2 * m)%C e s1 = Ret o2 s1) by (apply ev_ok; unfold ci; rewrite cmul_ok; [reflexivity|fold o2; lia]).
  runs V1. runs V2. clear V1 V2.
  assert (Lq : (q < k)%nat) by (eapply isb_lt; eauto).
  assert (I1 : isb s1 q N d) by (apply isb_app_old; auto).
  assert (T1 : isb s1 k (4 * m) (e_junk e k)).
  { eapply obj_isb. unfold s1; cbn [objs]. rewrite nth_error_app2 by (unfold k; lia). unfold k. rewrite Nat.sub_diag. reflexivity. }
  runs (memcpy_ok e s1 k (4 * m) (e_junk e k) q N d 0 (4 * o1) (4 * m) T1 I1 ltac:(lia) ltac:(lia) ltac:(lia) ltac:(lia) ltac:(lia) ltac:(lia)).
  set (t2 := fun i => if (0 <=? i) && (i <? 0 + 4 * m) then d (i - 0 + 4 * o1) else e_junk e k i).
  set (s2 := putd s1 k t2).
  assert (I2 : isb s2 q N d) by (apply isb_putd_ne; auto; lia).
  assert (T2 : isb s2 k (4 * m) t2) by (eapply isb_putd_eq; eauto).
  runs (memcpy_same e s2 q N d (4 * o1) (4 * o2) (4 * m) I2 ltac:(lia) ltac:(lia) ltac:(lia) ltac:(lia) ltac:(lia) ltac:(lia)).
  set (d3 := fun i => if (4 * o1 <=? i) && (i <? 4 * o1 + 4 * m) then d (i - 4 * o1 + 4 * o2) else d i).
  set (s3 := putd s2 q d3).
  assert (I3 : isb s3 q N d3) by (eapply isb_putd_eq; eauto).
  assert (T3 : isb s3 k (4 * m) t2) by (apply isb_putd_ne; auto; lia).
  runs (memcpy_ok e s3 q N d3 k (4 * m) t2 (4 * o2) 0 (4 * m) I3 T3 ltac:(lia) ltac:(lia) ltac:(lia) ltac:(lia) ltac:(lia) ltac:(lia)).
  set (d4 := fun i => if (4 * o2 <=? i) && (i <? 4 * o2 + 4 * m) then t2 (i - 4 * o2 + 0) else d3 i).
  set (s4 := putd s3 q d4).
  assert (I4 : isb s4 q N d4) by (eapply isb_putd_eq; eauto).
  assert (Nk : forall j, nth_error (objs s4) j =
    if Nat.eqb j k then Some (mkObj (e_addr e k) (4 * m) k true (CBytes t2))
    else if Nat.eqb j q then option_map (set_bytes d4) (nth_error (objs s) q)
    else nth_error (objs s) j).
  { intros j. unfold s4, s3. rewrite putd_putd. unfold putd; cbn [objs].
    destruct (Nat.eq_dec q j) as [<-|Nq].
    - rewrite lupd_nth_eq. unfold s2, putd; cbn [objs]. rewrite lupd_nth_ne by lia.
      unfold s1; cbn [objs]. rewrite nth_error_app1 by auto.
      replace (Nat.eqb q k) with false by lia. now rewrite Nat.eqb_refl.
    - rewrite lupd_nth_ne by auto. unfold s2, putd; cbn [objs]. destruct (Nat.eq_dec k j) as [<-|Nj].
      + rewrite lupd_nth_eq, Nat.eqb_refl. unfold s1; cbn [objs]. rewrite nth_error_app2 by (unfold k; lia). unfold k. rewrite Nat.sub_diag. reflexivity.
      + rewrite lupd_nth_ne by auto. replace (Nat.eqb j k) with false by lia. replace (Nat.eqb j q) with false by lia.
        unfold s1; cbn [objs]. destruct (Nat.lt_ge_cases j k).
        * now rewrite nth_error_app1.
        * rewrite nth_error_app2 by auto. fold k. replace (nth_error (objs s) j) with (@None obj) by (symmetry; apply nth_error_None; auto).
          apply nth_error_None. cbn [Datatypes.length]. lia. }
  assert (L4 : List.length (objs s4) = (k + 1)%nat).
  { unfold s4, s3, s2, putd; cbn [objs]. rewrite !lupd_length. unfold s1; cbn [objs]. rewrite app_length. reflexivity. }
  assert (F4 : files s4 = files s) by reflexivity.
  clearbody s4. clear s1 s2 s3 E1 I1 T1 I2 T2 I3 T3.
  pose proof (Nk k) as Nkk. rewrite Nat.eqb_refl in Nkk.
  rewrite (free_ok e s4 k _ Nkk eq_refl eq_refl). eexists. split; [reflexivity|].
  set (s5 := mkSt (map (kill_root k) (objs s4)) (files s4)).
  assert (O5 : forall j, (j < k)%nat -> nth_error (objs s5) j = nth_error (objs s4) j).
  { intros j Hj. unfold s5; cbn [objs]. rewrite kill_nth. rewrite Nk. replace (Nat.eqb j k) with false by lia.
    destruct (Nat.eqb_spec j q) as [->|].
    - destruct (nth_error (objs s) q) as [o|] eqn:Eo; [|reflexivity]. cbn [option_map]. f_equal. apply kill_other.
      apply Hs in Eo. fold k in Eo. destruct o; cbn in *. lia.
    - destruct (nth_error (objs s) j) as [o|] eqn:Eo; [|reflexivity]. cbn [option_map]. f_equal. apply kill_other.
      apply Hs in Eo. fold k in Eo. lia. }
  assert (I5 : isb s5 q N d4) by (unfold isb; rewrite (nth_bytes_at s4 s5 q); auto).
  split.
  - exists N, d4. split; auto. split; [lia|]. split; [lia|]. split; auto.
    intros t Ht. unfold g_swap, in_row. fold o1 o2.
    destruct ((o1 <=? t) && (t <? o1 + m)) eqn:T1.
    + rewrite <- (W (t - o1 + o2)) by lia. apply word_shift. intros b Hb. unfold d4, d3.
      replace ((4 * o2 <=? 0 + t * 4 + b) && (0 + t * 4 + b <? 4 * o2 + 4 * m)) with false by lia.
      replace ((4 * o1 <=? 0 + t * 4 + b) && (0 + t * 4 + b <? 4 * o1 + 4 * m)) with true by lia. f_equal. lia.
    + destruct ((o2 <=? t) && (t <? o2 + m)) eqn:T2.
      * rewrite <- (W (t - o2 + o1)) by lia. apply word_shift. intros b Hb. unfold d4, t2.
        replace ((4 * o2 <=? 0 + t * 4 + b) && (0 + t * 4 + b <? 4 * o2 + 4 * m)) with true by lia.
        replace ((0 <=? 0 + t * 4 + b - 4 * o2 + 0) && (0 + t * 4 + b - 4 * o2 + 0 <? 0 + 4 * m)) with true by lia. f_equal. lia.
      * rewrite <- (W t) by lia. apply word_shift. intros b Hb. unfold d4, d3.
        replace ((4 * o2 <=? 0 + t * 4 + b) && (0 + t * 4 + b <? 4 * o2 + 4 * m)) with false by lia.
        replace ((4 * o1 <=? 0 + t * 4 + b) && (0 + t * 4 + b <? 4 * o1 + 4 * m)) with false by lia. f_equal.
  - assert (L5 : List.length (objs s5) = (k + 1)%nat) by (unfold s5; cbn [objs]; now rewrite map_length).
    split; [exact F4|]. split; [rewrite L5; fold k; lia|]. split; [|split].
    + intros j Hj Hn. fold k in Hj. rewrite O5, Nk by auto. replace (Nat.eqb j k) with false by lia.
      destruct (Nat.eqb_spec j q) as [->|]; auto. exfalso. apply Hn. cbn. auto.
    + intros q' i [<-|[]] _ Hi. unfold byte_at. unfold isb in I, I5. rewrite I, I5. unfold d4, d3.
      replace ((4 * o2 <=? i) && (i <? 4 * o2 + 4 * m)) with false by lia.
      now replace ((4 * o1 <=? i) && (i <? 4 * o1 + 4 * m)) with false by lia.
    + intros _. apply heap_ok_kill. intros j o Ho. rewrite L4. rewrite Nk in Ho.
      destruct (Nat.eqb_spec j k) as [->|]; [injection Ho as <-; cbn; lia|].
      destruct (Nat.eqb_spec j q) as [->|].
      * destruct (nth_error (objs s) q) as [o'|] eqn:Eo; [|discriminate]. injection Ho as <-. apply Hs in Eo. fold k in Eo.
        destruct o'; cbn in *. lia.
      * apply Hs in Ho. fold k in Ho. lia.
Qed.

(** ** Loading and storing floats *)
Lemma loadf_arr e s q n g t : arr s q 0 4 n g -> 0 <= t < n -> loadf (Some q) t e s = Ret (fl_of_bits (g t)) s.
Proof.
  intros A Ht. unfold loadf. now rewrite (bind_ret _ _ _ _ _ _ (arr_load e s q 0 4 n g t (4 * t) 4%nat A Ht ltac:(lia) ltac:(lia))).
Qed.
Lemma storef_arr e s q n g t x : arr s q 0 4 n g -> 0 <= t < n ->
  exists s', storef (Some q) t x e s = Ret tt s' /\ arr s' q 0 4 n (fupd g t (fl_word x)) /\ inside s q 0 (n * 4) s'.
Proof.
  intros A Ht. unfold storef. destruct (arr_store e s q 0 4 n g t (4 * t) 4%nat (bits_of_fl x) A Ht ltac:(lia) ltac:(lia)) as (s' & E & A' & I').
  exists s'. split; [exact E|]. split; [exact A'|]. refine (inside_weaken _ _ _ _ _ _ _ _ _ I'); lia.
Qed.

Section Run.
  Variables (e : env) (m : Z).
  Hypotheses (Hm : 0 < m) (B : m * m <= 2147483647).
  Notation N := (m * m).
  Notation FA := float_arith.

  Lemma identity_run s q g : arr s q 0 4 N g ->
    exists s', set_identity_matrix_float (Some q) m e s = Ret tt s' /\ arr s' q 0 4 N (g_identity FA m)
      /\ inside s q 0 (N * 4) s'.
  Proof.
    intros A. unfold set_identity_matrix_float.
    apply (grid_run e s q 4 m m g (g_identity FA m) (fun i j =>
      r <- ev (i * m + j)%C ;; storef (Some q) r (if i =? j then fl_of_Z 1 else fl_of_Z 0))); auto; try lia.
    intros i j s1 Hi Hj A1 I1. pose proof (cell_range m m i j Hi Hj) as Hr.
    rewrite (bind_ret _ _ _ _ _ _ (ev_cell e s1 m m i j Hi Hj B)).
    destruct (storef_arr e s1 q N _ (i * m + j) (if i =? j then fl_of_Z 1 else fl_of_Z 0) A1 Hr) as (s2 & E2 & A2 & I2).
    exists s2. split; [exact E2|]. split; [|exact I2]. eapply upto_step; [exact A2|].
    unfold g_identity. rewrite cell_div, cell_mod by lia. now destruct (i =? j).
  Qed.

  Lemma row_offset r i : 0 <= r < m -> 0 <= i < m -> 0 <= r * m + i < N.
  Proof. intros. now apply cell_range. Qed.

  Lemma scale_run s q g r p : arr s q 0 4 N g -> 0 <= r < m ->
    exists s', matrix_row_multi_scalar_float (Some q) m m r (fl_recip (fl_of_bits p)) e s = Ret tt s'
      /\ arr s' q 0 4 N (g_scale FA m g r p) /\ inside s q 0 (N * 4) s'.
  Proof.
    intros A Hr. unfold matrix_row_multi_scalar_float.
    replace ((0 <=? r) && (r <? m)) with true by lia. rewrite bind_assert by reflexivity.
    set (G := fun i t => if (r * m <=? t) && (t <? r * m + i) then a_scale FA (g t) p else g t).
    destruct (for_inv e 0 m (fun i => k <- ev (r * m + i)%C ;; x <- loadf (Some q) k ;;
        storef (Some q) k (fl_mul x (fl_recip (fl_of_bits p))))
      (fun i s1 => arr s1 q 0 4 N (G i) /\ inside s q 0 (N * 4) s1) s) as (s' & E & A' & I').
    - lia.
    - split.
      + eapply arr_ext; [|exact A]. intros t Ht. unfold G. now replace ((r * m <=? t) && (t <? r * m + 0)) with false by lia.
      + destruct (arr_isb _ _ _ _ _ _ A) as (N0 & d & Hd). eapply inside_refl; eauto.
    - intros i s1 Hi [A1 I1]. pose proof (row_offset r i Hr Hi) as Ho.
      rewrite (bind_ret _ _ _ _ _ _ (ev_cell e s1 m m r i Hr Hi B)).
      rewrite (bind_ret _ _ _ _ _ _ (loadf_arr e s1 q N _ _ A1 Ho)).
      destruct (storef_arr e s1 q N _ (r * m + i) (fl_mul (fl_of_bits (G i (r * m + i))) (fl_recip (fl_of_bits p))) A1 Ho) as (s2 & E2 & A2 & I2).
      exists s2. split; [exact E2|]. split; [|eapply inside_trans; eauto].
      eapply arr_ext; [|exact A2]. intros t Ht. unfold fupd. set (o := r * m) in *. destruct (Z.eqb_spec t (o + i)) as [->|].
      + unfold G. fold o. replace ((o <=? o + i) && (o + i <? o + i)) with false by lia.
        now replace ((o <=? o + i) && (o + i <? o + (i + 1))) with true by lia.
      + unfold G. fold o. now replace (t <? o + (i + 1)) with (t <? o + i) by lia.
    - exists s'. split; [exact E|]. split; [|exact I']. eapply arr_ext; [|exact A']. reflexivity.
  Qed.

  Lemma shear_run s q g r1 r2 v : arr s q 0 4 N g -> 0 <= r1 < m -> 0 <= r2 < m -> r1 <> r2 ->
    exists s', shear_row (Some q) m m r1 r2 (sf_opp (fl_of_bits v)) e s = Ret tt s'
      /\ arr s' q 0 4 N (g_shear FA m g r1 r2 v) /\ inside s q 0 (N * 4) s'.
  Proof.
    intros A Hr1 Hr2 Hne. unfold shear_row.
    replace (negb (r1 =? r2) && (0 <=? r1) && (r1 <? m) && (0 <=? r2) && (r2 <? m)) with true by lia. rewrite bind_assert by reflexivity.
    set (G := fun i t => if (r1 * m <=? t) && (t <? r1 * m + i) then a_shear FA (g t) v (g (t - r1 * m + r2 * m)) else g t).
    assert (RR : r1 * m + m <= r2 * m \/ r2 * m + m <= r1 * m).
    { destruct (Z.lt_ge_cases r1 r2); [left|right]; apply row_before; lia. }
    destruct (for_inv e 0 m (fun i => k1 <- ev (r1 * m + i)%C ;; k2 <- ev (r2 * m + i)%C ;;
        y <- loadf (Some q) k2 ;; x <- loadf (Some q) k1 ;;
        storef (Some q) k1 (fl_add x (fl_mul (sf_opp (fl_of_bits v)) y)))
      (fun i s1 => arr s1 q 0 4 N (G i) /\ inside s q 0 (N * 4) s1) s) as (s' & E & A' & I').
    - lia.
    - split.
      + eapply arr_ext; [|exact A]. intros t Ht. unfold G. now replace ((r1 * m <=? t) && (t <? r1 * m + 0)) with false by lia.
      + destruct (arr_isb _ _ _ _ _ _ A) as (N0 & d & Hd). eapply inside_refl; eauto.
    - intros i s1 Hi [A1 I1]. pose proof (row_offset r1 i Hr1 Hi) as Ho1. pose proof (row_offset r2 i Hr2 Hi) as Ho2.
      rewrite (bind_ret _ _ _ _ _ _ (ev_cell e s1 m m r1 i Hr1 Hi B)).
      rewrite (bind_ret _ _ _ _ _ _ (ev_cell e s1 m m r2 i Hr2 Hi B)).
      rewrite (bind_ret _ _ _ _ _ _ (loadf_arr e s1 q N _ _ A1 Ho2)).
      rewrite (bind_ret _ _ _ _ _ _ (loadf_arr e s1 q N _ _ A1 Ho1)).
      match goal with |- context [storef _ _ ?x] =>
        destruct (storef_arr e s1 q N _ (r1 * m + i) x A1 Ho1) as (s2 & E2 & A2 & I2) end.
      exists s2. split; [exact E2|]. split; [|eapply inside_trans; eauto].
      eapply arr_ext; [|exact A2]. intros t Ht. unfold fupd. set (o1 := r1 * m) in *. set (o2 := r2 * m) in *.
      destruct (Z.eqb_spec t (o1 + i)) as [->|].
      + unfold G. fold o1 o2. replace ((o1 <=? o1 + i) && (o1 + i <? o1 + i)) with false by lia.
        replace ((o1 <=? o1 + i) && (o1 + i <? o1 + (i + 1))) with true by lia.
        replace ((o1 <=? o2 + i) && (o2 + i <? o1 + i)) with false by lia. cbn [a_shear float_arith].
        now replace (o1 + i - o1 + o2) with (o2 + i) by lia.
      + unfold G. fold o1. now replace (t <? o1 + (i + 1)) with (t <? o1 + i) by lia.
    - exists s'. split; [exact E|]. split; [|exact I']. eapply arr_ext; [|exact A']. reflexivity.
  Qed.

  Variables (qr qm : nat).
  Hypothesis Hq : qr <> qm.
  Definition two (s : st) (res mat : Z -> Z) : Prop :=
    heap_ok s /\ arr s qr 0 4 N res /\ arr s qm 0 4 N mat.
  Definition steps (s s' : st) : Prop := keeps s [qr; qm] (N * 4) s'.

  Lemma two_mat s s' res mat mat' : two s res mat -> inside s qm 0 (N * 4) s' -> arr s' qm 0 4 N mat' ->
    two s' res mat' /\ steps s s'.
  Proof.
    intros (H1 & H2 & H3) I A. split; [|eapply inside_keeps; eauto; [lia|lia|cbn; auto]].
    split; [eapply inside_heap_ok; eauto|]. split; auto. eapply arr_inside; eauto.
  Qed.
  Lemma two_res s s' res mat res' : two s res mat -> inside s qr 0 (N * 4) s' -> arr s' qr 0 4 N res' ->
    two s' res' mat /\ steps s s'.
  Proof.
    intros (H1 & H2 & H3) I A. split; [|eapply inside_keeps; eauto; [lia|lia|cbn; auto]].
    split; [eapply inside_heap_ok; eauto|]. split; auto. eapply arr_inside; eauto.
  Qed.

  Lemma swap2_run s res mat i r : two s res mat -> 0 <= i < m -> 0 <= r < m -> i <> r ->
    exists s', (swap_rows_float (Some qm) m m i r ;;; swap_rows_float (Some qr) m m i r ;;; ret false) e s = Ret false s'
      /\ two s' (g_swap m res i r) (g_swap m mat i r) /\ steps s s'.
  Proof.
    intros (Hs & A1 & A2) Hi Hr Hne.
    destruct (swap_rows_run e s qm m mat i r Hs Hm B A2 Hi Hr Hne) as (s1 & E1 & M1 & K1). runs E1.
    apply (keeps_arr _ _ _ _ qr _ _ _ _ K1) in A1; [|intros [Q|[]]; auto].
    assert (Hs1 : heap_ok s1) by (apply K1; auto).
    destruct (swap_rows_run e s1 qr m res i r Hs1 Hm B A1 Hi Hr Hne) as (s2 & E2 & M2 & K2). runs E2.
    exists s2. split; [reflexivity|]. split.
    - split; [apply K2; auto|]. split; auto. eapply keeps_arr; eauto. intros [Q|[]]; auto.
    - eapply keeps_trans.
      + refine (keeps_weaken _ _ _ _ _ _ _ _ K1); [lia|]. intros x [<-|[]]; cbn; auto.
      + refine (keeps_weaken _ _ _ _ _ _ _ _ K2); [lia|]. intros x [<-|[]]; cbn; auto.
  Qed.

  Lemma clear_run i : 0 <= i < m -> forall fuel j s res mat, 0 <= j -> j + Z.of_nat fuel = m -> two s res mat ->
    exists s', for_ j m (fun j =>
          if i =? j then ret tt
          else
            k <- ev (j * m + i)%C ;;
            v <- loadf (Some qm) k ;;
            let shear_needed := sf_opp v in
            shear_row (Some qm) m m j i shear_needed ;;;
            shear_row (Some qr) m m j i shear_needed) e s = Ret tt s'
      /\ two s' (fst (g_clear FA m fuel i j res mat)) (snd (g_clear FA m fuel i j res mat)) /\ steps s s'.
  Proof.
    intros Hi. induction fuel as [|fuel IH]; intros j s res mat Hj Hf T.
    - rewrite for_empty by lia. exists s. split; [reflexivity|]. split; [exact T|apply keeps_refl].
    - rewrite for_first by lia. cbn [g_clear]. destruct (Z.eqb_spec i j) as [->|Hne].
      + rewrite bind_ret_l. apply IH; auto; lia.
      + destruct T as (Hs & A1 & A2). assert (Hj' : 0 <= j < m) by lia.
        rewrite bind_assoc. rewrite (bind_ret _ _ _ _ _ _ (ev_cell e s m m j i Hj' Hi B)).
        rewrite bind_assoc. rewrite (bind_ret _ _ _ _ _ _ (loadf_arr e s qm N _ _ A2 (row_offset j i Hj' Hi))).
        set (v := mat (j * m + i)). cbv zeta.
        destruct (shear_run s qm mat j i v A2 Hj' Hi ltac:(auto)) as (s1 & E1 & M1 & I1).
        destruct (two_mat s s1 res mat _ (conj Hs (conj A1 A2)) I1 M1) as [T1 K1].
        rewrite bind_assoc. rewrite (bind_ret _ _ _ _ _ _ E1).
        destruct T1 as (Hs1 & B1 & B2).
        destruct (shear_run s1 qr res j i v B1 Hj' Hi ltac:(auto)) as (s2 & E2 & M2 & I2).
        destruct (two_res s1 s2 res _ _ (conj Hs1 (conj B1 B2)) I2 M2) as [T2 K2].
        rewrite (bind_ret _ _ _ _ _ _ E2).
        destruct (IH (j + 1) s2 _ _ ltac:(lia) ltac:(lia) T2) as (s3 & E3 & T3 & K3).
        exists s3. split; [exact E3|]. split; [exact T3|]. eapply keeps_trans; [exact K1|]. eapply keeps_trans; eauto.
  Qed.

  Lemma step_run i s res mat : 0 <= i < m -> two s res mat ->
    exists s', (d' <- ev (i * m + i)%C ;;
        y <- loadf (Some qm) d' ;;
        let scalar := fl_recip y in
        matrix_row_multi_scalar_float (Some qm) m m i scalar ;;;
        matrix_row_multi_scalar_float (Some qr) m m i scalar ;;;
        for_ 0 m (fun j =>
          if i =? j then ret tt
          else
            k <- ev (j * m + i)%C ;;
            v <- loadf (Some qm) k ;;
            let shear_needed := sf_opp v in
            shear_row (Some qm) m m j i shear_needed ;;;
            shear_row (Some qr) m m j i shear_needed) ;;;
        ret false) e s = Ret false s'
      /\ two s' (fst (g_step FA m i res mat)) (snd (g_step FA m i res mat)) /\ steps s s'.
  Proof.
    intros Hi (Hs & A1 & A2).
    rewrite (bind_ret _ _ _ _ _ _ (ev_cell e s m m i i Hi Hi B)).
    rewrite (bind_ret _ _ _ _ _ _ (loadf_arr e s qm N _ _ A2 (row_offset i i Hi Hi))).
    unfold g_step. set (p := mat (i * m + i)). cbv zeta.
    destruct (scale_run s qm mat i p A2 Hi) as (s1 & E1 & M1 & I1).
    destruct (two_mat s s1 res mat _ (conj Hs (conj A1 A2)) I1 M1) as [T1 K1].
    rewrite (bind_ret _ _ _ _ _ _ E1). destruct T1 as (Hs1 & B1 & B2).
    destruct (scale_run s1 qr res i p B1 Hi) as (s2 & E2 & M2 & I2).
    destruct (two_res s1 s2 res _ _ (conj Hs1 (conj B1 B2)) I2 M2) as [T2 K2].
    rewrite (bind_ret _ _ _ _ _ _ E2).
    destruct (clear_run i Hi (Z.to_nat m) 0 s2 _ _ ltac:(lia) ltac:(lia) T2) as (s3 & E3 & T3 & K3).
    rewrite (bind_ret _ _ _ _ _ _ E3). exists s3. split; [reflexivity|]. split; [exact T3|].
    eapply keeps_trans; [exact K1|]. eapply keeps_trans; eauto.
  Qed.

  Lemma found_stays s lo x : forall fuel, (Z.to_nat (m - lo) <= fuel)%nat -> forall lo', lo <= lo' ->
    forS lo' m (fun r (found : option Z) =>
      match found with
      | Some _ => ret found
      | None => k <- ev (r * m + x)%C ;; y <- loadf (Some qm) k ;; ret (if negb (fl_is_zero y) then Some r else None)
      end) (Some lo) e s = Ret (Some lo) s.
  Proof.
    intros fuel _ lo' Hl. remember (Z.to_nat (m - lo')) as n eqn:En. revert lo' Hl En.
    induction n as [|n IH]; intros lo' Hl En; [now rewrite forS_empty by lia|].
    rewrite forS_first by lia. rewrite bind_ret_l. apply IH; lia.
  Qed.

  Lemma find_run s mat i : arr s qm 0 4 N mat -> 0 <= i < m -> forall fuel lo, 0 <= lo -> lo + Z.of_nat fuel = m ->
    forS lo m (fun r (found : option Z) =>
      match found with
      | Some _ => ret found
      | None => k <- ev (r * m + i)%C ;; y <- loadf (Some qm) k ;; ret (if negb (fl_is_zero y) then Some r else None)
      end) None e s = Ret (g_find FA m fuel mat i lo) s.
  Proof.
    intros A Hi. induction fuel as [|fuel IH]; intros lo Hlo Hf; [now rewrite forS_empty by lia|].
    rewrite forS_first by lia. cbn [g_find]. assert (Hl : 0 <= lo < m) by lia.
    rewrite bind_assoc. rewrite (bind_ret _ _ _ _ _ _ (ev_cell e s m m lo i Hl Hi B)).
    rewrite bind_assoc. rewrite (bind_ret _ _ _ _ _ _ (loadf_arr e s qm N _ _ A (row_offset lo i Hl Hi))).
    rewrite bind_ret_l. cbn [a_is_zero float_arith].
    destruct (fl_is_zero (fl_of_bits (mat (lo * m + i)))); cbn [negb].
    - apply IH; lia.
    - apply (found_stays s lo i (Z.to_nat (m - lo))); lia.
  Qed.

  Lemma g_find_range fuel mat i lo r : g_find FA m fuel mat i lo = Some r -> lo <= r < lo + Z.of_nat fuel.
  Proof.
    revert lo. induction fuel as [|fuel IH]; intros lo H; cbn [g_find] in H; [discriminate|].
    destruct (a_is_zero FA (mat (lo * m + i))); [apply IH in H; lia|]. injection H as <-. lia.
  Qed.

  Definition outer (i : Z) (returned : bool) : M bool :=
    if returned then ret true
    else
      d <- ev (i * m + i)%C ;;
      x <- loadf (Some qm) d ;;
      stop <-
        (if fl_is_zero x then
           r <- forS (i + 1) m (fun r (found : option Z) =>
                  match found with
                  | Some _ => ret found
                  | None =>
                      k <- ev (r * m + i)%C ;;
                      y <- loadf (Some qm) k ;;
                      ret (if negb (fl_is_zero y) then Some r else None)
                  end) None ;;
           match r with
           | None => ret true
           | Some r =>
               swap_rows_float (Some qm) m m i r ;;;
               swap_rows_float (Some qr) m m i r ;;;
               ret false
           end
         else ret false) ;;
      if (stop : bool) then ret true
      else
        d' <- ev (i * m + i)%C ;;
        y <- loadf (Some qm) d' ;;
        let scalar := fl_recip y in
        matrix_row_multi_scalar_float (Some qm) m m i scalar ;;;
        matrix_row_multi_scalar_float (Some qr) m m i scalar ;;;
        for_ 0 m (fun j =>
          if i =? j then ret tt
          else
            k <- ev (j * m + i)%C ;;
            v <- loadf (Some qm) k ;;
            let shear_needed := sf_opp v in
            shear_row (Some qm) m m j i shear_needed ;;;
            shear_row (Some qr) m m j i shear_needed) ;;;
        ret false.

  Lemma outer_done s lo : forS lo m outer true e s = Ret true s.
  Proof.
    remember (Z.to_nat (m - lo)) as n eqn:En. revert lo En.
    induction n as [|n IH]; intros lo En; [now rewrite forS_empty by lia|].
    rewrite forS_first by lia. unfold outer at 1. rewrite bind_ret_l. apply IH; lia.
  Qed.

  Lemma loop_run : forall fuel i s res mat, 0 <= i -> i + Z.of_nat fuel = m -> two s res mat ->
    let r := g_loop FA m fuel i res mat in
    exists s', forS i m outer false e s = Ret (negb (fst r)) s' /\ two s' (fst (snd r)) (snd (snd r)) /\ steps s s'.
  Proof.
    induction fuel as [|fuel IH]; intros i s res mat Hi Hf T; cbv zeta; cbn [g_loop].
    - rewrite forS_empty by lia. exists s. split; [reflexivity|]. split; [exact T|apply keeps_refl].
    - rewrite forS_first by lia. assert (Hi' : 0 <= i < m) by lia. pose proof T as (Hs & A1 & A2).
      unfold outer at 1.
      rewrite bind_assoc. rewrite (bind_ret _ _ _ _ _ _ (ev_cell e s m m i i Hi' Hi' B)).
      rewrite bind_assoc. rewrite (bind_ret _ _ _ _ _ _ (loadf_arr e s qm N _ _ A2 (row_offset i i Hi' Hi'))).
      change (a_is_zero FA (mat (i * m + i))) with (fl_is_zero (fl_of_bits (mat (i * m + i)))).
      destruct (fl_is_zero (fl_of_bits (mat (i * m + i)))) eqn:Ez.
      + rewrite bind_assoc. rewrite bind_assoc.
        rewrite (bind_ret _ _ _ _ _ _ (find_run s mat i A2 Hi' (Z.to_nat (m - i - 1)) (i + 1) ltac:(lia) ltac:(lia))).
        destruct (g_find FA m (Z.to_nat (m - i - 1)) mat i (i + 1)) as [r|] eqn:Er.
        * apply g_find_range in Er.
          destruct (swap2_run s res mat i r T Hi' ltac:(lia) ltac:(lia)) as (s1 & E1 & T1 & K1).
          rewrite (bind_ret _ _ _ _ _ _ E1).
          destruct (step_run i s1 _ _ Hi' T1) as (s2 & E2 & T2 & K2).
          rewrite (bind_ret _ _ _ _ _ _ E2).
          destruct (IH (i + 1) s2 _ _ ltac:(lia) ltac:(lia) T2) as (s3 & E3 & T3 & K3).
          exists s3. split; [exact E3|]. split; [exact T3|]. eapply keeps_trans; [exact K1|]. eapply keeps_trans; eauto.
        * rewrite bind_ret_l. rewrite bind_ret_l. rewrite outer_done. exists s. split; [reflexivity|].
          split; [exact T|apply keeps_refl].
      + rewrite bind_assoc. rewrite bind_ret_l.
        destruct (step_run i s _ _ Hi' T) as (s2 & E2 & T2 & K2).
        rewrite (bind_ret _ _ _ _ _ _ E2).
        destruct (IH (i + 1) s2 _ _ ltac:(lia) ltac:(lia) T2) as (s3 & E3 & T3 & K3).
        exists s3. split; [exact E3|]. split; [exact T3|]. eapply keeps_trans; eauto.
  Qed.

  Lemma invert_run s res mat : two s res mat ->
    exists s', invert_matrix_float (Some qr) (Some qm) m e s = Ret tt s'
      /\ two s' (fst (snd (gauss_jordan FA m mat))) (snd (snd (gauss_jordan FA m mat))) /\ steps s s'.
  Proof.
    intros T. pose proof T as (Hs & A1 & A2). unfold invert_matrix_float.
    destruct (identity_run s qr res A1) as (s1 & E1 & M1 & I1). runs E1.
    destruct (two_res s s1 res mat _ T I1 M1) as [T1 K1].
    destruct (loop_run (Z.to_nat m) 0 s1 _ _ ltac:(lia) ltac:(lia) T1) as (s2 & E2 & T2 & K2).
    exists s2. split; [|split; [exact T2|eapply keeps_trans; eauto]].
    change ((forS 0 m outer false ;;; ret tt) e s1 = Ret tt s2). rewrite (bind_ret _ _ _ _ _ _ E2). reflexivity.
  Qed.
End Run.
