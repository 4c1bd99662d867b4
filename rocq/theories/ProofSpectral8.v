(** * Proofs: edge energy. *)
From Verif Require Import Base Logic ModelFloat ModelDouble ModelCore ModelImage ModelFilter SpecBase SpecCore SpecImage SpecImage2 SpecPixel SpecNum SpecMatrix SpecFilter
  SpecStat SpecSpectral SpecEnergy ProofCore ProofCore2 ProofHM ProofCopy ProofImage ProofPixel ProofFloat ProofFloat2 ProofWord ProofConv ProofArr ProofGrid ProofGrad ProofFilter ProofStat ProofSave2
  ProofCluster3 ProofFold ProofErr ProofBorder ProofCalib ProofFlip ProofValid ProofSpectral ProofSpectral2 ProofSpectral3 ProofSpectral4 ProofSpectral5.
From Verif Require Import ModelSpectral.
From Coq Require Import List Floats.SpecFloat Lia ZifyBool ZifyNat.
Import ListNotations.
Ltac Zify.zify_post_hook ::= Z.div_mod_to_equations.
Open Scope Z_scope.

Lemma matrix_old s s1 p r c X : (forall k, p = Some k -> nth_error (objs s1) k = nth_error (objs s) k) -> matrix s p 4 r c X -> matrix s1 p 4 r c X.
Proof.
  intros H M i j Hi Hj. specialize (M i j Hi Hj). destruct p as [k|]; [|exact M].
  assert (B : forall x, byte_at s1 (Some k) x = byte_at s (Some k) x) by (intro x; apply nth_byte_at; now apply H).
  rewrite <- M. clear M. generalize ((i * c + j) * 4). generalize (Z.to_nat 4).
  induction n as [|n IH]; intro o; cbn [word_at]; [reflexivity|]. now rewrite B, IH.
Qed.
Lemma image_keep s s1 p m : (forall k, p = Some k \/ sm_data m = Some k -> nth_error (objs s1) k = nth_error (objs s) k) -> image s p m 1 -> image s1 p m 1.
Proof.
  intros H [A B C D E F G]. constructor; auto.
  - destruct p as [k|]; [|discriminate]. rewrite (nth_sm_at s s1 k (H k (or_introl eq_refl))). exact A.
  - apply readable_isb in G as (q & sz & f & Eq & I & N). rewrite Eq. eapply isb_readable; [|exact N].
    unfold isb in *. rewrite (nth_bytes_at s s1 q (H q (or_intror Eq))). exact I.
Qed.

(** The kernel arrays. *)
Lemma kernel_fill e s a b N f g : isb s a N f -> isb s b N g -> a <> b -> 36 <= N ->
  exists s', for_ 0 9 (fun i => storef (Some a) i (energy_weight energy_mask1 i) ;;; storef (Some b) i (energy_weight energy_mask2 i)) e s = Ret tt s'
    /\ matrix s' (Some a) 4 3 3 diagonal /\ matrix s' (Some b) 4 3 3 antidiagonal
    /\ exists f' g', s' = putd (putd s a f') b g'.
Proof.
  intros Ia Ib Hab HN.
  set (h1 := fun t => bits_of_fl (energy_weight energy_mask1 t)). set (h2 := fun t => bits_of_fl (energy_weight energy_mask2 t)).
  assert (R1 : forall t, 0 <= h1 t < 4294967296) by (intro t; apply bits_of_fl_range; apply fl_div_ok; apply fl_of_Z_valid).
  assert (R2 : forall t, 0 <= h2 t < 4294967296) by (intro t; apply bits_of_fl_range; apply fl_div_ok; apply fl_of_Z_valid).
  destruct (for_inv e 0 9 (fun i => storef (Some a) i (energy_weight energy_mask1 i) ;;; storef (Some b) i (energy_weight energy_mask2 i))
    (fun t s1 => exists f' g', s1 = putd (putd s a f') b g'
       /\ (forall r, 0 <= r < t -> word f' (4 * r) 4 = h1 r) /\ (forall r, 0 <= r < t -> word g' (4 * r) 4 = h2 r)) s) as (s' & E & f' & g' & -> & A & B).
  - lia.
  - exists f, g. rewrite (putd_id _ _ _ _ Ia), (putd_id _ _ _ _ Ib). split; auto. split; intros; lia.
  - intros t s1 Ht (f1 & g1 & -> & A & B).
    assert (Ia1 : isb (putd (putd s a f1) b g1) a N f1) by (apply isb_putd_ne; auto; eapply isb_putd_eq; eauto).
    assert (Ib1 : isb (putd (putd s a f1) b g1) b N g1) by (eapply isb_putd_eq; apply isb_putd_ne; eauto).
    destruct (storele_ok e _ a N f1 4 (h1 t) (4 * t) Ia1 ltac:(lia) ltac:(lia)) as (f2 & E1 & A1 & A2).
    set (s2 := putd (putd (putd s a f1) b g1) a f2) in *.
    assert (Ib2 : isb s2 b N g1) by (apply isb_putd_ne; auto).
    destruct (storele_ok e s2 b N g1 4 (h2 t) (4 * t) Ib2 ltac:(lia) ltac:(lia)) as (g2 & E2 & B1 & B2).
    exists (putd s2 b g2). split.
    + unfold storef. runs E1. exact E2.
    + exists f2, g2. unfold s2. split; [|split].
      * rewrite (putd_comm (putd s a f1) b a) by auto. now rewrite !putd_putd.
      * intros r Hr. destruct (Z.eq_dec r t) as [->|Hne].
        -- rewrite A1. apply Z.mod_small. change (256 ^ Z.of_nat 4) with 4294967296. apply R1.
        -- rewrite <- A by lia. apply word_ext. intros u Hu. rewrite A2 by lia. reflexivity.
      * intros r Hr. destruct (Z.eq_dec r t) as [->|Hne].
        -- rewrite B1. apply Z.mod_small. change (256 ^ Z.of_nat 4) with 4294967296. apply R2.
        -- rewrite <- B by lia. apply word_ext. intros u Hu. rewrite B2 by lia. reflexivity.
  - exists (putd (putd s a f') b g'). split; [exact E|].
    assert (Ia1 : isb (putd (putd s a f') b g') a N f') by (apply isb_putd_ne; auto; eapply isb_putd_eq; eauto).
    assert (Ib1 : isb (putd (putd s a f') b g') b N g') by (eapply isb_putd_eq; apply isb_putd_ne; eauto).
    split; [|split].
    + intros i j Hi Hj. change (Z.to_nat 4) with 4%nat. rewrite (word_at_isb _ a N f' 4 Ia1) by lia. rewrite Z.mul_comm, A by lia. reflexivity.
    + intros i j Hi Hj. change (Z.to_nat 4) with 4%nat. rewrite (word_at_isb _ b N g' 4 Ib1) by lia. rewrite Z.mul_comm, B by lia. reflexivity.
    + eauto.
Qed.

(** What follows the creation of the destinations. *)
Definition energy_rest (pow2 : sf -> sf) (mat opt1 opt2 dst1 dst2 : ptr) (rows cols : Z) : M sf :=
  hypercv_filter2D mat dst1 opt1 3 3 0 ;;;
  hypercv_filter2D mat dst2 opt2 3 3 0 ;;;
  simple_mat_addition_float dst1 dst2 dst1 ;;;
  m1 <- sget dst1 ;;
  r <- forS 0 rows (fun i r =>
    forS 0 cols (fun j r =>
      x <- ev (i * cols + j)%C ;;
      v <- loadf (sm_data m1) x ;;
      ret (fl_of_db (db_add (db_of_fl r) (pow2 (db_of_fl v))))) r) (fl_of_Z 0) ;;
  delete_simple_mat dst1 ;;;
  delete_simple_mat dst2 ;;;
  ret (fl_div (fl_div r (fl_of_Z rows)) (fl_of_Z cols)).
Lemma energy_prefix pow2 e s pk m P q sz f : env_ok e -> heap_ok s -> sm_at s (Some pk) = Some m -> 1 <= sm_rows m -> 1 <= sm_cols m ->
  sm_rows m * sm_cols m * 4 + 96 <= 2147483647 -> sm_data m = Some q -> isb s q sz f -> sm_rows m * sm_cols m <= sz ->
  (forall i j, 0 <= i < sm_rows m -> 0 <= j < sm_cols m -> byte_at s (sm_data m) (i * sm_cols m + j) = Some (P i j)) ->
  let k := List.length (objs s) in let R := sm_rows m in let C := sm_cols m in
  exists s6 m1 m2 d1 d2, cal_edge_signal_energy pow2 (Some pk) e s = energy_rest pow2 (Some pk) (Some k) (Some (k + 1)%nat) (Some (k + 2)%nat) (Some (k + 4)%nat) R C e s6
    /\ isb s6 q sz f /\ q <> pk /\ (pk < k)%nat /\ (q < k)%nat
    /\ List.length (objs s6) = (k + 6)%nat /\ heap_ok s6
    /\ nth_error (objs s6) (k + 2) = Some (mkObj (e_addr e (k + 2)) (32 + (R * C * 4 * 1 + 64)) (k + 2) true (CSM m1))
    /\ nth_error (objs s6) (k + 3) = Some (mkObj (align64 (e_addr e (k + 2) + 32)) (R * C * 4 * 1) (k + 2) true (CBytes d1))
    /\ nth_error (objs s6) (k + 4) = Some (mkObj (e_addr e (k + 4)) (32 + (R * C * 4 * 1 + 64)) (k + 4) true (CSM m2))
    /\ nth_error (objs s6) (k + 5) = Some (mkObj (align64 (e_addr e (k + 4) + 32)) (R * C * 4 * 1) (k + 4) true (CBytes d2))
    /\ sm_at s6 (Some (k + 2)%nat) = Some m1 /\ sm_at s6 (Some (k + 4)%nat) = Some m2 /\ sm_data m1 = Some (k + 3)%nat /\ sm_data m2 = Some (k + 5)%nat
    /\ matrix s6 (Some (k + 3)%nat) 4 R (C * 1) (fun _ _ => 0) /\ matrix s6 (Some (k + 5)%nat) 4 R (C * 1) (fun _ _ => 0)
    /\ image s6 (Some pk) (as_grey m) 1 /\ colours s6 (as_grey m) (fun i j _ => P i j)
    /\ matrix s6 (Some k) 4 3 3 diagonal /\ matrix s6 (Some (k + 1)%nat) 4 3 3 antidiagonal
    /\ (forall i, (i < k)%nat -> i <> pk -> nth_error (objs s6) i = nth_error (objs s) i)
    /\ (forall i, (i < k)%nat -> option_map block_of (nth_error (objs s6) i) = option_map block_of (nth_error (objs s) i))
    /\ files s6 = files s
    /\ (sm_rows m1 = R /\ sm_cols m1 = C /\ sm_chan m1 = 1 /\ mkSM (sm_rows m1) (sm_cols m1) 4 (sm_chan m1) (sm_esize m1) (sm_data m1) = m1)
    /\ (sm_rows m2 = R /\ sm_cols m2 = C /\ sm_chan m2 = 1 /\ mkSM (sm_rows m2) (sm_cols m2) 4 (sm_chan m2) (sm_esize m2) (sm_data m2) = m2).
Proof.
  intros He Hs Hm HR HC Hsz Eq Iq Nq HP k R C. fold R C in HR, HC, Hsz, Nq, HP.
  assert (Hpos : 0 < R * C) by (clear - HR HC; nia). assert (HRC : R <= R * C /\ C <= R * C) by (clear - HR HC; nia).
  unfold cal_edge_signal_energy. rewrite bind_assert by reflexivity. runs (sget_ok _ _ e _ Hm).
  runs (set_header_ok_sm e s pk m (CSM (as_grey m)) Hm).
  fold (as_grey m). set (s1 := putc s pk (CSM (as_grey m))).
  assert (L1 : List.length (objs s1) = k) by (unfold s1, putc; cbn; apply lupd_length).
  assert (H1 : heap_ok s1) by (apply heap_ok_putc; auto).
  assert (Hqp : q <> pk) by (eapply header_not_data; eauto).
  assert (Lp : (pk < k)%nat). { apply sm_at_obj in Hm as (? & ? & ? & Hm). eapply nth_error_lt; eauto. }
  assert (Lq : (q < k)%nat) by (eapply isb_lt; eauto).
  assert (IM1 : image s1 (Some pk) (as_grey m) 1).
  { constructor; cbn [as_grey sm_rows sm_cols sm_type sm_chan sm_data]; fold R C; try lia; try reflexivity.
    - eapply sm_at_putc_eq; eauto.
    - rewrite Eq. eapply isb_readable; [|instantiate (1 := sz); lia]. unfold isb, s1. rewrite bytes_at_putc_ne; [exact Iq|congruence]. }
  (* the kernels *)
  runs (big_malloc e s1 36 ltac:(lia)). rewrite L1. set (s2 := with_block e s1 36 (e_junk e k)).
  assert (L2 : List.length (objs s2) = (k + 1)%nat) by (unfold s2; rewrite wb_len, L1; lia).
  assert (H2 : heap_ok s2) by (apply wb_heap; auto).
  runs (big_malloc e s2 36 ltac:(lia)). rewrite L2. set (s3 := with_block e s2 36 (e_junk e (k + 1))).
  assert (L3 : List.length (objs s3) = (k + 2)%nat) by (unfold s3; rewrite wb_len, L2; lia).
  assert (H3 : heap_ok s3) by (apply wb_heap; auto).
  assert (I3a : isb s3 k 36 (e_junk e k)).
  { apply wb_isb_old. rewrite <- L1 at 1. apply wb_isb. }
  assert (I3b : isb s3 (k + 1) 36 (e_junk e (k + 1))).
  { rewrite <- L2 at 1. apply wb_isb. }
  destruct (kernel_fill e s3 k (k + 1) 36 _ _ I3a I3b ltac:(lia) ltac:(lia)) as (s4 & E4 & K1 & K2 & f4 & g4 & D4).
  runs E4. cbv zeta. fold R C.
  assert (L4 : List.length (objs s4) = (k + 2)%nat) by (rewrite D4, !putd_length; exact L3).
  assert (H4 : heap_ok s4) by (rewrite D4; apply heap_ok_putd, heap_ok_putd; exact H3).
  assert (O4 : forall i, (i < k)%nat -> nth_error (objs s4) i = nth_error (objs s1) i).
  { intros i Hi. rewrite D4, !objs_putd_ne by lia. unfold s3. rewrite wb_old by (rewrite L2; lia). unfold s2. rewrite wb_old by (rewrite L1; lia). reflexivity. }
  clear I3a I3b E4.
  (* the two destinations *)
  destruct (create_sm_run e s4 R C 4 4 1 He H4 eq_refl ltac:(lia) ltac:(lia) ltac:(lia) ltac:(clear - Hsz; lia)) as (d1 & E5 & Z1 & _).
  rewrite L4 in E5. runs E5. set (s5 := newsm e s4 R C 4 4 1 d1) in *.
  assert (L5 : List.length (objs s5) = (k + 4)%nat) by (unfold s5, newsm; cbn [objs]; rewrite app_length, L4; cbn; lia).
  assert (H5 : heap_ok s5) by (apply newsm_heap_ok; auto).
  destruct (create_sm_run e s5 R C 4 4 1 He H5 eq_refl ltac:(lia) ltac:(lia) ltac:(lia) ltac:(clear - Hsz; lia)) as (d2 & E6 & Z2 & _).
  rewrite L5 in E6. runs E6. set (s6 := newsm e s5 R C 4 4 1 d2) in *.
  assert (L6 : List.length (objs s6) = (k + 6)%nat) by (unfold s6, newsm; cbn [objs]; rewrite app_length, L5; cbn; lia).
  assert (H6 : heap_ok s6) by (apply newsm_heap_ok; auto). clear E5 E6.
  assert (O6 : forall i, (i < k + 4)%nat -> nth_error (objs s6) i = nth_error (objs s5) i) by (intros i Hi; apply newsm_old_unchanged; rewrite L5; lia).
  assert (O5 : forall i, (i < k + 2)%nat -> nth_error (objs s5) i = nth_error (objs s4) i) by (intros i Hi; apply newsm_old_unchanged; rewrite L4; lia).
  pose proof (newsm_nth0 e s4 R C 4 4 1 d1) as N2. pose proof (newsm_nth1 e s4 R C 4 4 1 d1) as N3. fold s5 in N2, N3. rewrite L4 in N2, N3.
  pose proof (newsm_nth0 e s5 R C 4 4 1 d2) as N4. pose proof (newsm_nth1 e s5 R C 4 4 1 d2) as N5. fold s6 in N4, N5. rewrite L5 in N4, N5.
  replace (k + 2 + 1)%nat with (k + 3)%nat in N3 by lia. replace (k + 4 + 1)%nat with (k + 5)%nat in N5 by lia.
  rewrite <- O6 in N2, N3 by lia.
  set (m1 := newsm_hdr s4 R C 4 4 1) in *. set (m2 := newsm_hdr s5 R C 4 4 1) in *.
  assert (M1 : sm_at s6 (Some (k + 2)%nat) = Some m1) by (unfold sm_at; now rewrite N2).
  assert (M2 : sm_at s6 (Some (k + 4)%nat) = Some m2) by (unfold sm_at; now rewrite N4).
  assert (Q1 : sm_data m1 = Some (k + 3)%nat) by (unfold m1, newsm_hdr; cbn [sm_data]; rewrite L4; f_equal; lia).
  assert (Q2 : sm_data m2 = Some (k + 5)%nat) by (unfold m2, newsm_hdr; cbn [sm_data]; rewrite L5; f_equal; lia).
  assert (ZW : forall sx qx a r d, nth_error (objs sx) qx = Some (mkObj a (R * C * 4 * 1) r true (CBytes d)) -> (forall i, 0 <= i < R * C * 4 -> d i mod 256 = 0) ->
     matrix sx (Some qx) 4 R (C * 1) (fun _ _ => 0)).
  { intros sx qx a r d Hn HZ i j Hi Hj. pose proof (obj_isb _ _ _ _ _ _ Hn) as I. rewrite Z.mul_1_r in Hj.
    assert (B : 0 <= i * C + j < R * C) by (clear - Hi Hj; nia). rewrite !Z.mul_1_r in *.
    change (Z.to_nat 4) with 4%nat. rewrite (word_at_isb _ qx _ d 4 I) by lia. f_equal.
    transitivity (word (fun _ => 0) ((i * C + j) * 4) 4); [|reflexivity].
    apply word_ext. intros u Hu. rewrite HZ; [reflexivity|]. clear - B Hu. lia. }
  pose proof (ZW s6 _ _ _ _ N3 ltac:(exact Z1)) as W1. pose proof (ZW s6 _ _ _ _ N5 ltac:(exact Z2)) as W2. clear ZW.
  assert (IM6 : image s6 (Some pk) (as_grey m) 1).
  { apply (image_keep s1); auto. cbn [as_grey sm_data]. rewrite Eq. intros i Hi. rewrite O6, O5, O4; auto; destruct Hi as [[= <-]|[= <-]]; lia. }
  assert (G6 : colours s6 (as_grey m) (fun i j _ => P i j)).
  { intros i j c (Hi & Hj & Hc). cbn [as_grey sm_rows sm_cols sm_chan] in *. assert (c = 0) as -> by lia. fold R in Hi. fold C in Hj.
    unfold pix, pixel_byte. cbn [as_grey sm_rows sm_cols sm_chan sm_data]. rewrite <- HP by auto. rewrite Eq.
    rewrite (nth_byte_at s s6).
    - f_equal. fold C. ring.
    - rewrite O6, O5, O4 by lia. unfold s1, putc; cbn. apply lupd_nth_ne. auto. }
  assert (K1' : matrix s6 (Some k) 4 3 3 diagonal).
  { eapply matrix_old; [|exact K1]. intros i [= <-]. rewrite O6, O5 by lia. reflexivity. }
  assert (K2' : matrix s6 (Some (k + 1)%nat) 4 3 3 antidiagonal).
  { eapply matrix_old; [|exact K2]. intros i [= <-]. rewrite O6, O5 by lia. reflexivity. }
  assert (U6 : forall i, (i < k)%nat -> i <> pk -> nth_error (objs s6) i = nth_error (objs s) i).
  { intros i Hi Hn. rewrite O6, O5, O4 by lia. unfold s1, putc; cbn. apply lupd_nth_ne. auto. }
  assert (UB6 : forall i, (i < k)%nat -> option_map block_of (nth_error (objs s6) i) = option_map block_of (nth_error (objs s) i)).
  { intros i Hi. rewrite O6, O5, O4 by lia. unfold s1. apply same_blocks_nth. apply same_blocks_putc. }
  assert (F6 : files s6 = files s) by (unfold s6, s5, newsm; cbn [files]; rewrite D4; reflexivity).
  assert (X1 : sm_rows m1 = R /\ sm_cols m1 = C /\ sm_chan m1 = 1 /\ mkSM (sm_rows m1) (sm_cols m1) 4 (sm_chan m1) (sm_esize m1) (sm_data m1) = m1) by (unfold m1, newsm_hdr; cbn; auto).
  assert (X2 : sm_rows m2 = R /\ sm_cols m2 = C /\ sm_chan m2 = 1 /\ mkSM (sm_rows m2) (sm_cols m2) 4 (sm_chan m2) (sm_esize m2) (sm_data m2) = m2) by (unfold m2, newsm_hdr; cbn; auto).
  exists s6, m1, m2, d1, d2. split; [reflexivity|]. split.
  { unfold isb in *. rewrite (nth_bytes_at s s6 q (U6 q Lq Hqp)). exact Iq. }
  repeat (split; [assumption|]). assumption.
Qed.

(** Everything up to the two deletions. *)
Lemma energy_core pow2 e s p m P : env_ok e -> heap_ok s -> sm_at s p = Some m -> 2 <= sm_rows m -> 2 <= sm_cols m ->
  sm_rows m * sm_cols m * 4 + 96 <= INT_MAX -> readable s (sm_data m) (sm_rows m * sm_cols m) ->
  (forall i j, 0 <= i < sm_rows m -> 0 <= j < sm_cols m -> byte_at s (sm_data m) (i * sm_cols m + j) = Some (P i j)) ->
  let k := List.length (objs s) in
  exists s' m1 m2, cal_edge_signal_energy pow2 p e s = (delete_simple_mat (Some (k + 2)%nat) ;;; delete_simple_mat (Some (k + 4)%nat) ;;;
      ret (mean_square pow2 (sm_rows m) (sm_cols m) (edge_response (beyond_one m P)))) e s'
    /\ owns_data s' (Some (k + 2)%nat) m1 /\ owns_data s' (Some (k + 4)%nat) m2
    /\ option_map o_addr (block s' (Some (k + 2)%nat)) = Some (e_addr e (k + 2)) /\ option_map o_addr (block s' (Some (k + 4)%nat)) = Some (e_addr e (k + 4))
    /\ option_map o_root (block s' (Some (k + 5)%nat)) = Some (k + 4)%nat
    /\ sm_data m2 = Some (k + 5)%nat
    /\ unchanged_except [p] s s' /\ sm_at s' p = Some (as_grey m) /\ files s' = files s /\ heap_ok s' /\ List.length (objs s') = (k + 6)%nat
    /\ (forall i o, nth_error (objs s') i = Some o -> (i < k)%nat -> (o_root o < k)%nat).
Proof.
  intros He Hs Hm HR HC Hsz RD HP k. unfold INT_MAX in Hsz. destruct p as [pk|]; [|discriminate].
  apply readable_isb in RD as (q & sz & f & Eq & Iq & Nq).
  destruct (energy_prefix pow2 e s pk m P q sz f He Hs Hm ltac:(lia) ltac:(lia) Hsz Eq Iq Nq HP)
    as (s6 & m1 & m2 & d1 & d2 & ECAL & Iq6 & Hqp & Lp & Lq & L6 & H6 & N2 & N3 & N4 & N5 & M1 & M2 & Q1 & Q2 & W1 & W2 & IM6 & G6 & K1' & K2' & U6 & UB6 & F6 & X1 & X2).
  fold k in ECAL, Lp, Lq, L6, N2, N3, N4, N5, M1, M2, Q1, Q2, W1, W2, K1', K2', U6, UB6. rewrite ECAL. clear ECAL. unfold energy_rest.
  set (R := sm_rows m) in *. set (C := sm_cols m) in *.
  assert (Hpos : 0 < R * C) by (clear - HR HC; nia). assert (HRC : R <= R * C /\ C <= R * C) by (clear - HR HC; nia).
  destruct X1 as (R1 & C1 & CH1 & T1). destruct X2 as (R2 & C2 & CH2 & T2).
  (* the filters *)
  assert (Bk : 3 * 3 <= INT_MAX) by (unfold INT_MAX; lia).
  assert (Br : sm_rows (as_grey m) + 3 <= INT_MAX) by (cbn [as_grey sm_rows]; fold R; unfold INT_MAX; lia).
  assert (Bc : sm_cols (as_grey m) + 3 <= INT_MAX) by (cbn [as_grey sm_cols]; fold C; unfold INT_MAX; lia).
  destruct (filter_constant e s6 (Some pk) (Some (k + 2)%nat) (Some k) (as_grey m) m1 3 3 diagonal (fun _ _ => 0) (fun i j _ => P i j) IM6 M1 (or_introl eq_refl) G6)
    as (s7 & E7 & M1' & (V1 & W1' & VW1) & _ & U7 & B7); auto; try lia.
  { rewrite Q1. cbn [as_grey sm_rows sm_cols sm_chan]. exact W1. }
  { cbn [as_grey sm_data]. rewrite Eq, Q1. intros [= E]. lia. }
  { rewrite Q1. intros [= E]. lia. }
  runs E7. clear E7. rewrite T1 in M1'. cbn [as_grey sm_rows sm_cols sm_chan] in W1', VW1. fold R C in W1', VW1. rewrite Q1 in W1', U7.
  pose proof (same_blocks_length _ _ B7) as L7. rewrite L6 in L7.
  assert (O7 : forall i, (i < k + 6)%nat -> i <> (k + 2)%nat -> i <> (k + 3)%nat -> nth_error (objs s7) i = nth_error (objs s6) i).
  { intros i Hi Ha Hb. apply U7; [lia|]. cbn. intros [[= E]|[[= E]|[]]]; lia. }
  assert (IM7 : image s7 (Some pk) (as_grey m) 1).
  { apply (image_keep s6); auto. cbn [as_grey sm_data]. rewrite Eq. intros i Hi. apply O7; destruct Hi as [[= <-]|[= <-]]; lia. }
  assert (G7 : colours s7 (as_grey m) (fun i j _ => P i j)).
  { intros i j c Hin. rewrite <- (G6 i j c Hin). unfold pix, pixel_byte. cbn [as_grey sm_data sm_cols sm_chan]. rewrite Eq. apply nth_byte_at. apply O7; lia. }
  assert (M2' : sm_at s7 (Some (k + 4)%nat) = Some m2) by (rewrite (nth_sm_at s6); [exact M2|apply O7; lia]).
  assert (W2' : matrix s7 (sm_data m2) 4 (sm_rows (as_grey m)) (sm_cols (as_grey m) * sm_chan (as_grey m)) (fun _ _ => 0)).
  { rewrite Q2. cbn [as_grey sm_rows sm_cols sm_chan]. eapply matrix_old; [|exact W2]. intros i [= <-]. apply O7; lia. }
  assert (K2'' : matrix s7 (Some (k + 1)%nat) 4 3 3 antidiagonal) by (eapply matrix_old; [|exact K2']; intros i [= <-]; apply O7; lia).
  destruct (filter_constant e s7 (Some pk) (Some (k + 4)%nat) (Some (k + 1)%nat) (as_grey m) m2 3 3 antidiagonal (fun _ _ => 0) (fun i j _ => P i j) IM7 M2' (or_introl eq_refl) G7)
    as (s8 & E8 & M2'' & (V2 & W2'' & VW2) & _ & U8 & B8); auto; try lia.
  { cbn [as_grey sm_data]. rewrite Eq, Q2. intros [= E]. lia. }
  { rewrite Q2. intros [= E]. lia. }
  runs E8. clear E8. rewrite T2 in M2''. cbn [as_grey sm_rows sm_cols sm_chan] in W2'', VW2. fold R C in W2'', VW2. rewrite Q2 in W2'', U8.
  pose proof (same_blocks_length _ _ B8) as L8. rewrite L7 in L8.
  assert (O8 : forall i, (i < k + 6)%nat -> i <> (k + 4)%nat -> i <> (k + 5)%nat -> nth_error (objs s8) i = nth_error (objs s7) i).
  { intros i Hi Ha Hb. apply U8; [lia|]. cbn. intros [[= E]|[[= E]|[]]]; lia. }
  assert (M1'' : sm_at s8 (Some (k + 2)%nat) = Some m1) by (rewrite (nth_sm_at s7); [exact M1'|apply O8; lia]).
  assert (W1'' : matrix s8 (Some (k + 3)%nat) 4 R (C * 1) V1) by (eapply matrix_old; [|exact W1']; intros i [= <-]; apply O8; lia).
  rewrite Z.mul_1_r in W1'', W2''.
  assert (EL : forall sx qx V, matrix sx (Some qx) 4 R C V -> elements_of sx (Some qx) 4 (R * C) (fun t => V (t / C) (t mod C))).
  { intros sx qx V MV. destruct (matrix_arr sx (Some qx) 4 R C V ltac:(lia) ltac:(lia) ltac:(lia) MV) as (qy & [= <-] & AV).
    intros t Ht. pose proof (arr_word _ _ _ _ _ _ t AV Ht) as Q. rewrite Z.add_0_l in Q. exact Q. }
  pose proof (EL _ _ _ W1'') as EL1. pose proof (EL _ _ _ W2'') as EL2.
  destruct (matrix_arr s8 (Some (k + 3)%nat) 4 R C V1 ltac:(lia) ltac:(lia) ltac:(lia) W1'') as (qy & [= <-] & (NN & dd & IN & _ & _ & LN & _)).
  destruct (addition_run e s8 (Some (k + 2)%nat) m1 (Some (k + 4)%nat) m2 (Some (k + 2)%nat) m1 (fun t => V1 (t / C) (t mod C)) (fun t => V2 (t / C) (t mod C)))
    as (s9 & E9 & CB & q3 & Eq3 & I9); auto; rewrite ?R1, ?R2, ?C1, ?C2, ?CH1, ?CH2, ?Q1, ?Q2, ?Z.min_id, ?Z.mul_1_r; try lia; auto.
  { unfold INT_MAX. lia. }
  { eapply isb_readable; [exact IN|lia]. }
  runs E9. clear E9. rewrite Q1 in Eq3. injection Eq3 as <-.
  rewrite R1, R2, C1, CH1, Q1, Q2, Z.min_id, Z.mul_1_r in CB. rewrite R1, R2, C1, CH1, Z.min_id, Z.mul_1_r in I9.
  pose proof I9 as (N9 & d9 & d9' & I9a & D9 & _).
  assert (B9 : same_blocks s8 s9) by (rewrite D9; apply same_blocks_putd).
  assert (O9 : forall i, i <> (k + 3)%nat -> nth_error (objs s9) i = nth_error (objs s8) i) by (intros i Hi; rewrite D9; apply objs_putd_ne; auto).
  assert (M19 : sm_at s9 (Some (k + 2)%nat) = Some m1) by (rewrite (nth_sm_at s8); [exact M1''|apply O9; lia]).
  assert (M29 : sm_at s9 (Some (k + 4)%nat) = Some m2) by (rewrite (nth_sm_at s8); [exact M2''|apply O9; lia]).
  runs (sget_ok _ _ e _ M19). rewrite Q1.
  (* the sum of the squares *)
  set (Q := beyond_one m P).
  assert (VR : forall i j, 0 <= i < R -> 0 <= j < C -> word_at s9 (Some (k + 3)%nat) (4 * (i * C + j)) 4 = Some (bits_of_fl (edge_response Q i j)) /\ fl_ok (edge_response Q i j)).
  { intros i j Hi Hj. destruct (CB (i * C + j) (cell_range _ _ _ _ Hi Hj)) as (x & y & Wx & Wy & Wz). rewrite Wz.
    rewrite Z.mul_comm in Wx, Wy. change 4%nat with (Z.to_nat 4) in Wx, Wy. rewrite W1'' in Wx by auto. rewrite W2'' in Wy by auto.
    injection Wx as <-. injection Wy as <-.
    pose proof (VW1 i j 0 Hi Hj ltac:(lia)) as Y1. pose proof (VW2 i j 0 Hi Hj ltac:(lia)) as Y2. rewrite Z.mul_1_r, Z.add_0_r in Y1, Y2.
    assert (EQ : fl_add (fl_of_bits (V1 i j)) (fl_of_bits (V2 i j)) = edge_response Q i j).
    { rewrite Y1, Y2. unfold edge_response. change (beyond_one (as_grey m) P) with Q. change (fl_of_bits 0) with (fl_of_Z 0). reflexivity. }
    assert (OK1 : fl_ok (fl_of_bits (V1 i j))) by (apply fl_of_bits_ok; change 4294967296 with (256 ^ Z.of_nat 4); eapply ProofSpectral.word_range; apply W1''; auto).
    assert (OK2 : fl_ok (fl_of_bits (V2 i j))) by (apply fl_of_bits_ok; change 4294967296 with (256 ^ Z.of_nat 4); eapply ProofSpectral.word_range; apply W2''; auto).
    rewrite EQ. split; [reflexivity|]. rewrite <- EQ. now apply fl_add_ok. }
  match goal with |- context [forS 0 R ?b ?x] => assert (ES : forS 0 R b x e s9 = Ret
    (foldz R (fun a i => foldz C (fun a j => fl_of_db (db_add (db_of_fl a) (pow2 (db_of_fl (edge_response Q i j))))) a) x) s9) end.
  { apply forS_pure; [lia|]. intros i y Hi. apply forS_pure; [lia|]. intros j z Hj.
    pose proof (cell_range R C i j Hi Hj) as CR. assert (EX : (i * C + j)%C = Some (i * C + j)).
    { unfold ci. rewrite cmul_ok by (clear - CR Hi Hj Hsz; nia). rewrite cadd_ok by lia. reflexivity. }
    runs (ev_ok _ _ e s9 EX). destruct (VR i j Hi Hj) as [VW OK]. runs (load_float e s9 _ _ _ VW). rewrite fl_bits_fl by exact OK. reflexivity. }
  runs ES. clear ES.
  assert (BB : same_blocks s6 s9) by (eapply same_blocks_trans; [exact B7|]; eapply same_blocks_trans; [exact B8|exact B9]).
  assert (ND : forall i o, nth_error (objs s6) i = Some o -> exists o', nth_error (objs s9) i = Some o' /\ block_of o' = block_of o).
  { intros i o Hi. pose proof (same_blocks_nth _ _ i BB) as Y. rewrite Hi in Y. cbn in Y. destruct (nth_error (objs s9) i) as [o'|]; [|discriminate].
    injection Y as Y1 Y2 Y3 Y4. exists o'. split; auto. unfold block_of. congruence. }
  destruct (ND _ _ N2) as (o2 & P2 & Y2). destruct (ND _ _ N3) as (o3 & P3 & Y3). destruct (ND _ _ N4) as (o4 & P4 & Y4). destruct (ND _ _ N5) as (o5 & P5 & Y5).
  unfold block_of in Y2, Y3, Y4, Y5. cbn [o_addr o_size o_root o_live] in *.
  pose proof (align64_spec (e_addr e (k + 2) + 32)) as A2. pose proof (align64_spec (e_addr e (k + 4) + 32)) as A4.
  exists s9, m1, m2. split; [reflexivity|].
  split. { exists o2, o3. rewrite Q1. cbn [block]. injection Y2 as Y2 _ Y2r Y2l. injection Y3 as Y3 _ Y3r Y3l. rewrite Y2, Y2r, Y2l, Y3, Y3r. repeat split; auto; lia. }
  split. { exists o4, o5. rewrite Q2. cbn [block]. injection Y4 as Y4 _ Y4r Y4l. injection Y5 as Y5 _ Y5r Y5l. rewrite Y4, Y4r, Y4l, Y5, Y5r. repeat split; auto; lia. }
  cbn [block]. split. { rewrite P2. cbn. congruence. } split. { rewrite P4. cbn. congruence. } split. { rewrite P5. cbn. congruence. }
  split; [exact Q2|].
  split. { intros i Hi Hn. rewrite O9, O8, O7 by lia. apply U6; auto. intros ->. apply Hn. now left. }
  split. { rewrite (nth_sm_at s6); [apply IM6|]. rewrite O9, O8, O7 by lia. reflexivity. }
  split. { destruct BB as [_ BB]. rewrite BB. exact F6. }
  split. { eapply same_blocks_heap_ok; eauto. }
  split. { rewrite (same_blocks_length _ _ BB). exact L6. }
  intros i o Hi Hik. pose proof (same_blocks_nth _ _ i BB) as Y. rewrite Hi in Y. rewrite (UB6 i Hik) in Y.
  destruct (nth_error (objs s) i) as [o'|] eqn:Eo; [|discriminate]. cbn in Y. injection Y as _ _ Y _. rewrite Y. exact (Hs _ _ Eo).
Qed.

Lemma released_other s s' ks i o : released ks s s' -> nth_error (objs s) i = Some o -> ~ In (Some (o_root o)) ks -> nth_error (objs s') i = Some o.
Proof. intros (_ & _ & H) Hi Hn. specialize (H i o Hi). destruct (in_dec _ _ _); [contradiction|exact H]. Qed.

Theorem energy_exact : forall pow2 e s p m P, env_ok e -> heap_ok s -> sm_at s p = Some m -> 2 <= sm_rows m -> 2 <= sm_cols m ->
  sm_rows m * sm_cols m * 4 + 96 <= INT_MAX -> readable s (sm_data m) (sm_rows m * sm_cols m) ->
  (forall i j, 0 <= i < sm_rows m -> 0 <= j < sm_cols m -> byte_at s (sm_data m) (i * sm_cols m + j) = Some (P i j)) ->
  (forall k, e_addr e k mod 64 <> 48) ->
  exists s', cal_edge_signal_energy pow2 p e s = Ret (mean_square pow2 (sm_rows m) (sm_cols m) (edge_response (beyond_one m P))) s'
    /\ sm_at s' p = Some (as_grey m) /\ unchanged_except [p] s s' /\ files s' = files s.
Proof.
  intros pow2 e s p m P He Hs Hm HR HC Hsz RD HP HA.
  destruct (energy_core pow2 e s p m P He Hs Hm HR HC Hsz RD HP) as (s9 & m1 & m2 & E & W1 & W2 & A1 & A2 & R5 & D5 & U & M & F & H9 & L9 & RT).
  set (k := List.length (objs s)) in *. rewrite E. clear E.
  pose proof W1 as (h1 & _ & _ & B1 & _). pose proof W2 as (h2 & dd2 & M2 & B2 & BD2 & X2 & X3 & X4 & X5).
  destruct (He (k + 2)%nat) as [_ G2]. destruct (He (k + 4)%nat) as [_ G4].
  rewrite B1 in A1. rewrite B2 in A2. cbn in A1, A2. injection A1 as A1. injection A2 as A2.
  destruct (delete_own_ok e s9 _ m1 h1 W1 B1 ltac:(rewrite A1; exact G2) ltac:(rewrite A1; apply HA)) as (s10 & E10 & R10).
  runs E10. clear E10.
  assert (K : forall i o, nth_error (objs s9) i = Some o -> (o_root o <> k + 2)%nat -> nth_error (objs s10) i = Some o).
  { intros i o Hi Hn. apply (released_other _ _ _ _ _ R10 Hi). cbn. intros [[= Q]|[]]. lia. }
  rewrite D5 in BD2. cbn [block] in B2, BD2. injection X2 as X2.
  assert (W2' : owns_data s10 (Some (k + 4)%nat) m2).
  { exists h2, dd2. rewrite D5. cbn [block].
    pose proof (K _ _ B2 ltac:(lia)) as KB. pose proof (K _ _ BD2 ltac:(lia)) as KD.
    split; [|split; [exact KB|split; [exact KD|]]].
    - rewrite (nth_sm_at s9); [exact M2|]. rewrite KB, B2. reflexivity.
    - split; [now rewrite <- X2|]. auto. }
  assert (B2' : block s10 (Some (k + 4)%nat) = Some h2) by (cbn [block]; apply K; [exact B2|lia]).
  destruct (delete_own_ok e s10 _ m2 h2 W2' B2' ltac:(rewrite A2; exact G4) ltac:(rewrite A2; apply HA)) as (s11 & E11 & R11).
  runs E11. clear E11. exists s11. split; [reflexivity|].
  assert (KK : forall i, (i < k)%nat -> nth_error (objs s11) i = nth_error (objs s9) i).
  { intros i Hi. destruct (nth_error (objs s9) i) as [o|] eqn:Eo; [|exfalso; apply nth_error_None in Eo; lia].
    pose proof (RT i o Eo Hi) as Q. apply (released_other _ _ _ _ _ R11); [apply K; [exact Eo|lia]|]. cbn. intros [[= Q']|[]]. lia. }
  split; [|split].
  - destruct p as [pk|]; [|discriminate]. rewrite (nth_sm_at s9); [exact M|]. apply KK.
    apply sm_at_obj in Hm as (? & ? & ? & Hm). eapply nth_error_lt; eauto.
  - intros i Hi Hn. rewrite KK by exact Hi. now apply U.
  - destruct R11 as (_ & F11 & _). destruct R10 as (_ & F10 & _). congruence.
Qed.

(** malloc returning an address 48 above a multiple of 64: the first deletion is undefined. *)
Theorem energy_misaligned : forall pow2 e s p m P, env_ok e -> heap_ok s -> sm_at s p = Some m -> 2 <= sm_rows m -> 2 <= sm_cols m ->
  sm_rows m * sm_cols m * 4 + 96 <= INT_MAX -> readable s (sm_data m) (sm_rows m * sm_cols m) ->
  (forall i j, 0 <= i < sm_rows m -> 0 <= j < sm_cols m -> byte_at s (sm_data m) (i * sm_cols m + j) = Some (P i j)) ->
  (forall k, e_addr e k mod 64 = 48) -> cal_edge_signal_energy pow2 p e s = UB.
Proof.
  intros pow2 e s p m P He Hs Hm HR HC Hsz RD HP HA.
  destruct (energy_core pow2 e s p m P He Hs Hm HR HC Hsz RD HP) as (s9 & m1 & m2 & E & W1 & W2 & A1 & A2 & _).
  set (k := List.length (objs s)) in *. rewrite E. clear E.
  pose proof W1 as (h1 & _ & _ & B1 & _). rewrite B1 in A1. cbn in A1. injection A1 as A1.
  apply bind_ub. eapply delete_own_ub; eauto. rewrite A1. apply HA.
Qed.

(** Every response of a constant plane is 0: all intermediate sums are small
    multiples of one rounded product. *)
Lemma forallb_ext' {A} (f g : A -> bool) l : (forall x, f x = g x) -> forallb f l = forallb g l.
Proof. intro H. induction l as [|x l IH]; cbn; [reflexivity|]. now rewrite H, IH. Qed.
Definition masked (l : list sf) (v a : sf) : sf := fold_left (fun a w => fl_add a (fl_mul w v)) l a.
Definition diag_list : list sf := Eval vm_compute in map (fun k => fl_of_bits (diagonal (k / 3) (k mod 3))) [0; 1; 2; 3; 4; 5; 6; 7; 8].
Definition anti_list : list sf := Eval vm_compute in map (fun k => fl_of_bits (antidiagonal (k / 3) (k mod 3))) [0; 1; 2; 3; 4; 5; 6; 7; 8].
Lemma fold9 {A} (G : A -> Z -> Z -> A) a : foldz 3 (fun a m => foldz 3 (fun a n => G a m n) a) a
  = G (G (G (G (G (G (G (G (G a (0 / 3) (0 mod 3)) (1 / 3) (1 mod 3)) (2 / 3) (2 mod 3)) (3 / 3) (3 mod 3)) (4 / 3) (4 mod 3)) (5 / 3) (5 mod 3)) (6 / 3) (6 mod 3)) (7 / 3) (7 mod 3)) (8 / 3) (8 mod 3).
Proof. reflexivity. Qed.
Lemma masked_list K l v : map (fun k => fl_of_bits (K (k / 3) (k mod 3))) [0; 1; 2; 3; 4; 5; 6; 7; 8] = l ->
  weighted 3 3 K (fun _ _ => v) 0 0 (fl_of_Z 0) = masked l (fl_of_Z v) (fl_of_Z 0).
Proof.
  intros <-. unfold weighted, masked. rewrite fold9. cbn [map fold_left]. reflexivity.
Qed.
Lemma response_masked v : edge_response (fun _ _ => v) 0 0 = fl_add (masked diag_list (fl_of_Z v) (fl_of_Z 0)) (masked anti_list (fl_of_Z v) (fl_of_Z 0)).
Proof.
  unfold edge_response. rewrite (masked_list diagonal diag_list) by (vm_compute; reflexivity).
  rewrite (masked_list antidiagonal anti_list) by (vm_compute; reflexivity). reflexivity.
Qed.
Lemma masked_table : forallb (fun v => match (let x := fl_of_Z v in fl_add (masked diag_list x (fl_of_Z 0)) (masked anti_list x (fl_of_Z 0))) with
  S754_zero false => true | _ => false end) (map Z.of_nat (seq 0 256)) = true.
Proof. vm_compute. reflexivity. Qed.
Lemma response_table : forallb (fun v => match edge_response (fun _ _ => v) 0 0 with S754_zero false => true | _ => false end) (map Z.of_nat (seq 0 256)) = true.
Proof. rewrite <- masked_table. apply forallb_ext'. intros v. rewrite response_masked. reflexivity. Qed.
Lemma response_constant v Q i j : 0 <= v < 256 -> (forall a b, Q a b = v) -> edge_response Q i j = S754_zero false.
Proof.
  intros Hv HQ. pose proof response_table as T. rewrite forallb_forall in T. specialize (T v).
  assert (E : edge_response Q i j = edge_response (fun _ _ => v) 0 0).
  { assert (W : forall K a, weighted 3 3 K Q i j a = weighted 3 3 K (fun _ _ => v) 0 0 a).
    { intros K a. unfold weighted. apply foldz_ext. intros b x Hx. apply foldz_ext. intros c y Hy. rewrite HQ. reflexivity. }
    unfold edge_response. rewrite !W. reflexivity. }
  rewrite E. assert (IN : In v (map Z.of_nat (seq 0 256))) by (apply in_map_iff; exists (Z.to_nat v); split; [lia|apply in_seq; lia]).
  specialize (T IN). destruct (edge_response (fun _ _ => v) 0 0) as [[]| | |]; try discriminate. reflexivity.
Qed.
Lemma pos_finite n : 1 <= n <= 2147483647 -> exists m ex, fl_of_Z n = S754_finite false m ex.
Proof.
  intros Hn. pose proof (normalize_rounded 24 128 ltac:(lia) ltac:(lia) ltac:(lia) n 0 false 1074 ltac:(unfold emin; lia) ltac:(lia)) as H.
  fold (fl_of_Z n) in H. rewrite Z.add_0_l in H.
  assert (P1 : 0 < 2 ^ 1074) by (apply Z.pow_pos_nonneg; clear; lia).
  assert (P2 : 2 ^ (24 + emin 24 128 + 1074 - 1) <= 2 ^ 1074) by (apply Z.pow_le_mono_r; clear; unfold emin; lia).
  assert (P3 : Z.abs (n * 2 ^ 1074) <= 2 ^ (128 - 2 + 1074)).
  { rewrite Z.abs_mul, (Z.abs_eq (2 ^ 1074)) by (apply Z.lt_le_incl; exact P1). rewrite Z.pow_add_r by (clear; lia). apply Z.mul_le_mono_nonneg_r; [apply Z.lt_le_incl; exact P1|].
    etransitivity; [|apply (Z.pow_le_mono_r 2 31); clear; lia]. clear - Hn. lia. }
  destruct (rounded_err 24 128 ltac:(clear; lia) ltac:(clear; lia) ltac:(clear; lia) 1074 (n * 2 ^ 1074) (fl_of_Z n) ltac:(clear; lia) P3 H) as (_ & c & Nc & Pc & Er).
  rewrite Z.sub_diag, Z.mul_1_r in Er. change (2 ^ 24) with 16777216 in Er. clear H P3.
  assert (Hc : 0 < c).
  { revert P1 P2 Pc Er. generalize (2 ^ 1074) (2 ^ (24 + emin 24 128 + 1074 - 1)). clear - Hn. intros T U P1 P2 Pc Er.
    assert (A1 : T <= n * T <= 2147483647 * T) by (clear - Hn P1; nia). specialize (Pc ltac:(clear - A1 P1; lia)).
    destruct (Z.eq_dec c 0) as [->|]; [exfalso|lia]. clear - Er A1 P1 P2. lia. }
  clear P1 P2 Pc Er.
  destruct (fl_of_Z n) as [b|b| |[] mm ex]; unfold sf_num in Nc; try discriminate; [injection Nc as <-; lia| |eauto].
  exfalso. assert (Ec : c = cond_Zopp true (Zpos mm) * 2 ^ (ex + 1074)) by congruence. subst c. clear - Hc. unfold cond_Zopp in Hc. pose proof (Z.pow_nonneg 2 (ex + 1074) ltac:(lia)). nia.
Qed.
Theorem energy_constant : forall pow2 e s p m v, env_ok e -> heap_ok s -> sm_at s p = Some m -> 2 <= sm_rows m -> 2 <= sm_cols m ->
  sm_rows m * sm_cols m * 4 + 96 <= INT_MAX -> readable s (sm_data m) (sm_rows m * sm_cols m) ->
  (forall x, 0 <= x < sm_rows m * sm_cols m -> byte_at s (sm_data m) x = Some v) ->
  (forall k, e_addr e k mod 64 <> 48) -> pow2 (S754_zero false) = S754_zero false ->
  exists r s', cal_edge_signal_energy pow2 p e s = Ret r s' /\ sf_num r = Some 0.
Proof.
  intros pow2 e s p m v He Hs Hm HR HC Hsz RD HP HA HZ.
  destruct (energy_exact pow2 e s p m (fun _ _ => v) He Hs Hm HR HC Hsz RD) as (s' & E & _); auto.
  { intros i j Hi Hj. apply HP. clear - Hi Hj. nia. }
  eexists _, s'. split; [exact E|]. clear E.
  assert (Hv : 0 <= v < 256).
  { specialize (HP 0 ltac:(clear - HR HC; nia)). apply readable_isb in RD as (q & sz & f & Eq & I & N). rewrite Eq in HP.
    unfold byte_at in HP. unfold isb in I. rewrite I in HP. destruct (inb _ _); [|discriminate]. injection HP as <-. apply Z.mod_pos_bound. lia. }
  unfold mean_square.
  assert (EQ : foldz (sm_rows m) (fun a i => foldz (sm_cols m) (fun a j => fl_of_db (db_add (db_of_fl a) (pow2 (db_of_fl (edge_response (beyond_one m (fun _ _ => v)) i j))))) a) (fl_of_Z 0) = S754_zero false).
  { assert (IN : forall a i, foldz (sm_cols m) (fun a j => fl_of_db (db_add (db_of_fl a) (pow2 (db_of_fl (edge_response (beyond_one m (fun _ _ => v)) i j))))) a
        = foldz (sm_cols m) (fun a _ => fl_of_db (db_add (db_of_fl a) (S754_zero false))) a).
    { intros a i. apply foldz_ext. intros b j Hj. rewrite (response_constant v) by auto. change (db_of_fl (S754_zero false)) with (S754_zero false). rewrite HZ. reflexivity. }
    transitivity (foldz (sm_rows m) (fun a _ => foldz (sm_cols m) (fun a _ => fl_of_db (db_add (db_of_fl a) (S754_zero false))) a) (fl_of_Z 0)).
    - apply foldz_ext. intros a i Hi. apply IN.
    - change (fl_of_Z 0) with (S754_zero false). replace (sm_rows m) with (0 + sm_rows m) by ring.
      apply foldz_fixed; [lia|lia|reflexivity|]. intros i. replace (sm_cols m) with (0 + sm_cols m) by ring.
      apply foldz_fixed; [lia|lia|reflexivity|]. intros j. reflexivity. }
  rewrite EQ. unfold INT_MAX in Hsz. assert (HRC : sm_rows m <= sm_rows m * sm_cols m /\ sm_cols m <= sm_rows m * sm_cols m) by (clear - HR HC; nia).
  destruct (pos_finite (sm_rows m) ltac:(lia)) as (ma & ea & ->). destruct (pos_finite (sm_cols m) ltac:(lia)) as (mb & eb & ->). reflexivity.
Qed.

(** One row: the border index 1 is outside the image. *)
Lemma for_first e s n body : 0 < n -> body 0 e s = UB -> for_ 0 n body e s = UB.
Proof. intros Hn H. apply (for_ub_at e 0 0 n body (fun _ s1 => s1 = s)); auto; [lia|intros; lia|intros s1 ->; exact H]. Qed.
Theorem energy_one_row : forall pow2 e s p m q f, env_ok e -> heap_ok s -> sm_at s p = Some m -> sm_rows m = 1 -> 1 <= sm_cols m ->
  sm_cols m * 4 + 96 <= INT_MAX -> sm_data m = Some q -> bytes_at s (Some q) = Some (q, sm_cols m, f) -> cal_edge_signal_energy pow2 p e s = UB.
Proof.
  unfold INT_MAX. intros pow2 e s p m q f He Hs Hm HR HC Hsz Eq Iq. destruct p as [pk|]; [|discriminate]. fold (isb s q (sm_cols m) f) in Iq.
  destruct (energy_prefix pow2 e s pk m (fun i j => f (i * sm_cols m + j) mod 256) q (sm_cols m) f He Hs Hm ltac:(lia) ltac:(lia) ltac:(rewrite HR; lia) Eq Iq ltac:(rewrite HR; lia))
    as (s6 & m1 & m2 & d1 & d2 & ECAL & Iq6 & Hqp & Lp & Lq & L6 & H6 & N2 & N3 & N4 & N5 & M1 & M2 & Q1 & Q2 & W1 & W2 & IM6 & G6 & K1' & K2' & U6 & UB6 & F6 & X1 & X2).
  { intros i j Hi Hj. rewrite HR in Hi. assert (i = 0) as -> by lia. rewrite Eq. unfold byte_at. unfold isb in Iq. rewrite Iq. unfold inb.
    replace ((0 <=? 0 * sm_cols m + j) && (0 * sm_cols m + j <? sm_cols m)) with true by lia. reflexivity. }
  rewrite ECAL. clear ECAL. unfold energy_rest. apply bind_ub. set (k := List.length (objs s)) in *.
  unfold hypercv_filter2D. rewrite bind_assert by reflexivity. rewrite bind_assert by reflexivity. runs (sget_ok _ _ e _ M1).
  destruct X1 as (R1 & C1 & CH1 & T1). rewrite T1. runs (set_header_ok_sm e s6 _ m1 (CSM m1) M1).
  set (s7 := putc s6 (k + 2) (CSM m1)).
  assert (I7 : forall q n f, isb s6 q n f -> isb s7 q n f).
  { intros qq n ff Hq. unfold isb, s7. rewrite bytes_at_putc_ne; auto. pose proof (header_not_data s6 _ m1 qq n ff M1 Hq). congruence. }
  assert (M7 : sm_at s7 (Some pk) = Some (as_grey m)) by (unfold s7; rewrite sm_at_putc_other by (intros [= E]; lia); apply IM6).
  runs (sget_ok _ _ e _ M7). cbn [as_grey sm_rows sm_cols sm_chan sm_data]. rewrite HR, Eq.
  assert (M17 : sm_at s7 (Some (k + 2)%nat) = Some m1) by (eapply sm_at_putc_eq; eauto). runs (sget_ok _ _ e _ M17).
  rewrite HR in N3. set (C := sm_cols m) in *.
  assert (B : forall len, 1 <= len <= 2147483551 -> border_index (-1) len 0 e s7 = Ret 1 s7).
  { intros len Hl. unfold border_index. change (-1 <? 0) with true. cbn [orb]. rewrite border_const by lia. reflexivity. }
  apply for_first; [lia|]. apply for_first; [lia|]. apply for_first; [lia|].
  runs (ev_ok (0 + 0 - 3 / 2)%C (-1) e s7 eq_refl). runs (B 1 ltac:(lia)).
  apply for_first; [lia|]. runs (ev_ok (0 + 0 - 3 / 2)%C (-1) e s7 eq_refl). runs (B C ltac:(lia)).
  change (1 =? 1) with true. cbv iota.
  assert (E0 : (0 * C + 0)%C = Some 0) by (unfold ci; rewrite cmul_ok by lia; rewrite cadd_ok by lia; reflexivity). runs (ev_ok _ _ e s7 E0).
  runs (ev_ok (0 * 3 + 0)%C 0 e s7 eq_refl).
  assert (E1 : (1 * C + 1)%C = Some (C + 1)) by (unfold ci; rewrite cmul_ok by lia; rewrite cadd_ok by lia; f_equal; lia). runs (ev_ok _ _ e s7 E1).
  rewrite Q1. unfold filter_add.
  assert (LD : forall qq N ff, isb s7 qq N ff -> 4 <= N -> exists x, loadf (Some qq) 0 e s7 = Ret x s7).
  { intros qq N ff Hq HN. eexists. apply load_float. apply (word_at_isb s7 qq N ff 4 Hq); lia. }
  destruct (LD _ _ _ (I7 _ _ _ (obj_isb _ _ _ _ _ _ N3)) ltac:(lia)) as (x1 & X1).
  destruct (matrix_arr s6 (Some k) 4 3 3 diagonal ltac:(lia) ltac:(lia) ltac:(lia) K1') as (qy & [= <-] & (NN & dd & IN & _ & _ & LN & _)).
  destruct (LD _ _ _ (I7 _ _ _ IN) ltac:(lia)) as (x2 & X2').
  rewrite ?(bind_ret _ _ _ _ _ _ X1), ?(bind_ret _ _ _ _ _ _ X2'), ?(bind_ret _ _ _ _ _ _ X1).
  apply bind_ub. eapply load8_oob; [apply I7; exact Iq6|]. lia.
Qed.
