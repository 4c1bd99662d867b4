(** * Proofs: the filter banks of the wavelet transforms. *)
From Verif Require ProofFilter.
From Verif Require Import Base Logic ModelFloat ModelDouble ModelCore ModelWavelet SpecBase SpecNum SpecMatrix SpecShape SpecCxx SpecWavelet
  ProofCore ProofLayout ProofWord ProofArr ProofGrid ProofMatrix ProofFold ProofFloat ProofFloat2 ProofInvert ProofStat ProofCopy ProofSave2 ProofCxx ProofBlur2 ProofFourier.
From Coq Require Import Floats.SpecFloat ZifyBool ZifyNat.
Ltac Zify.zify_post_hook ::= Z.div_mod_to_equations.
Open Scope Z_scope.

Lemma calloc_run e s n size : 0 <= n * size <= 2147483647 -> exists d, calloc n size e s = Ret (Some (List.length (objs s))) (with_block e s (n * size) d).
Proof.
  intros H. eexists. rewrite <- (memset_block e s (n * size) H). unfold calloc, bind. destruct (malloc (n * size) e s) as [p s'| | |] eqn:E; try reflexivity.
  rewrite (wb_malloc e s (n * size) H) in E. injection E as <- <-. cbn [nonnull]. reflexivity.
Qed.

(** A table read backwards into a new block. *)
Lemma reverse_run e s l : Z.of_nat (List.length l) <= 100 ->
  exists d, SerialReverse l (Z.of_nat (List.length l)) e s = Ret (Some (List.length (objs s))) (with_block e s (Z.of_nat (List.length l) * 8) d)
    /\ forall k, (k < List.length l)%nat -> word d (Z.of_nat k * 8) 8 = double_word (nth k (rev l) S754_nan).
Proof.
  intros H. set (n := Z.of_nat (List.length l)) in *. set (q := List.length (objs s)). unfold SerialReverse.
  destruct (calloc_run e s n 8 ltac:(lia)) as (d0 & E0). runs E0. clear E0. cbn [nonnull]. rewrite bind_ret_l.
  pose proof (wb_isb e s (n * 8) d0) as I0. fold q in I0.
  pose proof (arr_of _ _ _ _ 0 8 n I0 ltac:(lia) ltac:(lia) ltac:(lia)) as A0.
  set (s0 := with_block e s (n * 8) d0) in *. set (g0 := fun i => word d0 (0 + i * 8) (Z.to_nat 8)) in A0.
  set (goal := fun i => double_word (nth (Z.to_nat i) (rev l) S754_nan)).
  match goal with |- context [bind (for_ 0 n ?b)] =>
    destruct (for_inv e 0 n b (fun i s' => inside s0 q 0 (n * 8) s' /\ arr s' q 0 8 n (fun t => if t <? i then goal t else g0 t)) s0) as (s1 & E1 & N1 & A1) end.
  - lia.
  - split; [eapply inside_refl; eauto|]. eapply arr_ext; [|exact A0]. intros i Hi. replace (i <? 0) with false by lia. reflexivity.
  - intros i s' Hi [IN A].
    runs (ev_ok (n - i - 1)%C (n - i - 1) e s' ltac:(unfold ci; rewrite (csub_ok n i) by lia; rewrite csub_ok by lia; reflexivity)).
    assert (T : static_at l (n - i - 1) e s' = Ret (nth (Z.to_nat i) (rev l) S754_nan) s').
    { unfold static_at. rewrite (nth_error_nth' l S754_nan) by lia. replace (0 <=? n - i - 1) with true by lia.
      rewrite rev_nth by lia. replace (Z.to_nat (n - i - 1)) with (List.length l - S (Z.to_nat i))%nat by lia. reflexivity. }
    runs T. destruct (stored_arr e s' q n _ i (nth (Z.to_nat i) (rev l) S754_nan) A Hi) as (s2 & E2 & A2 & N2).
    exists s2. split; [exact E2|]. split; [eapply inside_trans; eauto|]. eapply arr_ext; [|exact A2]. intros t Ht. unfold fupd.
    destruct (Z.eqb_spec t i) as [->|Hn]; [replace (i <? i + 1) with true by lia; reflexivity|].
    replace (t <? i + 1) with (t <? i) by lia. reflexivity.
  - runs E1. destruct N1 as (N & d & d' & Hd & -> & _). exists d'. unfold s0. unfold q. rewrite wb_put. split; [reflexivity|].
    intros k Hk. destruct A1 as (N' & d1 & I1 & _ & _ & _ & W).
    unfold s0, q in I1. rewrite wb_put in I1. unfold isb in I1. pose proof (wb_isb e s (n * 8) d') as I2. unfold isb in I2. rewrite I2 in I1. injection I1 as _ <-.
    specialize (W (Z.of_nat k) ltac:(lia)). change (Z.to_nat 8) with 8%nat in W. rewrite Z.add_0_l in W. rewrite W.
    replace (Z.of_nat k <? n) with true by lia. unfold goal. now rewrite Nat2Z.id.
Qed.

(** Four tables into four new blocks, behind a block for the record. *)
Definition block_of (e : env) (k : nat) (n : Z) (d : Z -> Z) : obj := mkObj (e_addr e k) n k true (CBytes d).
Definition holds (d : Z -> Z) (l : list Z) : Prop :=
  forall k n, nth_error l k = Some n -> word d (Z.of_nat k * 8) 8 = double_word (dlit n 10000).

Lemma table_run e s l : Z.of_nat (List.length l) <= 100 ->
  exists d, SerialReverse (table l) (Z.of_nat (List.length l)) e s = Ret (Some (List.length (objs s))) (with_block e s (Z.of_nat (List.length l) * 8) d) /\ holds d (rev l).
Proof.
  intros H. destruct (reverse_run e s (table l)) as (d & E & W); [unfold table; now rewrite map_length|].
  unfold table in E at 2 3. rewrite map_length in E. exists d. split; [exact E|]. intros k n Hk.
  assert (K : (k < List.length (rev l))%nat) by (apply nth_error_Some; congruence). rewrite rev_length in K.
  rewrite W by (unfold table; now rewrite map_length). unfold table. rewrite <- map_rev.
  erewrite nth_error_nth; [reflexivity|]. rewrite nth_error_map, Hk. reflexivity.
Qed.

Lemma kill_base base k : (forall i o, nth_error base i = Some o -> (o_root o < List.length base)%nat) -> (List.length base <= k)%nat -> map (kill_root k) base = base.
Proof.
  intros H Hk. rewrite <- (map_id base) at 2. apply map_ext_in. intros o Ho. apply In_nth_error in Ho as [i Hi]. specialize (H _ _ Hi). apply kill_other. lia.
Qed.
Lemma free_at e base bs fs i o : (forall i o, nth_error base i = Some o -> (o_root o < List.length base)%nat) ->
  (forall j b, nth_error bs j = Some b -> o_root b = (List.length base + j)%nat) -> nth_error bs i = Some o -> o_live o = true ->
  free (Some (List.length base + i)%nat) e (mkSt (base ++ bs) fs) = Ret tt (mkSt (base ++ lupd i set_dead bs) fs).
Proof.
  intros HB HR Hi Hl. rewrite (free_ok e _ _ o); [|cbn [objs]; rewrite nth_error_app2 by lia; replace (List.length base + i - List.length base)%nat with i by lia; exact Hi|exact Hl|exact (HR i o Hi)].
  cbn [objs files]. rewrite map_app, kill_base by (auto; lia). do 3 f_equal.
  clear HB Hi Hl o. revert i. 
  assert (G : forall m i, (forall j b, nth_error bs j = Some b -> o_root b = (m + j)%nat) -> map (kill_root (m + i)) bs = lupd i set_dead bs); [|intros i; exact (G (List.length base) i HR)].
  clear HR. induction bs as [|b r IH]; intros m i HR; [now destruct i|]. cbn [map lupd].
  assert (B : o_root b = m) by (rewrite (HR 0%nat b eq_refl); lia).
  assert (R : forall j c, nth_error r j = Some c -> o_root c = (S m + j)%nat) by (intros j c Hc; rewrite (HR (S j) c Hc); lia).
  destruct i as [|i]; cbn [lupd].
  - unfold kill_root at 1. rewrite B, Nat.add_0_r, Nat.eqb_refl. f_equal. clear - R. 
    rewrite <- (map_id r) at 2. apply map_ext_in. intros o Ho. apply In_nth_error in Ho as [j Hj]. apply kill_other. rewrite (R _ _ Hj). lia.
  - rewrite kill_other by lia. f_equal. rewrite <- (IH (S m) i R). do 2 f_equal. lia.
Qed.

Lemma holds_at s p l d n : isb s p n d -> 8 * Z.of_nat (List.length l) <= n -> holds d l -> fractions_at s (Some p) l.
Proof.
  intros I N W. split; [exists p, n, d; auto|]. intros k v Hk. assert (K : (k < List.length l)%nat) by (apply nth_error_Some; congruence).
  rewrite (word_at_isb s p n d 8 I) by lia. rewrite <- (W k v Hk). do 2 f_equal. lia.
Qed.

Section Bank.
  Variables (e : env) (s : st).
  Hypothesis Hs : heap_ok s.
  Notation k := (List.length (objs s)).

  Lemma bank_run n a b c d : List.length a = n -> List.length b = n -> List.length c = n -> List.length d = n -> Z.of_nat n <= 100 -> forall s0, (exists dw, s0 = with_block e s 40 dw) ->
    exists s', (forall X (K : ptr -> ptr -> ptr -> ptr -> M X),
      (x <- SerialReverse (table a) (Z.of_nat n) ;; y <- SerialReverse (table b) (Z.of_nat n) ;; z <- SerialReverse (table c) (Z.of_nat n) ;;
       t <- SerialReverse (table d) (Z.of_nat n) ;; K x y z t) e s0 = K (Some (k + 1)%nat) (Some (k + 2)%nat) (Some (k + 3)%nat) (Some (k + 4)%nat) e s')
    /\ (exists bs, List.length bs = 5%nat /\ s' = mkSt (objs s ++ bs) (files s) /\ forall j o, nth_error bs j = Some o -> o_root o = (k + j)%nat /\ o_live o = true)
    /\ fractions_at s' (Some (k + 1)%nat) (rev a) /\ fractions_at s' (Some (k + 2)%nat) (rev b)
    /\ fractions_at s' (Some (k + 3)%nat) (rev c) /\ fractions_at s' (Some (k + 4)%nat) (rev d).
  Proof.
    intros La Lb Lc Ld Hn s0 (dw & E0).
    assert (L0 : List.length (objs s0) = (k + 1)%nat) by (rewrite E0, wb_len; lia).
    destruct (table_run e s0 a ltac:(lia)) as (d1 & E1 & W1). rewrite La, L0 in E1. set (s1 := with_block e s0 (Z.of_nat n * 8) d1) in *.
    assert (L1 : List.length (objs s1) = (k + 2)%nat) by (unfold s1; rewrite wb_len; lia).
    destruct (table_run e s1 b ltac:(lia)) as (d2 & E2 & W2). rewrite Lb, L1 in E2. set (s2 := with_block e s1 (Z.of_nat n * 8) d2) in *.
    assert (L2 : List.length (objs s2) = (k + 3)%nat) by (unfold s2; rewrite wb_len; lia).
    destruct (table_run e s2 c ltac:(lia)) as (d3 & E3 & W3). rewrite Lc, L2 in E3. set (s3 := with_block e s2 (Z.of_nat n * 8) d3) in *.
    assert (L3 : List.length (objs s3) = (k + 4)%nat) by (unfold s3; rewrite wb_len; lia).
    destruct (table_run e s3 d ltac:(lia)) as (d4 & E4 & W4). rewrite Ld, L3 in E4. set (s4 := with_block e s3 (Z.of_nat n * 8) d4) in *.
    exists s4. split; [intros X K; runs E1; runs E2; runs E3; runs E4; reflexivity|].
    split.
    - exists [mkObj (e_addr e k) 40 k true (CBytes dw); mkObj (e_addr e (k + 1)) (Z.of_nat n * 8) (k + 1) true (CBytes d1); mkObj (e_addr e (k + 2)) (Z.of_nat n * 8) (k + 2) true (CBytes d2);
        mkObj (e_addr e (k + 3)) (Z.of_nat n * 8) (k + 3) true (CBytes d3); mkObj (e_addr e (k + 4)) (Z.of_nat n * 8) (k + 4) true (CBytes d4)].
      split; [reflexivity|]. split.
      + unfold s4, with_block at 1. rewrite L3. unfold s3, with_block. fold (with_block e s1 (Z.of_nat n * 8) d2). fold s2. rewrite L2. cbn [objs files].
        unfold s2, with_block. fold (with_block e s0 (Z.of_nat n * 8) d1). fold s1. rewrite L1. cbn [objs files].
        unfold s1, with_block. rewrite L0. cbn [objs files]. rewrite E0. unfold with_block. cbn [objs files]. rewrite <- !app_assoc. reflexivity.
      + intros j o Ho. do 5 (destruct j as [|j]; [injection Ho as <-; cbn [o_root o_live]; split; lia || reflexivity|]). destruct j; discriminate Ho.
    - assert (I1 : isb s1 (k + 1)%nat (Z.of_nat n * 8) d1) by (rewrite <- L0; apply wb_isb).
      assert (I2 : isb s2 (k + 2)%nat (Z.of_nat n * 8) d2) by (rewrite <- L1; apply wb_isb).
      assert (I3 : isb s3 (k + 3)%nat (Z.of_nat n * 8) d3) by (rewrite <- L2; apply wb_isb).
      assert (I4 : isb s4 (k + 4)%nat (Z.of_nat n * 8) d4) by (rewrite <- L3; apply wb_isb).
      split; [|split; [|split]]; eapply (holds_at s4 _ _ _ (Z.of_nat n * 8)); try eassumption; try (rewrite rev_length; lia).
      + unfold s4, s3, s2. do 3 apply wb_isb_old. exact I1.
      + unfold s4, s3. do 2 apply wb_isb_old. exact I2.
      + unfold s4. apply wb_isb_old. exact I3.
  Qed.

  (** Releasing them. *)
  Lemma bank_free bs len : List.length bs = 5%nat -> (forall j o, nth_error bs j = Some o -> o_root o = (k + j)%nat /\ o_live o = true) ->
    exists s', wavelet_base_free (Some k) (WBase len (Some (k + 1)%nat) (Some (k + 2)%nat) (Some (k + 3)%nat) (Some (k + 4)%nat)) e (mkSt (objs s ++ bs) (files s)) = Ret tt s'
      /\ no_leak s s' /\ old_unchanged s s' /\ files s' = files s.
  Proof.
    intros L R. destruct bs as [|b0 [|b1 [|b2 [|b3 [|b4 [|]]]]]]; try discriminate L. clear L.
    destruct (R 0%nat b0 eq_refl) as [R0 V0]. destruct (R 1%nat b1 eq_refl) as [R1 V1]. destruct (R 2%nat b2 eq_refl) as [R2 V2].
    destruct (R 3%nat b3 eq_refl) as [R3 V3]. destruct (R 4%nat b4 eq_refl) as [R4 V4]. clear R.
    assert (D : forall o, o_root (set_dead o) = o_root o) by (intros []; reflexivity).
    assert (F : forall i o bs, (forall j b, nth_error bs j = Some b -> o_root b = (k + j)%nat) -> nth_error bs i = Some o -> o_live o = true ->
      free (Some (k + i)%nat) e (mkSt (objs s ++ bs) (files s)) = Ret tt (mkSt (objs s ++ lupd i set_dead bs) (files s))) by (intros; eapply free_at; eauto).
    assert (Q : forall c0 c1 c2 c3 c4, o_root c0 = (k + 0)%nat -> o_root c1 = (k + 1)%nat -> o_root c2 = (k + 2)%nat -> o_root c3 = (k + 3)%nat -> o_root c4 = (k + 4)%nat ->
      forall j b, nth_error [c0; c1; c2; c3; c4] j = Some b -> o_root b = (k + j)%nat).
    { intros c0 c1 c2 c3 c4 Q0 Q1 Q2 Q3 Q4 j b Hb. do 5 (destruct j as [|j]; [injection Hb as <-; assumption|]). destruct j; discriminate Hb. }
    unfold wavelet_base_free. cbn [nonnull fb_LO_D fb_HI_D fb_LO_R fb_HI_R].
    runs (F 1%nat b1 [b0; b1; b2; b3; b4] ltac:(apply Q; rewrite ?D; assumption) eq_refl V1). cbn [lupd].
    runs (F 2%nat b2 [b0; set_dead b1; b2; b3; b4] ltac:(apply Q; rewrite ?D; assumption) eq_refl V2). cbn [lupd].
    runs (F 3%nat b3 [b0; set_dead b1; set_dead b2; b3; b4] ltac:(apply Q; rewrite ?D; assumption) eq_refl V3). cbn [lupd].
    runs (F 4%nat b4 [b0; set_dead b1; set_dead b2; set_dead b3; b4] ltac:(apply Q; rewrite ?D; assumption) eq_refl V4). cbn [lupd].
    pose proof (F 0%nat b0 [b0; set_dead b1; set_dead b2; set_dead b3; set_dead b4] ltac:(apply Q; rewrite ?D; assumption) eq_refl V0) as F0. rewrite Nat.add_0_r in F0.
    rewrite F0. cbn [lupd]. eexists. split; [reflexivity|]. split; [|split; [|reflexivity]].
    - intros j o Hj Ho. cbn [objs] in Ho. rewrite nth_error_app2 in Ho by exact Hj. generalize dependent (j - k)%nat. intros i Ho.
      do 5 (destruct i as [|i]; [injection Ho as <-; destruct b0, b1, b2, b3, b4; reflexivity|]). destruct i; discriminate Ho.
    - intros j Hj. cbn [objs]. now rewrite nth_error_app1.
  Qed.
End Bank.

Theorem filters_ok : forall w e s, heap_ok s ->
  exists p r s', set_wavelet_base (wavelet_code w) e s = Ret (p, r) s' /\ fb_len r = Z.of_nat (List.length (low_d w))
    /\ fractions_at s' (fb_LO_D r) (low_d w) /\ fractions_at s' (fb_HI_D r) (high_d w)
    /\ fractions_at s' (fb_LO_R r) (low_r w) /\ fractions_at s' (fb_HI_R r) (high_r w)
    /\ old_unchanged s s' /\ files s' = files s
    /\ exists s'', wavelet_base_free p r e s' = Ret tt s'' /\ no_leak s s'' /\ old_unchanged s s'' /\ files s'' = files s.
Proof.
  intros w e s Hs. unfold set_wavelet_base. rewrite bind_assert by (destruct w; reflexivity).
  destruct (calloc_run e s 1 40 ltac:(lia)) as (d0 & E0). runs E0. cbn [nonnull]. rewrite bind_ret_l. change (1 * 40) with 40 in *.
  assert (G : forall n a b c d, List.length a = n -> List.length b = n -> List.length c = n -> List.length d = n -> Z.of_nat n <= 100 ->
    rev a = low_d w -> rev b = high_d w -> rev c = low_r w -> rev d = high_r w ->
    exists p r s', (x <- SerialReverse (table a) (Z.of_nat n) ;; y <- SerialReverse (table b) (Z.of_nat n) ;; z <- SerialReverse (table c) (Z.of_nat n) ;;
       t <- SerialReverse (table d) (Z.of_nat n) ;; ret (Some (List.length (objs s)), WBase (Z.of_nat n) x y z t)) e (with_block e s 40 d0) = Ret (p, r) s'
      /\ fb_len r = Z.of_nat (List.length (low_d w))
    /\ fractions_at s' (fb_LO_D r) (low_d w) /\ fractions_at s' (fb_HI_D r) (high_d w)
    /\ fractions_at s' (fb_LO_R r) (low_r w) /\ fractions_at s' (fb_HI_R r) (high_r w)
    /\ old_unchanged s s' /\ files s' = files s
    /\ exists s'', wavelet_base_free p r e s' = Ret tt s'' /\ no_leak s s'' /\ old_unchanged s s'' /\ files s'' = files s).
  { intros n a b c d La Lb Lc Ld Hn Ra Rb Rc Rd.
    destruct (bank_run e s n a b c d La Lb Lc Ld Hn _ (ex_intro _ d0 eq_refl)) as (s' & E & (bs & LB & ES & RB) & F1 & F2 & F3 & F4).
    eexists _, _, s'. split; [rewrite E; reflexivity|]. cbn [fb_len fb_LO_D fb_HI_D fb_LO_R fb_HI_R].
    rewrite <- Ra, <- Rb, <- Rc, <- Rd. split; [now rewrite rev_length, La|]. do 4 (split; [assumption|]). subst s'.
    split; [intros j Hj; cbn [objs]; now rewrite nth_error_app1|]. split; [reflexivity|].
    apply bank_free; auto. }
  destruct w; [exact (G 6%nat (rev (low_d db3)) (rev (high_d db3)) (rev (low_r db3)) (rev (high_r db3)) eq_refl eq_refl eq_refl eq_refl ltac:(lia) eq_refl eq_refl eq_refl eq_refl)|
    exact (G 16%nat (rev (low_d bior3_7)) (rev (high_d bior3_7)) (rev (low_r bior3_7)) (rev (high_r bior3_7)) eq_refl eq_refl eq_refl eq_refl ltac:(lia) eq_refl eq_refl eq_refl eq_refl)].
Qed.

Theorem filters_unknown : forall ty e s, ty <> 1 -> ty <> 2 ->
  exists p s', set_wavelet_base ty e s = Ret (Some p, WBase 0 None None None None) s' /\ old_unchanged s s'.
Proof.
  intros ty e s H1 H2. unfold set_wavelet_base. rewrite bind_assert by lia.
  destruct (calloc_run e s 1 40 ltac:(lia)) as (d0 & E0). runs E0. cbn [nonnull]. rewrite bind_ret_l.
  replace (ty =? 1) with false by lia. replace (ty =? 2) with false by lia. do 2 eexists. split; [reflexivity|apply wb_old].
Qed.

Theorem bank_close w d : 8 < Z.abs d -> correlation (rev (low_d w)) (low_r w) (2 * d) = 0.
Proof.
  intros H. unfold correlation. rewrite (ProofFilter.sumz_ext _ _ (fun _ => 0)).
  - unfold sumz. induction (Z.to_nat _) as [|n IH]; cbn [sum_to]; [reflexivity|now rewrite IH].
  - intros k Hk. assert (B : Z.of_nat (List.length (rev (low_d w))) <= 16 /\ Z.of_nat (List.length (low_r w)) <= 16) by (destruct w; vm_compute; split; discriminate).
    replace ((0 <=? k + 2 * d) && (k + 2 * d <? Z.of_nat (List.length (low_r w)))) with false by lia. ring.
Qed.
Theorem reconstruct_near : forall w, reconstructs 11000 w.
Proof.
  intros w d. destruct (Z.le_gt_cases (Z.abs d) 8) as [H|H].
  - assert (D : In d (map (fun k => Z.of_nat k - 8) (seq 0 17))) by (apply in_map_iff; exists (Z.to_nat (d + 8)); split; [lia|apply in_seq; lia]).
    assert (B : forallb (fun d => Z.abs (correlation (rev (low_d w)) (low_r w) (2 * d) - (if d =? 0 then 100000000 else 0)) <=? 11000) (map (fun k => Z.of_nat k - 8) (seq 0 17)) = true)
      by (destruct w; vm_compute; reflexivity).
    apply Z.leb_le. exact (proj1 (forallb_forall _ _) B d D).
  - rewrite bank_close by lia. replace (d =? 0) with false by lia. lia.
Qed.
Theorem reconstruct_not : forall w, ~ reconstructs 0 w.
Proof. intros w H. specialize (H 0). destruct w; vm_compute in H; congruence. Qed.
