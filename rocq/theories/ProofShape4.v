(** * Proofs: what the moment code computes. *)
From Verif Require Import Base Logic ModelFloat ModelDouble ModelCore ModelShape SpecBase SpecNum SpecMatrix SpecShape
  ProofCore ProofLayout ProofHM ProofWord ProofArr ProofGrid ProofMatrix ProofFold ProofFloat ProofFloat2 ProofInvert ProofStat ProofBlur2 ProofFourier
  ProofShape ProofShape2 ProofShape3.
From Coq Require Import Floats.SpecFloat ZifyBool ZifyNat.
Ltac Zify.zify_post_hook ::= Z.div_mod_to_equations.
Open Scope Z_scope.

Lemma foldz_hom {A B} (h : A -> B) n f g a : (forall x i, h (f x i) = g (h x) i) -> h (foldz n f a) = foldz n g (h a).
Proof. intros H. unfold foldz. induction (Z.to_nat n) as [|k IH]; cbn [fold_to]; [reflexivity|]. now rewrite H, IH. Qed.
Lemma image_hom {A} (h : A -> sf) R C (f : A -> Z -> Z -> A) g a : h a = db_of_Z 0 -> (forall x j i, h (f x j i) = db_add (h x) (g j i)) ->
  h (foldz R (fun z j => foldz C (fun z i => f z j i) z) a) = image_sum doubles R C g.
Proof.
  intros H0 H. unfold image_sum. cbn [doubles a_add a_int]. rewrite <- H0. apply foldz_hom. intros x j. apply foldz_hom. intros; apply H.
Qed.

Definition words (l : list sf) (t : Z) : Z := double_word (nth (Z.to_nat t) l S754_nan).

Lemma seven_stores e s h g v0 v1 v2 v3 v4 v5 v6 : arr s h 0 8 7 g ->
  exists s', (stored_ (Some h) 0 v0 ;;; stored_ (Some h) 1 v1 ;;; stored_ (Some h) 2 v2 ;;; stored_ (Some h) 3 v3 ;;;
    stored_ (Some h) 4 v4 ;;; stored_ (Some h) 5 v5 ;;; stored_ (Some h) 6 v6) e s = Ret tt s'
    /\ arr s' h 0 8 7 (words [v0; v1; v2; v3; v4; v5; v6]) /\ inside s h 0 56 s'.
Proof.
  intros A0.
  destruct (stored_arr e s h 7 g 0 v0 A0 ltac:(lia)) as (s1 & E1 & A1 & I1). runs E1.
  destruct (stored_arr e s1 h 7 _ 1 v1 A1 ltac:(lia)) as (s2 & E2 & A2 & I2). runs E2.
  destruct (stored_arr e s2 h 7 _ 2 v2 A2 ltac:(lia)) as (s3 & E3 & A3 & I3). runs E3.
  destruct (stored_arr e s3 h 7 _ 3 v3 A3 ltac:(lia)) as (s4 & E4 & A4 & I4). runs E4.
  destruct (stored_arr e s4 h 7 _ 4 v4 A4 ltac:(lia)) as (s5 & E5 & A5 & I5). runs E5.
  destruct (stored_arr e s5 h 7 _ 5 v5 A5 ltac:(lia)) as (s6 & E6 & A6 & I6). runs E6.
  destruct (stored_arr e s6 h 7 _ 6 v6 A6 ltac:(lia)) as (s7 & E7 & A7 & I7).
  exists s7. split; [exact E7|]. split.
  - eapply arr_ext; [|exact A7]. intros t Ht. unfold fupd.
    assert (D : t = 0 \/ t = 1 \/ t = 2 \/ t = 3 \/ t = 4 \/ t = 5 \/ t = 6) by lia.
    destruct D as [->|[->|[->|[->|[->|[->| ->]]]]]]; reflexivity.
  - change (7 * 8) with 56 in *. eapply inside_trans; [exact I1|]. eapply inside_trans; [exact I2|]. eapply inside_trans; [exact I3|].
    eapply inside_trans; [exact I4|]. eapply inside_trans; [exact I5|]. eapply inside_trans; [exact I6|exact I7].
Qed.

Lemma elem_size ty es : type_size ty = Some es -> get_elemsize ty = es /\ 0 < es <= 8.
Proof.
  unfold type_size. intros H.
  assert (D : ty = 1 \/ ty = 2 \/ ty = 12 \/ ty = 3 \/ ty = 4 \/ ty = 13 \/ ty = 5 \/ ty = 14 \/ ty = 15).
  { repeat match type of H with (if ?b then _ else _) = _ => destruct b eqn:? end; try discriminate H; lia. }
  destruct D as [->|[->|[->|[->|[->|[->|[->|[->| ->]]]]]]]]; injection H as <-; (split; [reflexivity|lia]).
Qed.

Lemma sums_loop e s q st R C P : 0 < R -> 0 < C -> C <= st -> R * st <= 2147483647 -> 255 * R <= 2147483647 -> 255 * C <= 2147483647 ->
  (forall j i, 0 <= j < R -> 0 <= i < C -> 0 <= P j i < 256) -> arr s q 0 1 (R * st) (fun t => P (t / st) (t mod st)) ->
  exists z, (forS 0 R (fun j s => forS 0 C (fun i s =>
      k <- ev (j * st + i)%C ;;
      v <- load8 (Some q) k ;;
      t <- ev (i * v)%C ;;
      let s10 := db_add (fst (fst s)) (db_of_Z t) in
      k <- ev (j * st + i)%C ;;
      v <- load8 (Some q) k ;;
      t <- ev (j * v)%C ;;
      let s01 := db_add (snd (fst s)) (db_of_Z t) in
      k <- ev (j * st + i)%C ;;
      v <- load8 (Some q) k ;;
      let s00 := db_add (snd s) (db_of_Z v) in
      ret (s10, s01, s00)) s) (db_of_Z 0, db_of_Z 0, db_of_Z 0)) e s = Ret z s
    /\ fst (fst z) = mass_x doubles R C P /\ snd (fst z) = mass_y doubles R C P /\ snd z = mass doubles R C P.
Proof.
  intros HR HC CS HB BR BC PR A.
    assert (LD : forall j i, 0 <= j < R -> 0 <= i < C -> load8 (Some q) (j * st + i) e s = Ret (P j i) s).
    { intros j i Hj Hi. rewrite (rd1 e s q _ _ _ A (cell_range R st j i Hj ltac:(lia))). now rewrite cell_div, cell_mod by lia. }
    assert (EV : forall j i, 0 <= j < R -> 0 <= i < C -> ev (j * st + i)%C e s = Ret (j * st + i) s) by (intros; apply (ev_cell e s R st); auto; lia).
  set (f := fun (z : sf * sf * sf) j i => (db_add (fst (fst z)) (db_of_Z (i * P j i)), db_add (snd (fst z)) (db_of_Z (j * P j i)), db_add (snd z) (db_of_Z (P j i)))).
      exists (foldz R (fun z j => foldz C (fun z i => f z j i) z) (db_of_Z 0, db_of_Z 0, db_of_Z 0)). split.
      - apply forS_pure; [lia|]. intros j z Hj. apply forS_pure; [lia|]. intros i w Hi. pose proof (PR j i Hj Hi) as B.
        assert (B1 : 0 <= i * P j i <= C * 255) by (split; [nia|apply Z.mul_le_mono_nonneg; lia]).
        assert (B2 : 0 <= j * P j i <= R * 255) by (split; [nia|apply Z.mul_le_mono_nonneg; lia]).
        runs (EV j i Hj Hi). runs (LD j i Hj Hi). runs (ev_ok (i * P j i)%C (i * P j i) e s ltac:(unfold ci; rewrite cmul_ok by lia; reflexivity)). cbv zeta.
        runs (EV j i Hj Hi). runs (LD j i Hj Hi). runs (ev_ok (j * P j i)%C (j * P j i) e s ltac:(unfold ci; rewrite cmul_ok by lia; reflexivity)).
        runs (EV j i Hj Hi). runs (LD j i Hj Hi). reflexivity.
      - split; [|split].
        + exact (image_hom (fun z => fst (fst z)) R C f (fun j i => db_of_Z (i * P j i)) (db_of_Z 0, db_of_Z 0, db_of_Z 0) eq_refl (fun _ _ _ => eq_refl)).
        + exact (image_hom (fun z => snd (fst z)) R C f (fun j i => db_of_Z (j * P j i)) (db_of_Z 0, db_of_Z 0, db_of_Z 0) eq_refl (fun _ _ _ => eq_refl)).
        + exact (image_hom (fun z => snd z) R C f (fun j i => db_of_Z (P j i)) (db_of_Z 0, db_of_Z 0, db_of_Z 0) eq_refl (fun _ _ _ => eq_refl)).
Qed.

Section Run.
  Variable pow_ : sf -> sf -> sf.

  (** The run behind the choice of hu. *)
  Lemma hu_run e s h nh dh mat m R C es P cx cy : byte_rows s mat m R C es P -> isb s h nh dh -> 56 <= nh -> sm_data m <> Some h ->
    255 * R <= 2147483647 -> 255 * C <= 2147483647 ->
    int_of_sf (db_add (db_div (mass_x doubles R C P) (mass doubles R C P)) (dlit 1 2)) = Some cx ->
    int_of_sf (db_add (db_div (mass_y doubles R C P) (mass doubles R C P)) (dlit 1 2)) = Some cy -> 0 <= cx <= C -> 0 <= cy <= R ->
    exists s', calc_hu_moment pow_ (Some h) mat e s = Ret tt s'
      /\ arr s' h 0 8 7 (words (shape_values pow_ (mass doubles R C P) (fun p q => moment doubles p q R C cx cy P))) /\ inside s h 0 56 s'.
  Proof.
    intros (S1 & R1 & C1 & T1 & HR & HC & HB & M1) Hh Nh ND BR BC ECx ECy Hcx Hcy.
    destruct (elem_size _ _ T1) as [ES E0]. unfold calc_hu_moment. cbn [nonnull]. rewrite bind_ret_l.
    rewrite bind_assert by (destruct mat; [reflexivity|discriminate S1]).
    runs (sget_ok _ _ e s S1). cbv zeta. rewrite R1, C1, ES.
    assert (CB : C * es <= 2147483647) by nia.
    runs (ev_ok (C * es)%C (C * es) e s ltac:(unfold ci; rewrite cmul_ok by nia; reflexivity)).
    destruct (matrix_arr s _ 1 R (C * es) P ltac:(lia) HR ltac:(nia) M1) as (q & Eq & A). rewrite Eq in *.
    set (st := C * es) in *. assert (CS : C <= st) by (unfold st; nia). clearbody st.
    assert (PR : forall j i, 0 <= j < R -> 0 <= i < C -> 0 <= P j i < 256).
    { intros j i Hj Hi. exact (matrix_range s _ 1 R st P j i ltac:(lia) M1 Hj ltac:(lia)). }
    assert (LD : forall j i, 0 <= j < R -> 0 <= i < C -> load8 (Some q) (j * st + i) e s = Ret (P j i) s).
    { intros j i Hj Hi. rewrite (rd1 e s q _ _ _ A (cell_range R st j i Hj ltac:(lia))). now rewrite cell_div, cell_mod by lia. }
    assert (EV : forall j i, 0 <= j < R -> 0 <= i < C -> ev (j * st + i)%C e s = Ret (j * st + i) s) by (intros; apply (ev_cell e s R st); auto; lia).
    pose proof (sums_loop e s q st R C P HR HC CS ltac:(lia) BR BC PR A) as F.
    destruct F as (z & F & Z1 & Z2 & Z3). runs F. cbv zeta. rewrite Z1, Z2, Z3. clear F Z1 Z2 Z3 z.
    runs (ev_ok _ cx e s ECx). runs (ev_ok _ cy e s ECy).
    match goal with |- context [bind (forS 0 R ?b ?z)] => assert (F : exists z', forS 0 R b z e s = Ret z' s
      /\ m11 z' = moment doubles 1 1 R C cx cy P /\ m20 z' = moment doubles 2 0 R C cx cy P /\ m02 z' = moment doubles 0 2 R C cx cy P
      /\ m03 z' = moment doubles 0 3 R C cx cy P /\ m30 z' = moment doubles 3 0 R C cx cy P /\ m12 z' = moment doubles 1 2 R C cx cy P
      /\ m21 z' = moment doubles 2 1 R C cx cy P); [set (z0 := z)|] end.
    { set (term := fun p q j i => db_mul (monomial doubles p q (db_of_Z (i - cx)) (db_of_Z (j - cy))) (db_of_Z (P j i))).
      set (f := fun z j i => Central (db_add (m11 z) (term 1%nat 1%nat j i)) (db_add (m20 z) (term 2%nat 0%nat j i)) (db_add (m02 z) (term 0%nat 2%nat j i))
        (db_add (m03 z) (term 0%nat 3%nat j i)) (db_add (m30 z) (term 3%nat 0%nat j i)) (db_add (m12 z) (term 1%nat 2%nat j i)) (db_add (m21 z) (term 2%nat 1%nat j i))).
      exists (foldz R (fun z j => foldz C (fun z i => f z j i) z) z0). split.
      - apply forS_pure; [lia|]. intros j z Hj. apply forS_pure; [lia|]. intros i w Hi.
        runs (ev_ok (i - cx)%C (i - cx) e s ltac:(unfold ci; rewrite csub_ok by lia; reflexivity)).
        runs (ev_ok (j - cy)%C (j - cy) e s ltac:(unfold ci; rewrite csub_ok by lia; reflexivity)). cbv zeta.
        runs (EV j i Hj Hi). runs (LD j i Hj Hi). reflexivity.
      - repeat match goal with |- _ /\ _ => split end.
        + exact (image_hom m11 R C f (term 1%nat 1%nat) z0 eq_refl (fun _ _ _ => eq_refl)).
        + exact (image_hom m20 R C f (term 2%nat 0%nat) z0 eq_refl (fun _ _ _ => eq_refl)).
        + exact (image_hom m02 R C f (term 0%nat 2%nat) z0 eq_refl (fun _ _ _ => eq_refl)).
        + exact (image_hom m03 R C f (term 0%nat 3%nat) z0 eq_refl (fun _ _ _ => eq_refl)).
        + exact (image_hom m30 R C f (term 3%nat 0%nat) z0 eq_refl (fun _ _ _ => eq_refl)).
        + exact (image_hom m12 R C f (term 1%nat 2%nat) z0 eq_refl (fun _ _ _ => eq_refl)).
        + exact (image_hom m21 R C f (term 2%nat 1%nat) z0 eq_refl (fun _ _ _ => eq_refl)). }
    destruct F as (z & F & Z1 & Z2 & Z3 & Z4 & Z5 & Z6 & Z7). runs F. rewrite Z1, Z2, Z3, Z4, Z5, Z6, Z7. cbv zeta. clear F Z1 Z2 Z3 Z4 Z5 Z6 Z7 z.
    pose proof (arr_of s h nh dh 0 8 7 Hh ltac:(lia) ltac:(lia) ltac:(lia)) as AH.
    match goal with |- context [stored_ (Some h) 0 ?a ;;; stored_ (Some h) 1 ?b ;;; stored_ (Some h) 2 ?c ;;; stored_ (Some h) 3 ?d ;;; stored_ (Some h) 4 ?u ;;; stored_ (Some h) 5 ?v ;;; stored_ (Some h) 6 ?w] =>
      destruct (seven_stores e s h _ a b c d u v w AH) as (s' & Es & As & Is) end.
    exists s'. split; [exact Es|]. split; [exact As|exact Is].
  Qed.
End Run.
