(** * The integral image when no destination is given: filter.c 461-491. *)
From Verif Require Import Base Logic ModelFloat ModelCore ModelFilter SpecBase SpecCore SpecImage SpecImage2 SpecPixel SpecNum SpecMatrix SpecFilter
  ProofCore ProofCore2 ProofHM ProofCopy ProofImage2 ProofPixel ProofArr ProofFilter ProofBlur6.
From Coq Require Import Lia.
Open Scope Z_scope.

Lemma grey_old s s' p ms es P : image s p ms es -> old_unchanged s s' -> grey s ms P -> grey s' ms P.
Proof.
  intros I O G i j Hi Hj. rewrite <- (G i j Hi Hj). unfold pix, pixel_byte. destruct (data_old _ _ _ _ I) as (q & -> & Hq).
  now apply old_byte.
Qed.

(** Without a destination the rest runs on the matrix just created. *)
Lemma integral_created e s src ms s1 k md : sm_at s src = Some ms -> sm_type ms = 1 -> sm_chan ms = 1 ->
  create_simple_mat (sm_rows ms) (sm_cols ms) 3 1 e s = Ret (Some k) s1 -> sm_at s1 src = Some ms -> sm_at s1 (Some k) = Some md ->
  hypercv_integral src None e s = hypercv_integral src (Some k) e s1.
Proof.
  intros A T C E A1 D. destruct (sm_nonnull _ _ _ A) as [q ->]. unfold hypercv_integral.
  rewrite bind_assert by reflexivity. rewrite (bind_assert _ _ e s1) by reflexivity.
  rewrite (bind_ret _ _ _ _ _ _ (sget_ok _ _ e s A)), (bind_ret _ _ _ _ _ _ (sget_ok _ _ e s1 A1)). cbv zeta.
  rewrite !bind_assert by lia. cbn [nonnull]. rewrite bind_ret_l. now rewrite (bind_ret _ _ _ _ _ _ E).
Qed.

(** The result ends in a new matrix the caller is not told about; nothing of the caller's memory changes. *)
Theorem integral_lost : forall e s src ms P, env_ok e -> heap_ok s -> image s src ms 1 -> sm_chan ms = 1 -> grey s ms P ->
  510 * (sm_rows ms * sm_cols ms) + 2000 <= INT_MAX ->
  exists s' d md, hypercv_integral src None e s = Ret tt s' /\ old_unchanged s s' /\ files s' = files s
    /\ fresh_in s d /\ sm_at s' d = Some md /\ sm_rows md = sm_rows ms /\ sm_cols md = sm_cols ms
    /\ matrix s' (sm_data md) 4 (sm_rows ms) (sm_cols ms) (fun i j => library_integral P i j mod 4294967296).
Proof.
  intros e s src ms P He Hs I C1 G B. change INT_MAX with 2147483647 in B.
  pose proof (im_rows _ _ _ _ I) as HR. pose proof (im_cols _ _ _ _ I) as HC.
  assert (N : sm_rows ms * sm_cols ms * 4 * 1 + 96 <= 2147483647) by nia.
  destruct (create_sm_run e s (sm_rows ms) (sm_cols ms) 3 4 1 He Hs eq_refl HR HC ltac:(lia) N) as (dd & E & _).
  set (k := List.length (objs s)) in *. set (s1 := newsm e s (sm_rows ms) (sm_cols ms) 3 4 1 dd) in *.
  assert (O : old_unchanged s s1) by apply newsm_old_unchanged.
  assert (I1 := image_old _ _ _ _ _ O I). assert (G1 := grey_old _ _ _ _ _ _ I O G).
  assert (D : image s1 (Some k) (newsm_hdr s (sm_rows ms) (sm_cols ms) 3 4 1) 4) by (apply newsm_image; auto; lia).
  assert (T : sm_type ms = 1) by (apply type_one; exact (im_type _ _ _ _ I)).
  assert (ND : sm_data ms <> sm_data (newsm_hdr s (sm_rows ms) (sm_cols ms) 3 4 1)).
  { destruct (data_old _ _ _ _ I) as (q & -> & Hq). cbn. intros H. injection H as ->. fold k in Hq. lia. }
  destruct (integral_exact e s1 src (Some k) ms _ P I1 D C1 eq_refl eq_refl eq_refl eq_refl ND G1 B) as (s' & R & M & (F & _ & U & _)).
  exists s', (Some k), (newsm_hdr s (sm_rows ms) (sm_cols ms) 3 4 1).
  assert (KL : List.length (objs s1) = (k + 2)%nat) by (unfold s1, newsm; cbn; rewrite app_length; reflexivity).
  split; [|split; [|split; [|split; [|split; [|split; [|split]]]]]]; auto.
  - rewrite <- R. exact (integral_created e s src ms s1 k _ (im_hdr _ _ _ _ I) T C1 E (im_hdr _ _ _ _ I1) (im_hdr _ _ _ _ D)).
  - intros i Hi. rewrite <- (O i Hi). apply U; [lia|]. cbn. intros [H|[]]. injection H as H. lia.
  - exists k. auto.
  - rewrite (nth_sm_at s1 s'); [exact (im_hdr _ _ _ _ D)|]. apply U; [lia|]. cbn. intros [H|[]]. injection H as H. fold k in H. lia.
Qed.
