(** * Erosion and dilation when no destination is given: morphology.c 17-136. *)
From Verif Require Import Base Logic ModelFloat ModelCore ModelMorph SpecBase SpecCore SpecImage SpecImage2 SpecPixel SpecNum SpecMatrix SpecFilter
  SpecMorph ProofCore ProofHM ProofCopy ProofCore2 ProofImage2 ProofPixel ProofArr ProofFilter ProofBlur6 ProofFilter2 ProofMorph.
From Coq Require Import Lia.
Open Scope Z_scope.

Lemma s2_data_lt s k r : s2_at s k = Some r -> exists q, k = Some q /\ (q < List.length (objs s))%nat.
Proof.
  destruct k as [q|]; [|discriminate]. cbn. intros H. exists q. split; auto. apply nth_error_Some. intros E. now rewrite E in H.
Qed.
Lemma old_s2 s s' k r : old_unchanged s s' -> s2_at s k = Some r -> s2_at s' k = Some r.
Proof. intros O H. destruct (s2_data_lt _ _ _ H) as (q & -> & L). cbn in *. now rewrite (O q L). Qed.

Lemma element_data s k w h d E : element s k w h d E -> exists q, d = Some q /\ (q < List.length (objs s))%nat.
Proof.
  intros (_ & W & H & B). specialize (B 0 0 ltac:(lia) ltac:(lia)). unfold byte_at in B.
  destruct d as [q|]; [|discriminate]. exists q. split; auto. apply nth_error_Some. intros X. cbn in B. now rewrite X in B.
Qed.
Lemma element_old s s' k w h d E : old_unchanged s s' -> element s k w h d E -> element s' k w h d E.
Proof.
  intros O H. destruct (element_data _ _ _ _ _ _ H) as (q & -> & L). destruct H as (A & W & Hh & B).
  split; [now apply (old_s2 s)|]. split; auto. split; auto. intros m n Hm Hn. rewrite <- (B m n Hm Hn). now apply old_byte.
Qed.

(** Without a destination the rest runs on a copy of the image. *)
Lemma corrosion_created e s src k ms r s1 p md : sm_at s src = Some ms -> s2_at s k = Some r -> s2_width r <= sm_cols ms -> s2_height r <= sm_rows ms ->
  simple_mat_copy src e s = Ret (Some p) s1 -> sm_at s1 src = Some ms -> s2_at s1 k = Some r -> sm_at s1 (Some p) = Some md ->
  hypercv_corrosion src None k e s = hypercv_corrosion src (Some p) k e s1
  /\ hypercv_expend src None k e s = hypercv_expend src (Some p) k e s1.
Proof.
  intros A K W H E A1 K1 D. destruct (sm_nonnull _ _ _ A) as [q ->]. destruct (s2_data_lt _ _ _ K) as (y & -> & _).
  assert (G : (sm_cols ms <? s2_width r) || (sm_rows ms <? s2_height r) = false) by (apply Bool.orb_false_iff; lia).
  split; unfold hypercv_corrosion, hypercv_expend;
    rewrite !bind_assert by reflexivity;
    rewrite (bind_ret _ _ _ _ _ _ (sget_ok _ _ e s A)), (bind_ret _ _ _ _ _ _ (sget_ok _ _ e s1 A1));
    rewrite (bind_ret _ _ _ _ _ _ (s2get_ok _ _ e s K)), (bind_ret _ _ _ _ _ _ (s2get_ok _ _ e s1 K1)); cbv zeta;
    rewrite G; cbn [nonnull]; rewrite bind_ret_l; now rewrite (bind_ret _ _ _ _ _ _ E).
Qed.

Lemma open_created e s src k ms s1 p y n : sm_at s src = Some ms -> k = Some y ->
  simple_mat_copy src e s = Ret (Some p) s1 -> sm_at s1 src = Some ms ->
  hypercv_open src None k n e s = hypercv_open src (Some p) k n e s1
  /\ hypercv_close src None k n e s = hypercv_close src (Some p) k n e s1.
Proof.
  intros A -> E A1. destruct (sm_nonnull _ _ _ A) as [q ->].
  split; unfold hypercv_open, hypercv_close; rewrite !bind_assert by reflexivity;
    rewrite (bind_ret _ _ _ _ _ _ (sget_ok _ _ e s A)), (bind_ret _ _ _ _ _ _ (sget_ok _ _ e s1 A1));
    cbn [nonnull]; rewrite bind_ret_l; now rewrite (bind_ret _ _ _ _ _ _ E).
Qed.

(** The state after the copy. *)
Lemma copy_setting e s src k d ms w h E P : env_ok e -> heap_ok s -> image s src ms 1 ->
  grey s ms P -> element s k w h d E ->
  exists s1 p md, simple_mat_copy src e s = Ret (Some p) s1 /\ fresh_in s (Some p)
    /\ image s1 src ms 1 /\ grey s1 ms P /\ element s1 k w h d E /\ image s1 (Some p) md 1
    /\ sm_chan md = sm_chan ms /\ sm_rows md = sm_rows ms /\ sm_cols md = sm_cols ms /\ sm_data ms <> sm_data md /\ d <> sm_data md
    /\ forall y U, painted s1 md U y -> old_unchanged s y /\ sm_at y (Some p) = Some md /\ grey y md U.
Proof.
  intros He Hs I G El.
  destruct (copy_sm_run e s src ms 1 He Hs I) as (dd & R & _).
  set (p := List.length (objs s)) in *. set (s1 := newsm e s (sm_rows ms) (sm_cols ms) (sm_type ms) 1 (sm_chan ms) dd) in *.
  set (md := newsm_hdr s (sm_rows ms) (sm_cols ms) (sm_type ms) 1 (sm_chan ms)).
  assert (O : old_unchanged s s1) by apply newsm_old_unchanged.
  assert (D : image s1 (Some p) md 1).
  { apply newsm_image; [exact (im_type _ _ _ _ I)|exact (im_rows _ _ _ _ I)|exact (im_cols _ _ _ _ I)|exact (im_chan _ _ _ _ I)|exact (im_size _ _ _ _ I)]. }
  assert (KL : List.length (objs s1) = (p + 2)%nat) by (unfold s1, newsm; cbn; rewrite app_length; reflexivity).
  exists s1, p, md. split; [exact R|]. split; [exists p; auto|].
  split; [exact (image_old _ _ _ _ _ O I)|]. split; [exact (grey_old _ _ _ _ _ _ I O G)|].
  split; [exact (element_old _ _ _ _ _ _ _ O El)|]. split; [exact D|]. do 3 (split; [reflexivity|]).
  split.
  { destruct (data_old _ _ _ _ I) as (q & -> & Hq). cbn. intros X. injection X as ->. fold p in Hq. lia. }
  split.
  { destruct (element_data _ _ _ _ _ _ El) as (q & -> & Hq). cbn. intros X. injection X as ->. fold p in Hq. lia. }
  intros y U (Y1 & _ & Y3). split; [|split].
  - intros i Hi. rewrite <- (O i Hi). apply Y3; [lia|]. cbn. intros [X|[]]. injection X as X. fold p in X. lia.
  - rewrite (nth_sm_at s1 y); [exact (im_hdr _ _ _ _ D)|]. apply Y3; [lia|]. cbn. intros [X|[]]. injection X as X. fold p in X. lia.
  - exact Y1.
Qed.

Theorem morphology_lost : forall e s src k d ms w h E P, env_ok e -> heap_ok s -> image s src ms 1 -> sm_chan ms = 1 ->
  sm_rows ms = sm_cols ms -> grey s ms P -> element s k w h d E -> w <= sm_cols ms -> h <= sm_rows ms ->
  exists s' s'' p md V V', hypercv_corrosion src None k e s = Ret tt s' /\ hypercv_expend src None k e s = Ret tt s''
    /\ old_unchanged s s' /\ old_unchanged s s'' /\ fresh_in s p /\ sm_at s' p = Some md /\ sm_at s'' p = Some md
    /\ sm_rows md = sm_rows ms /\ sm_cols md = sm_cols ms
    /\ grey s' md V /\ library_erosion (sm_rows ms) (sm_cols ms) w h E P V
    /\ grey s'' md V' /\ library_dilation (sm_rows ms) (sm_cols ms) w h E P V'.
Proof.
  intros e s src k d ms w h E P He Hs I C1 Sq G El W H.
  destruct (copy_setting e s src k d ms w h E P He Hs I G El) as (s1 & p & md & R & F & I1 & G1 & E1 & D & C2 & ER & EC & ND & NE & X).
  rewrite C1 in C2.
  destruct (corrosion_created e s src k ms _ s1 p md (im_hdr _ _ _ _ I) (proj1 El) W H R (im_hdr _ _ _ _ I1) (proj1 E1) (im_hdr _ _ _ _ D)) as (Q1 & Q2).
  destruct (corrosion_exact e s1 src (Some p) k d ms md w h E P) as (s' & V & R1 & P1 & L1); auto.
  destruct (expend_exact e s1 src (Some p) k d ms md w h E P) as (s'' & V' & R2 & P2 & L2); auto.
  exists s', s'', (Some p), md, V, V'. rewrite Q1, Q2.
  destruct (X _ _ P1) as (A1 & A2 & A3). destruct (X _ _ P2) as (B1 & B2 & B3). repeat (split; [assumption|]). assumption.
Qed.

Theorem open_close_lost : forall e s src k d ms w h E P n, env_ok e -> heap_ok s -> image s src ms 1 -> sm_chan ms = 1 ->
  sm_rows ms = sm_cols ms -> grey s ms P -> element s k w h d E -> w <= sm_cols ms -> h <= sm_rows ms -> 0 < n ->
  exists s' s'' p md V V', hypercv_open src None k n e s = Ret tt s' /\ hypercv_close src None k n e s = Ret tt s''
    /\ old_unchanged s s' /\ old_unchanged s s'' /\ fresh_in s p /\ sm_at s' p = Some md /\ sm_at s'' p = Some md
    /\ sm_rows md = sm_rows ms /\ sm_cols md = sm_cols ms
    /\ grey s' md V /\ library_dilation (sm_rows ms) (sm_cols ms) w h E P V
    /\ grey s'' md V' /\ library_erosion (sm_rows ms) (sm_cols ms) w h E P V'.
Proof.
  intros e s src k d ms w h E P n He Hs I C1 Sq G El W H Hn.
  destruct (copy_setting e s src k d ms w h E P He Hs I G El) as (s1 & p & md & R & F & I1 & G1 & E1 & D & C2 & ER & EC & ND & NE & X).
  rewrite C1 in C2. destruct (s2_data_lt _ _ _ (proj1 El)) as (y & Ky & _).
  destruct (open_created e s src k ms s1 p y n (im_hdr _ _ _ _ I) Ky R (im_hdr _ _ _ _ I1)) as (Q1 & Q2).
  destruct (open_exact e s1 src (Some p) k d ms md w h E P n) as (s' & V & R1 & P1 & L1); auto.
  destruct (close_exact e s1 src (Some p) k d ms md w h E P n) as (s'' & V' & R2 & P2 & L2); auto.
  exists s', s'', (Some p), md, V, V'. rewrite Q1, Q2.
  destruct (X _ _ P1) as (A1 & A2 & A3). destruct (X _ _ P2) as (B1 & B2 & B3). repeat (split; [assumption|]). assumption.
Qed.
