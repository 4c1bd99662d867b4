(** * The Gaussian blur when no destination is given: filter.c 322-454. *)
From Verif Require Import Base Logic ModelFloat ModelCore ModelFilter ModelBorder ModelGauss SpecBase SpecCore SpecImage SpecImage2 SpecPixel SpecNum SpecMatrix SpecFilter
  SpecGauss ProofCore ProofHM ProofCopy ProofCore2 ProofImage2 ProofPixel ProofArr ProofFilter ProofBlur6 ProofFilter2.
From Coq Require Import Lia.
Open Scope Z_scope.

Lemma word_lt s p off k w : word_at s p off (S k) = Some w -> exists q, p = Some q /\ (q < List.length (objs s))%nat.
Proof.
  cbn [word_at]. destruct (byte_at s p off) eqn:B; [|discriminate]. intros _. unfold byte_at in B.
  destruct p as [q|]; [|discriminate]. exists q. split; auto. apply nth_error_Some. intros X. cbn in B. now rewrite X in B.
Qed.
Lemma row_old s s' p n K : old_unchanged s s' -> matrix s p 4 1 n K -> matrix s' p 4 1 n K.
Proof.
  intros O H i j Hi Hj. specialize (H i j Hi Hj). destruct (word_lt _ _ _ _ _ H) as (q & -> & L). rewrite <- H. now apply old_word.
Qed.
Lemma header_old s s' p m : old_unchanged s s' -> sm_at s p = Some m -> sm_at s' p = Some m.
Proof.
  intros O H. destruct (sm_nonnull _ _ _ H) as [q ->]. rewrite <- H. apply nth_sm_at. apply O.
  apply nth_error_Some. intros X. cbn in H. now rewrite X in H.
Qed.

Lemma blur_created e s src kx ky ms mx my s1 p b : sm_at s src = Some ms -> sm_at s kx = Some mx -> sm_at s ky = Some my ->
  0 < sm_cols mx -> 0 < sm_cols my -> border_mode b = true -> sm_chan ms = 1 \/ sm_chan ms = 3 ->
  create_simple_mat (sm_rows ms) (sm_cols ms) (sm_type ms) (sm_chan ms) e s = Ret (Some p) s1 -> old_unchanged s s1 ->
  hypercv_gaussian_blur_with_kernel src None kx ky b e s = hypercv_gaussian_blur_with_kernel src (Some p) kx ky b e s1.
Proof.
  intros A X Y W H B C E O. assert (A1 := header_old _ _ _ _ O A). assert (X1 := header_old _ _ _ _ O X). assert (Y1 := header_old _ _ _ _ O Y).
  destruct (sm_nonnull _ _ _ A) as [q ->]. unfold hypercv_gaussian_blur_with_kernel.
  rewrite (bind_ret _ _ _ _ _ _ (sget_ok _ _ e s X)), (bind_ret _ _ _ _ _ _ (sget_ok _ _ e s1 X1)).
  rewrite (bind_ret _ _ _ _ _ _ (sget_ok _ _ e s Y)), (bind_ret _ _ _ _ _ _ (sget_ok _ _ e s1 Y1)). cbv zeta.
  assert (CN : (sm_chan ms =? 1) || (sm_chan ms =? 3) = true) by (apply Bool.orb_true_iff; lia).
  assert (W1 : (sm_cols mx >=? 0) = true) by (apply Z.geb_le; lia). assert (H1 : (sm_cols my >=? 0) = true) by (apply Z.geb_le; lia).
  do 4 (rewrite (bind_assert _ _ e s) by (reflexivity || assumption)). do 4 (rewrite (bind_assert _ _ e s1) by (reflexivity || assumption)).
  rewrite (bind_ret _ _ _ _ _ _ (sget_ok _ _ e s A)), (bind_ret _ _ _ _ _ _ (sget_ok _ _ e s1 A1)).
  rewrite !(bind_assert _ _ e) by exact CN. cbn [nonnull]. rewrite bind_ret_l. now rewrite (bind_ret _ _ _ _ _ _ E).
Qed.

Theorem blur_lost : forall e s src kx ky ms mx my KX KY P x, env_ok e -> heap_ok s ->
  image s src ms 1 -> sm_chan ms = 1 \/ sm_chan ms = 3 -> colours s ms P ->
  sm_rows ms * sm_cols ms * 4 * sm_chan ms + 96 <= 2147483647 ->
  sm_at s kx = Some mx -> sm_at s ky = Some my -> 0 < sm_cols mx -> 0 < sm_cols my ->
  matrix s (sm_data mx) 4 1 (sm_cols mx) (fun _ => KX) -> matrix s (sm_data my) 4 1 (sm_cols my) (fun _ => KY) ->
  sm_cols ms + sm_cols mx <= 2147483647 -> sm_rows ms + sm_cols my <= 2147483647 ->
  exists s' p md, hypercv_gaussian_blur_with_kernel src None kx ky (mode_of x) e s = Ret tt s'
    /\ old_unchanged s s' /\ files s' = files s /\ fresh_in s p /\ sm_at s' p = Some md
    /\ sm_rows md = sm_rows ms /\ sm_cols md = sm_cols ms /\ sm_chan md = sm_chan ms
    /\ forall i j c, in_image ms i j c -> exists b, pix s' md i j c = Some b
         /\ shown_as (smooth2 (sm_cols mx) (sm_cols my) KX KY (source_index x (sm_rows ms)) (source_index x (sm_cols ms)) P c i j) b.
Proof.
  intros e s src kx ky ms mx my KX KY P x He Hs I C G B HX HY W H MX MY Ck Rk.
  destruct (create_sm_run e s (sm_rows ms) (sm_cols ms) (sm_type ms) 1 (sm_chan ms) He Hs (im_type _ _ _ _ I) (im_rows _ _ _ _ I) (im_cols _ _ _ _ I)
    (im_chan _ _ _ _ I) (im_size _ _ _ _ I)) as (dd & E & _).
  set (p := List.length (objs s)) in *. set (s1 := newsm e s (sm_rows ms) (sm_cols ms) (sm_type ms) 1 (sm_chan ms) dd) in *.
  set (md := newsm_hdr s (sm_rows ms) (sm_cols ms) (sm_type ms) 1 (sm_chan ms)).
  assert (O : old_unchanged s s1) by apply newsm_old_unchanged.
  assert (D : image s1 (Some p) md 1).
  { apply newsm_image; [exact (im_type _ _ _ _ I)|exact (im_rows _ _ _ _ I)|exact (im_cols _ _ _ _ I)|exact (im_chan _ _ _ _ I)|exact (im_size _ _ _ _ I)]. }
  assert (KL : List.length (objs s1) = (p + 2)%nat) by (unfold s1, newsm; cbn; rewrite app_length; reflexivity).
  assert (NY : sm_data my <> sm_data md).
  { destruct (word_lt _ _ _ _ _ (MY 0 0 ltac:(lia) ltac:(lia))) as (q & -> & Hq). cbn. intros X. injection X as ->. fold p in Hq. lia. }
  destruct (blur_exact e s1 src (Some p) kx ky ms md mx my KX KY P x) as (s' & R & (V & _ & U & F) & _); auto.
  - unfold s1. now apply newsm_heap_ok.
  - exact (image_old _ _ _ _ _ O I).
  - exact (colours_old _ _ _ _ _ _ I O G).
  - exact (header_old _ _ _ _ O HX).
  - exact (header_old _ _ _ _ O HY).
  - exact (row_old _ _ _ _ _ O MX).
  - exact (row_old _ _ _ _ _ O MY).
  - exists s', (Some p), md. split.
    { rewrite <- R. eapply blur_created; eauto; [exact (im_hdr _ _ _ _ I)|now destruct x]. }
    split. { intros i Hi. rewrite <- (O i Hi). apply U; [lia|]. cbn. intros [X|[]]. injection X as X. fold p in X. lia. }
    split; [exact F|]. split; [exists p; auto|].
    split. { rewrite (nth_sm_at s1 s'); [exact (im_hdr _ _ _ _ D)|]. apply U; [lia|]. cbn. intros [X|[]]. injection X as X. fold p in X. lia. }
    do 3 (split; [reflexivity|]). exact V.
Qed.
