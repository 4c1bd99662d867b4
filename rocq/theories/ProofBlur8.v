(** * The whole Gaussian blur when no destination is given: filter.c 282-313. *)
From Verif Require Import Base ModelFloat ModelDouble ModelConv ModelBorder ModelCore ModelImage ModelMatrix ModelFilter ModelGauss Logic SpecBase SpecCore SpecNum SpecMatrix SpecPixel SpecImage2 SpecFilter SpecGauss SpecCxx.
From Verif Require Import ProofCore ProofCore2 ProofCopy ProofImage2 ProofPixel ProofArr ProofGrid ProofMatrix ProofFold ProofBorder ProofFloat ProofFloat2 ProofErr ProofGrad ProofFilter ProofHM ProofBlur ProofBlur2 ProofBlur3 ProofBlur4 ProofBlur5 ProofBlur6 ProofFilter2 ProofBlur7.
From Coq Require Import Floats.SpecFloat Lia ZifyBool ZifyNat.
Open Scope Z_scope.

(** The result V is in a new matrix at p; nothing older has changed. *)
Definition lost (s : st) (ms : smat) (V : Z -> Z -> Z -> sf) (s' : st) : Prop :=
  exists p md, old_unchanged s s' /\ files s' = files s /\ fresh_in s p /\ sm_at s' p = Some md
    /\ sm_rows md = sm_rows ms /\ sm_cols md = sm_cols ms /\ sm_chan md = sm_chan ms
    /\ forall i j c, in_image ms i j c -> exists b, pix s' md i j c = Some b /\ shown_as (V c i j) b.

Lemma lost_run e s src kx ky ms mx my KX KY P ty ixr ixc : env_ok e -> heap_ok s ->
  image s src ms 1 -> sm_chan ms = 1 \/ sm_chan ms = 3 -> colours s ms P ->
  sm_rows ms * sm_cols ms * 4 * sm_chan ms + 96 <= 2147483647 ->
  sm_at s kx = Some mx -> sm_at s ky = Some my -> 0 < sm_cols mx -> 0 < sm_cols my ->
  matrix s (sm_data mx) 4 1 (sm_cols mx) (fun _ => KX) -> matrix s (sm_data my) 4 1 (sm_cols my) (fun _ => KY) ->
  sm_cols ms + sm_cols mx <= 2147483647 -> sm_rows ms + sm_cols my <= 2147483647 -> border_mode ty = true ->
  good_index ty (sm_rows ms) (- (sm_cols my / 2)) (sm_rows ms + sm_cols my) ixr ->
  good_index ty (sm_cols ms) (- (sm_cols mx / 2)) (sm_cols ms + sm_cols mx) ixc ->
  exists s', hypercv_gaussian_blur_with_kernel src None kx ky ty e s = Ret tt s'
    /\ lost s ms (smooth2 (sm_cols mx) (sm_cols my) KX KY ixr ixc P) s'.
Proof.
  intros He Hs I C G B HX HY W H MX MY Ck Rk Bm Gr Gc.
  destruct (create_sm_run e s (sm_rows ms) (sm_cols ms) (sm_type ms) 1 (sm_chan ms) He Hs (im_type _ _ _ _ I) (im_rows _ _ _ _ I) (im_cols _ _ _ _ I)
    (im_chan _ _ _ _ I) (im_size _ _ _ _ I)) as (dd & E & _).
  set (p := List.length (objs s)) in *. set (s1 := newsm e s (sm_rows ms) (sm_cols ms) (sm_type ms) 1 (sm_chan ms) dd) in *.
  set (md := newsm_hdr s (sm_rows ms) (sm_cols ms) (sm_type ms) 1 (sm_chan ms)).
  assert (O : old_unchanged s s1) by apply newsm_old_unchanged.
  assert (D : image s1 (Some p) md 1).
  { apply newsm_image; [exact (im_type _ _ _ _ I)|exact (im_rows _ _ _ _ I)|exact (im_cols _ _ _ _ I)|exact (im_chan _ _ _ _ I)|exact (im_size _ _ _ _ I)]. }
  assert (KL : List.length (objs s1) = (p + 2)%nat) by (unfold s1, newsm; cbn; rewrite app_length; reflexivity).
  assert (NY : sm_data my <> sm_data md).
  { destruct (word_lt _ _ _ _ _ (MY 0 0 ltac:(lia) ltac:(lia))) as (q & -> & Hq). cbn. intros X. injection X as ->. fold p in Hq. lia. }
  destruct (blur_run e s1 src (Some p) kx ky ms md mx my KX KY P ty ixr ixc) as (s' & R & (V & _ & U & F) & _); auto.
  - unfold s1. now apply newsm_heap_ok.
  - exact (image_old _ _ _ _ _ O I).
  - exact (colours_old _ _ _ _ _ _ I O G).
  - exact (header_old _ _ _ _ O HX).
  - exact (header_old _ _ _ _ O HY).
  - exact (row_old _ _ _ _ _ O MX).
  - exact (row_old _ _ _ _ _ O MY).
  - exists s'. split. { rewrite <- R. eapply blur_created; eauto. exact (im_hdr _ _ _ _ I). }
    exists (Some p), md.
    split. { intros i Hi. rewrite <- (O i Hi). apply U; [lia|]. cbn. intros [X|[]]. injection X as X. fold p in X. lia. }
    split; [exact F|]. split; [exists p; auto|].
    split. { rewrite (nth_sm_at s1 s'); [exact (im_hdr _ _ _ _ D)|]. apply U; [lia|]. cbn. intros [X|[]]. injection X as X. fold p in X. lia. }
    do 3 (split; [reflexivity|]). exact V.
Qed.

Lemma gaussian_lost exp_ e s src ms P kw kh s1 s2 ty ixr ixc :
  env_ok e -> heap_ok s -> image s src ms 1 ->
  sm_chan ms = 1 \/ sm_chan ms = 3 -> colours s ms P -> sm_rows ms * sm_cols ms * 4 * sm_chan ms + 96 <= 2147483647 ->
  0 < kw -> Z.odd kw = true -> 0 < kh -> Z.odd kh = true -> kw * 4 + 96 <= 2147483647 -> kh * 4 + 96 <= 2147483647 ->
  sm_cols ms + kw <= 2147483647 -> sm_rows ms + kh <= 2147483647 -> border_mode ty = true ->
  good_index ty (sm_rows ms) (- (kh / 2)) (sm_rows ms + kh) ixr ->
  good_index ty (sm_cols ms) (- (kw / 2)) (sm_cols ms + kw) ixc ->
  exists s', hypercv_gaussian_blur exp_ src None kw kh s1 s2 ty e s = Ret tt s'
    /\ lost s ms (smooth2 kw kh (weights exp_ kw (blur_sigma1 s1)) (weights exp_ kh (blur_sigma2 s1 s2)) ixr ixc P) s'.
Proof.
  intros He Hs Is Hch G Hsz Hw Ow Hh Oh Bw Bh Cw Ch Bm Gr Gc.
  destruct (kernel_built exp_ e s kw (blur_sigma1 s1) 4 4 He Hs Hw ltac:(auto) Bw) as (mx & t1 & E1 & B1 & D1 & A1).
  destruct B1 as (X1 & _ & X3 & _ & _ & X6 & X7 & X8 & _).
  destruct (kernel_built exp_ e t1 kh (blur_sigma2 s1 s2) 4 4 He X8 Hh ltac:(auto) Bh) as (my & t2 & E2 & B2 & D2 & A2).
  destruct B2 as (Y1 & _ & Y3 & _ & _ & Y6 & Y7 & Y8 & _).
  pose proof (old_unchanged_trans _ _ _ X6 Y6) as O2.
  pose proof (old_unchanged_length _ _ O2) as L2.
  assert (K1 : (List.length (objs s) + 1 < List.length (objs t1))%nat).
  { destruct A1 as (N1 & d1 & I1 & _). now apply isb_lt in I1. }
  destruct (lost_run e t2 src (Some (List.length (objs s))) (Some (List.length (objs t1))) ms mx my
      (weights exp_ kw (blur_sigma1 s1)) (weights exp_ kh (blur_sigma2 s1 s2)) P ty ixr ixc) as (s' & E & S); auto;
    rewrite ?X3, ?Y3; auto.
  - eapply image_old; eauto.
  - eapply colours_old; eauto.
  - exact (header_old _ _ _ _ Y6 X1).
  - intros i j Hi Hj. assert (i = 0) as -> by lia. cbn [Z.mul Z.add]. rewrite D1.
    pose proof (arr_word _ _ _ _ _ _ j A1 Hj) as Wd. cbn [Z.eqb Pos.eqb Z.add] in Wd. unfold weights. rewrite <- Wd.
    now apply old_word.
  - intros i j Hi Hj. assert (i = 0) as -> by lia. cbn [Z.mul Z.add]. rewrite D2.
    exact (arr_word _ _ _ _ _ _ j A2 Hj).
  - exists s'. split.
    + unfold hypercv_gaussian_blur.
      rewrite bind_assert by (destruct src; [reflexivity|]; pose proof (im_hdr _ _ _ _ Is); discriminate).
      assert (Rw : Z.rem kw 2 = 1) by (rewrite Z.rem_mod_nonneg by lia; now rewrite Zmod_odd, Ow).
      assert (Rh : Z.rem kh 2 = 1) by (rewrite Z.rem_mod_nonneg by lia; now rewrite Zmod_odd, Oh).
      rewrite bind_assert by (rewrite Rw, Rh; lia). rewrite bind_assert by exact Bm.
      rewrite (bind_ret _ _ _ _ _ _ (sget_ok _ _ e _ (im_hdr _ _ _ _ Is))). cbv zeta.
      fold (blur_sigma1 s1). fold (blur_sigma1 (if SFleb s2 (db_of_Z 0) then s1 else s2)). fold (blur_sigma2 s1 s2).
      rewrite (bind_ret _ _ _ _ _ _ E1). rewrite (bind_ret _ _ _ _ _ _ E2). exact E.
    + rewrite X3, Y3 in S. destruct S as (p & md & S1 & S2 & (k & -> & S3) & S4). exists (Some k), md.
      split; [now apply (old_unchanged_trans _ t2)|]. split; [now rewrite S2, Y7, X7|]. split; [exists k; split; auto; lia|]. exact S4.
Qed.

(** Every mode of border: constant images. *)
Theorem blur_constant_lost : forall exp_ e s src ms v kw kh s1 s2 ty, env_ok e -> heap_ok s -> image s src ms 1 ->
  sm_chan ms = 1 \/ sm_chan ms = 3 -> (forall i j c, in_image ms i j c -> pix s ms i j c = Some (v c)) ->
  sm_rows ms * sm_cols ms * 4 * sm_chan ms + 96 <= 2147483647 ->
  0 < kw < 2048 -> Z.odd kw = true -> 0 < kh < 2048 -> Z.odd kh = true -> exp_like exp_ -> good_sigma s1 -> good_sigma s2 ->
  (exists x, ty = mode_of x) \/ ty = 0 /\ 2 <= sm_rows ms /\ 2 <= sm_cols ms ->
  exists s' p md, hypercv_gaussian_blur exp_ src None kw kh s1 s2 ty e s = Ret tt s'
    /\ old_unchanged s s' /\ files s' = files s /\ fresh_in s p /\ sm_at s' p = Some md
    /\ sm_rows md = sm_rows ms /\ sm_cols md = sm_cols ms /\ sm_chan md = sm_chan ms
    /\ forall i j c, in_image ms i j c -> pix s' md i j c = Some (v c).
Proof.
  intros exp_ e s src ms v kw kh s1 s2 ty He Hs Is Hch G Hsz Hw Ow Hh Oh Hx G1 G2 T.
  pose proof (im_rows _ _ _ _ Is) as HR. pose proof (im_cols _ _ _ _ Is) as HC. pose proof (im_chan _ _ _ _ Is) as Hc.
  assert (Sz : sm_rows ms <= 536870887 /\ sm_cols ms <= 536870887) by (clear - HR HC Hc Hsz; nia).
  assert (Hk : 0 <= kw / 2 <= kw /\ 0 <= kh / 2 <= kh) by (clear - Hw Hh; Z.div_mod_to_equations; lia).
  assert (GI : border_mode ty = true /\ exists ixr ixc, good_index ty (sm_rows ms) (- (kh / 2)) (sm_rows ms + kh) ixr
    /\ good_index ty (sm_cols ms) (- (kw / 2)) (sm_cols ms + kw) ixc).
  { destruct T as [[x ->]|(-> & R2 & C2)].
    - split; [now destruct x|]. do 2 eexists. split; (apply good_source; [lia|]; intros p Hp; unfold computable, INT_MIN, INT_MAX; destruct x; lia).
    - split; [reflexivity|]. do 2 eexists. split; apply good_const; lia. }
  destruct GI as (Bm & ixr & ixc & Gr & Gc).
  destruct (gaussian_lost exp_ e s src ms (fun _ _ c => v c) kw kh s1 s2 ty ixr ixc) as (s' & E & (p & md & O & F & Fr & A & ER & EC & Ech & V)); auto; try lia.
  exists s', p, md. do 8 (split; [assumption|]). intros i j c Hi. destruct (V i j c Hi) as (b & Eb & Hb). rewrite Eb. f_equal.
  apply (smooth2_const kw kh _ _ ixr ixc (fun _ _ c => v c) c i j (v c) b ltac:(lia) ltac:(lia)) in Hb; auto.
  - apply kernel_unit; auto; [lia|]. now apply good_sigma_1.
  - apply kernel_unit; auto; [lia|]. apply good_sigma_1. now destruct (SFleb s2 (db_of_Z 0)).
  - assert (Hi' : in_image ms 0 0 c).
    { destruct Hi as (_ & _ & Hc'). repeat split; lia. }
    pose proof (G _ _ _ Hi') as B. unfold pix, pixel_byte, byte_at in B. destruct (bytes_at s (sm_data ms)) as [[[q n] d]|]; [|discriminate].
    destruct (inb _ n); [|discriminate]. injection B as <-. pose proof (Z.mod_pos_bound (d (((0 * sm_cols ms + 0) * sm_chan ms + c) * 1 + 0)) 256 ltac:(lia)). lia.
Qed.
