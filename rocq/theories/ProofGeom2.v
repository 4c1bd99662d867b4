(** * Proofs: image pyramids. *)
From Verif Require Import Base ModelFloat ModelDouble ModelConv ModelBorder ModelCore ModelImage ModelMatrix ModelFilter ModelGauss Logic SpecBase SpecNum SpecMatrix SpecPixel SpecImage2 SpecFilter SpecGauss SpecCxx SpecGeom.
From Verif Require Import ModelGeom ProofCore ProofCore2 ProofImage2 ProofImage3 ProofImage4 ProofPixel ProofArr ProofGrid ProofMatrix ProofInvert ProofFold ProofBorder ProofFloat ProofFloat2 ProofErr ProofGrad ProofFilter ProofHM ProofCopy ProofFlip ProofBlur ProofBlur2 ProofBlur3 ProofBlur4 ProofBlur5 ProofBlur6 ProofGeom.
From Coq Require Import Floats.SpecFloat Lia ZifyBool ZifyNat.
Open Scope Z_scope.

Lemma rdv_sget e s q n d p m : isb s q n d -> sm_at s p = Some m -> rdv e s q (sget p) m.
Proof. intros I H f. apply sget_ok. now rewrite (sm_at_putd _ _ _ _ _ _ I). Qed.

(** An image all of whose pixels can be read. *)
Lemma seen_pixels s m : 0 < sm_rows m -> 0 < sm_cols m -> 0 < sm_chan m ->
  sm_rows m * sm_cols m * sm_chan m + 96 <= 2147483647 ->
  (forall i j c, in_image m i j c -> exists b, pix s m i j c = Some b) -> exists q n f, pixels s m q n f.
Proof.
  intros HR HC Hch Hsz H.
  destruct (H (sm_rows m - 1) (sm_cols m - 1) (sm_chan m - 1)) as (b & Hb); [repeat split; lia|].
  unfold pix, pixel_byte in Hb. rewrite Z.mul_1_r, Z.add_0_r in Hb.
  destruct (word_isb s (sm_data m) (((sm_rows m - 1) * sm_cols m + (sm_cols m - 1)) * sm_chan m + (sm_chan m - 1)) 0 (b + 256 * 0)) as (q & N & d & E & I & L1 & L2).
  { cbn [word_at]. now rewrite Hb. }
  exists q, N, d. constructor; auto. clear - L2 HR HC Hch. nia.
Qed.

Lemma half_bound n i : 0 <= i < (n + 1) / 2 -> 0 <= 2 * i < n.
Proof. intros. assert (2 * ((n + 1) / 2) <= n + 1) by (apply Z.mul_div_le; lia). lia. Qed.

Lemma replicate_clamp n i : source_index Replicate n i = clamp 0 (n - 1) i.
Proof. unfold source_index, clamp. lia. Qed.

Lemma sigma_zero : blur_sigma1 (db_of_Z 0) = db_of_Z 0 /\ blur_sigma2 (db_of_Z 0) (db_of_Z 0) = db_of_Z 0
  /\ gauss_fixed 5 (db_of_Z 0) = true.
Proof. repeat split; vm_compute; reflexivity. Qed.

Theorem down_run exp_ e s src dst ms md P :
  env_ok e -> heap_ok s -> image s src ms 1 -> image s dst md 1 ->
  sm_rows md = (sm_rows ms + 1) / 2 -> sm_cols md = (sm_cols ms + 1) / 2 -> sm_chan md = sm_chan ms ->
  sm_chan ms = 1 \/ sm_chan ms = 3 -> 2 <= sm_rows ms -> 2 <= sm_cols ms ->
  colours s ms P -> sm_rows ms * sm_cols ms * 4 * sm_chan ms + 96 <= 2147483647 ->
  exists s', hypercv_pyramid_down exp_ src dst e s = Ret tt s' /\ reduced s ms md P s' /\ only_pixels s md s' /\ ~ no_leak s s'.
Proof.
  intros He Hs Is Id ER EC Ech Hch HR2 HC2 G Hsz.
  assert (Ts : sm_type ms = 1) by (apply type_one; exact (im_type _ _ _ _ Is)).
  assert (Td : sm_type md = 1) by (apply type_one; exact (im_type _ _ _ _ Id)).
  assert (Bnd : sm_rows ms <= 536870887 /\ sm_cols ms <= 536870887 /\ sm_rows ms * sm_cols ms * sm_chan ms + 96 <= 2147483647).
  { clear - HR2 HC2 Hch Hsz. assert (1 <= sm_chan ms <= 3) by lia. assert (4 <= sm_rows ms * sm_cols ms) by nia.
    split; [|split]; nia. }
  destruct Bnd as (BR & BC & Bsz). pose proof (im_chan _ _ _ _ Is) as Hc0.
  assert (Prng : forall i j c, in_image ms i j c -> 0 <= P i j c < 256).
  { intros i j c Hi. pose proof (G i j c Hi) as Hp. unfold pix, pixel_byte, byte_at in Hp.
    destruct (bytes_at s (sm_data ms)) as [[[q n] d]|]; [|discriminate]. destruct (inb _ n); [|discriminate].
    injection Hp as <-. apply Z.mod_pos_bound; lia. }
  destruct (create_sm_run e s (sm_rows ms) (sm_cols ms) 1 1 (sm_chan ms) He Hs eq_refl ltac:(lia) ltac:(lia) Hc0 ltac:(rewrite Z.mul_1_r; lia)) as (dd & EN & _ & _).
  set (k := List.length (objs s)) in *. set (R := sm_rows ms) in *. set (C := sm_cols ms) in *. set (cn := sm_chan ms) in *.
  set (s1 := newsm e s R C 1 1 cn dd) in *. set (mt := newsm_hdr s R C 1 1 cn).
  assert (It : image s1 (Some k) mt 1) by (apply newsm_image; auto; rewrite ?Z.mul_1_r; lia).
  assert (O1 : old_unchanged s s1) by apply newsm_old_unchanged.
  assert (H1 : heap_ok s1) by now apply newsm_heap_ok.
  destruct (gaussian_run exp_ e s1 src (Some k) ms mt P 5 5 (db_of_Z 0) (db_of_Z 0) 1 (source_index Replicate R) (source_index Replicate C))
    as (s2 & E2 & (V2 & _ & U2 & F2) & NL2); auto; try lia.
  { eapply image_old; eauto. } { eapply colours_old; eauto. }
  { apply (good_source Replicate); [lia|]. intros p Hp. change (5 / 2) with 2 in Hp. fold R in Hp. unfold computable, INT_MIN, INT_MAX. lia. }
  { apply (good_source Replicate); [lia|]. intros p Hp. change (5 / 2) with 2 in Hp. fold C in Hp. unfold computable, INT_MIN, INT_MAX. lia. }
  destruct sigma_zero as (S1 & S2 & S3). rewrite S1, S2 in V2.
  assert (L1 : (k <= List.length (objs s1))%nat) by (apply old_unchanged_length in O1; exact O1).
  (* the smoothed image *)
  destruct (seen_pixels s2 mt) as (qt & nt & ft & Pt); try exact Bsz; cbn [mt newsm_hdr sm_rows sm_cols sm_chan]; try lia.
  { intros i j c Hi. destruct (V2 i j c Hi) as (b & Hb & _). eauto. }
  assert (Qt : qt = (k + 1)%nat) by (pose proof (px_data _ _ _ _ _ Pt) as D; assert (D' : sm_data mt = Some (k + 1)%nat) by reflexivity; congruence). subst qt.
  assert (Ht2 : sm_at s2 (Some k) = Some mt).
  { rewrite <- (im_hdr _ _ _ _ It). apply nth_sm_at. apply U2.
    - pose proof (im_hdr _ _ _ _ It) as Hh. unfold sm_at in Hh. apply nth_error_Some. intros E0. now rewrite E0 in Hh.
    - cbn [mt newsm_hdr sm_data In]. intros [[= X]|[]]. fold k in X. lia. }
  assert (K1 : (k + 1 < List.length (objs s1))%nat).
  { pose proof (newsm_data e s R C 1 1 cn dd) as I. now apply isb_lt in I. }
  assert (O2 : old_unchanged s s2).
  { intros x Hx. rewrite U2; [now apply O1| fold k in Hx; lia|]. cbn [mt newsm_hdr sm_data In]. intros [[= X]|[]]. fold k in X, Hx. lia. }
  pose proof (image_old _ _ _ _ _ O2 Is) as Is2. pose proof (image_old _ _ _ _ _ O2 Id) as Id2.
  destruct (image_pixels _ _ _ Id2) as (qd & nd & fd & Pd).
  destruct (data_old _ _ _ _ Id) as (qd' & Dd & Hqd).
  assert (qd' = qd) as -> by (pose proof (px_data _ _ _ _ _ Pd); congruence).
  assert (Ne : (k + 1)%nat <> qd) by (fold k in Hqd; lia).
  set (v := fun i j c => ft ((2 * i * C + 2 * j) * cn + c) mod 256).
  pose proof Pt as [Dt It2 _ _ _ Nt _]. pose proof Pd as [_ Id3 HRd HCd _ Nd Md]. cbn [mt newsm_hdr sm_rows sm_cols sm_chan] in Nt.
  rewrite Ech in Nd, Md. fold cn in Nd, Md.
  match goal with |- context [hypercv_pyramid_down exp_ src dst e s] => idtac end.
  assert (W : wr e s2 qd (for_ 0 (sm_rows md) (fun i => for_ 0 (sm_cols md) (fun j => for_ 0 cn (fun m =>
        ms <- sget src ;; x <- ev (2 * i * sm_cols ms * cn + 2 * j * cn + m)%C ;; v <- load8 (sm_data mt) x ;;
        k <- ev (i * sm_cols md * cn + j * cn + m)%C ;; store8 (sm_data md) k v))))
      (fun x => 0 <= x < sm_rows md * sm_cols md * cn) (at_pos (sm_cols md) cn v)).
  { apply wr_grid; auto. intros i j Hi Hj.
    eapply wr_iff; [apply wr_for with (P := fun c y => y = (i * sm_cols md + j) * cn + c)|intros y; reflexivity].
    intros c Hc. eapply wr_bind; [eapply rdv_sget; [exact Id3|exact (im_hdr _ _ _ _ Is2)]|]. fold C.
    rewrite ER in Hi. rewrite EC in Hj. pose proof (half_bound _ _ Hi) as Hi2. pose proof (half_bound _ _ Hj) as Hj2. rewrite <- ER in Hi. rewrite <- EC in Hj.
    fold R in Hi2. fold C in Hj2. pose proof (pix_index R C cn _ _ c Hi2 Hj2 Hc) as PX.
    eapply wr_bind.
    { apply rdv_ev. transitivity (ci (2 * i) * C * cn + ci (2 * j) * cn + c)%C; [|apply (idx_c R C cn (2 * i) (2 * j) c); auto; lia].
      unfold ci. rewrite (cmul_ok 2 i), (cmul_ok 2 j) by lia. reflexivity. }
    rewrite Dt. eapply wr_bind; [eapply rdv_load8; [exact Ne|exact It2|lia]|].
    eapply wr_bind; [apply rdv_ev; apply (idx_c (sm_rows md) (sm_cols md) cn i j c); auto; lia|].
    rewrite Dd. eapply wr_store8; [exact Id3|pose proof (pix_index (sm_rows md) (sm_cols md) cn i j c Hi Hj Hc); lia|].
    rewrite at_pos_eq by auto. unfold v. now rewrite Z.mod_mod by lia. }
  destruct (wr_run _ _ _ _ _ _ _ _ Id3 W) as (f & X & A & B). cbv beta in A, B.
  exists (putd s2 qd f).
  split; [|split; [|split]].
  - unfold hypercv_pyramid_down.
    destruct (sm_nonnull _ _ _ (im_hdr _ _ _ _ Is)) as (x1 & Q1). destruct (sm_nonnull _ _ _ (im_hdr _ _ _ _ Id)) as (x2 & Q2).
    rewrite bind_assert by (rewrite Q1; reflexivity). runs (sget_ok _ _ e _ (im_hdr _ _ _ _ Is)). cbv zeta. fold R C cn.
    rewrite bind_assert by lia. rewrite bind_assert by (rewrite Q2; reflexivity).
    runs (sget_ok _ _ e _ (im_hdr _ _ _ _ Id)).
    assert (HF : forall n, 0 < n <= 536870887 -> ((n + 1) / 2)%C = Some ((n + 1) / 2)).
    { intros n Hn. unfold ci. rewrite (cadd_ok n 1) by lia. rewrite cdiv_ok by (rewrite ?Z.quot_div_nonneg by lia; Z.div_mod_to_equations; lia).
      f_equal. rewrite Z.quot_div_nonneg by lia. reflexivity. }
    runs (ev_ok _ _ e s (HF R ltac:(lia))). runs (ev_ok _ _ e s (HF C ltac:(lia))).
    rewrite bind_assert by (clear - ER EC; lia). rewrite bind_assert by (clear - Ts Td; lia). rewrite Ts.
    runs EN. runs E2. runs (sget_ok _ _ e _ (im_hdr _ _ _ _ Id2)). runs (sget_ok _ _ e _ Ht2). exact X.
  - intros i j c Hin. exists (v i j c).
    assert (Hin' := Hin). destruct Hin' as (Hi & Hj & Hc). rewrite Ech in Hc. fold cn in Hc.
    assert (Pd' : pixels (putd s2 qd f) md qd nd f) by (destruct Pd; constructor; auto; eapply isb_putd_eq; eauto).
    split.
    + rewrite (pix_val _ _ _ _ _ _ _ _ Pd' Hin). f_equal. rewrite Ech. fold cn. rewrite A by (apply pix_index; auto). now rewrite at_pos_eq.
    + rewrite ER in Hi. rewrite EC in Hj. pose proof (half_bound _ _ Hi) as Hi2. pose proof (half_bound _ _ Hj) as Hj2. fold R in Hi2. fold C in Hj2.
      assert (Hint : in_image mt (2 * i) (2 * j) c) by (repeat split; cbn [mt newsm_hdr sm_rows sm_cols sm_chan]; lia).
      destruct (V2 _ _ _ Hint) as (b & Hb & Sb). rewrite (pix_val _ _ _ _ _ _ _ _ Pt Hint) in Hb. cbn [mt newsm_hdr sm_cols sm_chan] in Hb.
      assert (Eb : b = v i j c) by (unfold v; congruence). rewrite <- Eb.
      assert (Q : forall a b0, -2 <= a <= 2 -> -2 <= b0 <= 2 -> 0 <= P (source_index Replicate R (2 * i + a)) (source_index Replicate C (2 * j + b0)) c < 256).
      { intros a b0 _ _. apply Prng. rewrite !replicate_clamp. unfold in_image, clamp. fold R C cn. lia. }
      pose proof (smooth2_5 (-4) (weights exp_ 5 (db_of_Z 0)) (source_index Replicate R) (source_index Replicate C) P c (2 * i) (2 * j) ltac:(lia)) as F.
      assert (FF := fun H => F H Q). clear F.
      assert (HK : forall k0, 0 <= k0 < 5 -> fdy (-4) (fl_of_bits (weights exp_ 5 (db_of_Z 0) k0)) (b5 k0)).
      { intros k0 Hk0. unfold weights. rewrite S3. now apply weights5. }
      specialize (FF HK). cbn [mt newsm_hdr sm_cols] in Sb.
      apply (fdy_shown (-4 + -4) _ _ _ ltac:(lia) FF) in Sb; [|now apply passes_bounds].
      rewrite passes_binomial in Sb by auto. change (2 ^ (- (-4 + -4))) with 256 in Sb.
      fold R C. replace (binomial (repeated R C (fun i0 j0 => P i0 j0 c)) (2 * i) (2 * j))
        with (binomial (fun a b0 => P (source_index Replicate R a) (source_index Replicate C b0) c) (2 * i) (2 * j)); [exact Sb|].
      unfold binomial, repeated. apply sum5_ext. intros a _. apply sum5_ext. intros b0 _. now rewrite !replicate_clamp.
  - split; [|split].
    + intros x Hx. rewrite Ech in Hx. fold cn in Hx. rewrite Dd, (byte_at_putd_eq _ _ _ _ _ _ Id3).
      rewrite <- (old_byte s s2 qd x O2 Hqd), (byte_at_isb_all _ _ _ _ _ Id3). now rewrite B by exact Hx.
    + intros x Hx Hn. rewrite objs_putd_ne; [now apply O2|]. intros ->. apply Hn. rewrite Dd. now left.
    + cbn [putd files]. rewrite F2. reflexivity.
  - intros NL. apply NL2. intros x o Hx Ho. apply (NL x o); [lia|]. rewrite objs_putd_ne; auto. fold k in Hqd. lia.
Qed.

(** ** Enlarging *)
Lemma even_rem i : 0 <= i -> (Z.rem i 2 =? 1) = negb (Z.even i).
Proof. intros H. rewrite Z.rem_mod_nonneg, Zmod_even by lia. now destruct (Z.even i). Qed.

Lemma fdy_double x w : fdy (-4) x w -> Z.abs w <= 1000 -> fdy (-3) (fl_mul x (fl_of_Z 2)) w.
Proof.
  intros F B. pose proof (fdy_mul (-4) 0 _ _ _ _ ltac:(lia) ltac:(lia) F (fdy_Z 2 ltac:(lia)) ltac:(lia)) as [V N].
  split; auto. rewrite N. f_equal. change (-3 + 1074) with (1 + 1070). change (-4 + 0 + 1074) with 1070.
  rewrite (Z.pow_add_r 2 1) by lia. change (2 ^ 1) with 2. ring.
Qed.

Theorem up_run exp_ e s src dst ms md P :
  env_ok e -> heap_ok s -> image s src ms 1 -> image s dst md 1 ->
  sm_rows md = sm_rows ms * 2 -> sm_cols md = sm_cols ms * 2 -> sm_chan md = sm_chan ms ->
  sm_chan ms = 1 \/ sm_chan ms = 3 -> 2 <= sm_rows ms -> 2 <= sm_cols ms ->
  colours s ms P -> sm_rows md * sm_cols md * 4 * sm_chan md + 96 <= 2147483647 ->
  exists s', hypercv_pyramid_up exp_ src dst e s = Ret tt s' /\ expanded s ms md P s' /\ only_pixels s md s' /\ ~ no_leak s s'.
Proof.
  intros He Hs Is Id ER EC Ech Hch HR2 HC2 G Hsz.
  assert (Ts : sm_type ms = 1) by (apply type_one; exact (im_type _ _ _ _ Is)).
  assert (Td : sm_type md = 1) by (apply type_one; exact (im_type _ _ _ _ Id)).
  pose proof (im_chan _ _ _ _ Is) as Hc0.
  assert (Bnd : sm_rows md <= 536870887 /\ sm_cols md <= 536870887 /\ sm_rows md * sm_cols md * sm_chan md + 96 <= 2147483647
     /\ sm_rows ms * sm_cols ms * sm_chan ms + 96 <= 2147483647).
  { clear - HR2 HC2 Hch Hsz ER EC Ech. rewrite Ech in *. rewrite ER, EC in *. assert (1 <= sm_chan ms <= 3) by lia. assert (4 <= sm_rows ms * sm_cols ms) by nia.
    split; [|split; [|split]]; nia. }
  destruct Bnd as (BR & BC & Bsz & Bsz0).
  assert (Prng : forall i j c, in_image ms i j c -> 0 <= P i j c < 256).
  { intros i j c Hi. pose proof (G i j c Hi) as Hp. unfold pix, pixel_byte, byte_at in Hp.
    destruct (bytes_at s (sm_data ms)) as [[[q n] d]|]; [|discriminate]. destruct (inb _ n); [|discriminate].
    injection Hp as <-. apply Z.mod_pos_bound; lia. }
  destruct (copy_sm_run e s dst md 1 He Hs Id) as (dd & EN & _). rewrite Td, Ech in EN.
  set (k := List.length (objs s)) in *. set (R := sm_rows md) in *. set (C := sm_cols md) in *. set (cn := sm_chan ms) in *.
  set (s1 := newsm e s R C 1 1 cn dd) in *. set (mt := newsm_hdr s R C 1 1 cn).
  rewrite Ech in Hsz, Bsz. fold cn in Hsz, Bsz.
  assert (HRp : 0 < R) by (clear - ER HR2; lia). assert (HCp : 0 < C) by (clear - EC HC2; lia).
  assert (O1 : old_unchanged s s1) by apply newsm_old_unchanged.
  pose proof (image_old _ _ _ _ _ O1 Is) as Is1. pose proof (image_old _ _ _ _ _ O1 Id) as Id1.
  destruct (image_pixels _ _ _ Is1) as (qs & ns & fs & Ps). pose proof Ps as [Ds Ibs _ _ _ Ns Mxs]. fold cn in Ns.
  destruct (data_old _ _ _ _ Is) as (qs' & Ds' & Hqs). assert (qs' = qs) as -> by congruence.
  assert (Nes : qs <> (k + 1)%nat) by (fold k in Hqs; lia).
  pose proof (newsm_data e s R C 1 1 cn dd) as Ib. fold k s1 in Ib. rewrite Z.mul_1_r in Ib.
  set (v := fun i j c => spread (fun i j => fs ((i * sm_cols ms + j) * cn + c) mod 256) i j).
  assert (Half : forall n i, 0 <= i < n * 2 -> 0 <= i / 2 < n) by (clear; intros; Z.div_mod_to_equations; lia).
  assert (W : wr e s1 (k + 1) (for_ 0 R (fun i => for_ 0 C (fun j =>
      if (Z.rem i 2 =? 1) || (Z.rem j 2 =? 1) then
        for_ 0 cn (fun m => k0 <- ev (i * C * cn + j * cn + m)%C ;; store8 (sm_data mt) k0 0)
      else
        for_ 0 cn (fun m => x <- ev (i / 2 * sm_cols ms * cn + j / 2 * cn + m)%C ;; v <- load8 (sm_data ms) x ;;
          k0 <- ev (i * C * cn + j * cn + m)%C ;; store8 (sm_data mt) k0 v))))
      (fun x => 0 <= x < R * C * cn) (at_pos C cn v)).
  { apply wr_grid; auto. intros i j Hi Hj. rewrite (even_rem i), (even_rem j), <- negb_andb by lia.
    destruct (Z.even i && Z.even j) eqn:EV; cbn [negb];
      (eapply wr_iff; [apply wr_for with (P := fun c y => y = (i * C + j) * cn + c)|intros y; reflexivity]); intros c Hc;
      pose proof (pix_index R C cn i j c Hi Hj Hc) as PI.
    - assert (Hi2 : 0 <= i / 2 < sm_rows ms) by (apply Half; lia). assert (Hj2 : 0 <= j / 2 < sm_cols ms) by (apply Half; lia).
      pose proof (pix_index (sm_rows ms) (sm_cols ms) cn _ _ c Hi2 Hj2 Hc) as PX.
      eapply wr_bind.
      { apply rdv_ev. transitivity (ci (i / 2) * sm_cols ms * cn + ci (j / 2) * cn + c)%C; [|apply (idx_c (sm_rows ms) (sm_cols ms) cn (i / 2) (j / 2) c); auto; lia].
        unfold ci. rewrite !cdiv_ok by (rewrite ?Z.quot_div_nonneg by lia; lia). now rewrite !Z.quot_div_nonneg by lia. }
      rewrite Ds. eapply wr_bind; [eapply rdv_load8; [exact Nes|exact Ibs|lia]|].
      eapply wr_bind; [apply rdv_ev; apply (idx_c R C cn i j c); auto; lia|].
      eapply wr_store8; [exact Ib|lia|]. rewrite at_pos_eq by auto. unfold v, spread. rewrite EV. now rewrite Z.mod_mod by lia.
    - eapply wr_bind; [apply rdv_ev; apply (idx_c R C cn i j c); auto; lia|].
      eapply wr_store8; [exact Ib|lia|]. rewrite at_pos_eq by auto. unfold v, spread. now rewrite EV. }
  destruct (wr_run _ _ _ _ _ _ _ _ Ib W) as (f & X & A & _). cbv beta in A. unfold s1 in X at 2. rewrite newsm_putd in X. clear W.
  set (s2 := newsm e s R C 1 1 cn f) in *.
  assert (It2 : image s2 (Some k) mt 1) by (apply newsm_image; auto; rewrite ?Z.mul_1_r; lia).
  assert (O2 : old_unchanged s s2) by apply newsm_old_unchanged. assert (Hh2 : heap_ok s2) by now apply newsm_heap_ok.
  assert (P2 : pixels s2 mt (k + 1) (R * C * cn) f).
  { pose proof (newsm_data e s R C 1 1 cn f) as I. rewrite Z.mul_1_r in I.
    constructor; cbn [mt newsm_hdr sm_rows sm_cols sm_chan]; auto; lia. }
  assert (G2 : colours s2 mt v).
  { intros i j c Hin. rewrite (pix_val _ _ _ _ _ _ _ _ P2 Hin). destruct Hin as (Hi & Hj & Hc). cbn [mt newsm_hdr sm_rows sm_cols sm_chan] in *.
    f_equal. rewrite A by (apply pix_index; auto). now rewrite at_pos_eq. }
  destruct (kernel_built exp_ e s2 5 (db_of_Z 0) 4 4 He Hh2 ltac:(lia) ltac:(auto) ltac:(lia)) as (mk & s3 & E3 & B3 & D3 & A3).
  destruct B3 as (K1 & _ & K3 & _ & _ & O3 & F3 & Hh3 & _). cbn [Z.eqb Pos.eqb] in A3.
  destruct sigma_zero as (_ & _ & SZ). rewrite SZ in A3.
  set (T := weight4 5 (gauss_t exp_ true 5 (gauss_scale 5 (db_of_Z 0)))) in *.
  set (k2 := List.length (objs s2)) in *.
  assert (L2 : (k + 1 < k2)%nat) by (apply isb_lt with (n := R * C * cn) (d := f); exact (px_isb _ _ _ _ _ P2)).
  destruct (line_run e s3 (k2 + 1) 0 4 5 T (fun t => fl_word (fl_mul (fl_of_bits (T t)) (fl_of_Z 2)))
    (fun i => w <- loadf (sm_data mk) i ;; storef (sm_data mk) i (fl_mul w (fl_of_Z 2)))) as (s4 & E4 & A4 & I4); auto; [lia| |].
  { intros j t Hj At It. rewrite D3. rewrite (bind_ret _ _ _ _ _ _ (loadf_arr e t _ 5 _ j At Hj)). rewrite upto_le by lia.
    destruct (storef_arr e t (k2 + 1) 5 _ j (fl_mul (fl_of_bits (T j)) (fl_of_Z 2)) At Hj) as (t' & Et & At' & It').
    exists t'. split; [exact Et|]. split; [eapply upto_step; eauto|exact It']. }
  pose proof I4 as (N4 & d4 & d4' & I4b & -> & _). set (s4 := putd s3 (k2 + 1) d4') in *.
  assert (O4 : old_unchanged s2 s4).
  { intros x Hx. unfold s4. rewrite objs_putd_ne by (fold k2 in Hx; lia). now apply O3. }
  assert (O4s : old_unchanged s s4) by (eapply old_unchanged_trans; eauto).
  assert (Hh4 : heap_ok s4) by (eapply inside_heap_ok; eauto).
  assert (Hk4 : sm_at s4 (Some k2) = Some mk) by (unfold s4; now rewrite (sm_at_putd _ _ _ _ _ _ I4b)).
  set (K := fun t => fl_word (fl_mul (fl_of_bits (T t)) (fl_of_Z 2))) in *.
  destruct (data_old _ _ _ _ Id) as (qd & Dd & Hqd).
  assert (MK : matrix s4 (sm_data mk) 4 1 5 (fun _ => K)).
  { intros i j Hi Hj. rewrite D3. fold k2. assert (i = 0) as -> by lia. exact (arr_word _ _ _ _ _ _ j A4 Hj). }
  destruct (blur_exact e s4 (Some k) dst (Some k2) (Some k2) mt md mk mk K K v Replicate) as (s5 & E5 & (V5 & Y5 & U5 & F5) & NL5);
    rewrite ?K3; auto; try (cbn [mt newsm_hdr sm_rows sm_cols sm_chan]; auto; lia).
  { exact (image_old _ _ _ _ _ O4 It2). } { exact (image_old _ _ _ _ _ O4s Id). } { exact (colours_old _ _ _ _ _ _ It2 O4 G2). }
  { rewrite D3, Dd. fold k2. intros [= Q]. fold k in Hqd. lia. }
  exists s5. split; [|split; [|split]].
  - unfold hypercv_pyramid_up.
    destruct (sm_nonnull _ _ _ (im_hdr _ _ _ _ Is)) as (x1 & Q1). destruct (sm_nonnull _ _ _ (im_hdr _ _ _ _ Id)) as (x2 & Q2).
    rewrite bind_assert by (rewrite Q1; reflexivity). runs (sget_ok _ _ e _ (im_hdr _ _ _ _ Is)). cbv zeta. fold cn.
    rewrite bind_assert by lia. rewrite bind_assert by (rewrite Q2; reflexivity).
    runs (sget_ok _ _ e _ (im_hdr _ _ _ _ Id)). fold R C.
    assert (HF : forall n, 0 < n <= 536870887 -> (n * 2)%C = Some (n * 2)) by (intros n Hn; unfold ci; apply cmul_ok; lia).
    runs (ev_ok _ _ e s (HF (sm_rows ms) ltac:(lia))). runs (ev_ok _ _ e s (HF (sm_cols ms) ltac:(lia))).
    rewrite bind_assert by (clear - ER EC; lia). rewrite bind_assert by (clear - Ts Td; lia).
    runs EN. runs (sget_ok _ _ e _ (im_hdr _ _ _ _ Id1)). fold R C. runs (sget_ok _ _ e _ (im_hdr _ _ _ _ Is1)).
    runs (sget_ok _ _ e _ (newsm_at e s R C 1 1 cn dd)). runs X. runs E3. runs (sget_ok _ _ e _ K1). runs E4. exact E5.
  - intros i j c Hin. destruct (V5 i j c Hin) as (b & Hb & Sb). exists b. split; auto.
    destruct Hin as (Hi & Hj & Hc). rewrite Ech in Hc. fold R in Hi. fold C in Hj. fold cn in Hc.
    cbn [mt newsm_hdr sm_rows sm_cols] in Sb. rewrite K3 in Sb.
    assert (VS : forall a b0, v (source_index Replicate R a) (source_index Replicate C b0) c = repeated R C (spread (fun i0 j0 => P i0 j0 c)) a b0
        /\ 0 <= v (source_index Replicate R a) (source_index Replicate C b0) c < 256).
    { intros a b0. rewrite !replicate_clamp. unfold repeated, v, spread. destruct (Z.even _ && Z.even _); [|split; [reflexivity|lia]].
      split; [|apply Z.mod_pos_bound; lia].
      assert (Hin : in_image ms (clamp 0 (R - 1) a / 2) (clamp 0 (C - 1) b0 / 2) c).
      { unfold clamp. split; [apply Half; lia|]. split; [apply Half; lia|exact Hc]. }
      pose proof (pix_val _ _ _ _ _ _ _ _ Ps Hin) as V1. rewrite (colours_old _ _ _ _ _ _ Is O1 G _ _ _ Hin) in V1. fold cn in V1. congruence. }
    pose proof (smooth2_5 (-3) K (source_index Replicate R) (source_index Replicate C) v c i j ltac:(lia)) as FF.
    assert (HK : forall k0, 0 <= k0 < 5 -> fdy (-3) (fl_of_bits (K k0)) (b5 k0)).
    { intros k0 Hk0. pose proof (weights5 exp_ (gauss_scale 5 (db_of_Z 0)) k0 Hk0) as Fw. fold T in Fw.
      assert (Fd : fdy (-3) (fl_mul (fl_of_bits (T k0)) (fl_of_Z 2)) (b5 k0)).
      { apply fdy_double; auto. assert (k0 = 0 \/ k0 = 1 \/ k0 = 2 \/ k0 = 3 \/ k0 = 4) as Ck by lia.
        destruct Ck as [-> |[-> |[-> |[-> | ->]]]]; vm_compute; discriminate. }
      unfold K, fl_word. destruct Fd as [Vd Nd]. rewrite Z.mod_small by now apply bits_of_fl_range. rewrite fl_bits_fl by auto. now split. }
    specialize (FF HK (fun a b0 _ _ => proj2 (VS _ _))).
    apply (fdy_shown (-3 + -3) _ _ _ ltac:(lia) FF) in Sb; [|apply passes_bounds; [lia|]; intros; apply VS].
    change (2 ^ (- (-3 + -3))) with 64 in Sb.
    match goal with |- nearest_even ?lhs _ _ => replace lhs with (passes (-3) (fun a b0 => v (source_index Replicate R a) (source_index Replicate C b0) c) i j); [exact Sb|] end.
    unfold passes, expand. change (2 ^ (- (-3 + -3))) with 64. change (2 ^ (- (-3))) with 8. fold R C. f_equal. apply sum5_ext. intros a _. f_equal.
    apply sum5_ext. intros b0 _. apply VS.
  - split; [|split].
    + intros x Hx. rewrite (Y5 x Hx), Dd. now apply old_byte.
    + intros x Hx Hn. rewrite U5; [now apply O4s| |exact Hn]. pose proof (old_unchanged_length _ _ O4s). lia.
    + rewrite F5. unfold s4. cbn [putd files]. rewrite F3. reflexivity.
  - intros NL. apply NL5. intros x o Hx Ho. apply (NL x o); auto. pose proof (old_unchanged_length _ _ O4s). lia.
Qed.
