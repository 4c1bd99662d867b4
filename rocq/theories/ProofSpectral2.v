(** * Proofs: transposing the bands of a cube, mean over the bands, sum and
    logarithm of float matrices. *)
From Verif Require Import Base ModelFloat ModelDouble ModelCore ModelImage ModelFile ModelFilter SpecBase SpecCore SpecImage SpecImage2 SpecPixel SpecNum
  SpecMatrix SpecFilter SpecStat SpecSpectral Logic ProofCore ProofLayout ProofCore2 ProofImage ProofImage2 ProofHM ProofCopy ProofImage3 ProofPixel ProofWord ProofArr
  ProofGrid ProofFold ProofMatrix ProofFloat ProofFloat2 ProofDiv ProofGrad ProofFilter ProofStat ProofValid ProofSpectral.
From Verif Require Import ModelSpectral.
From Coq Require Import Floats.SpecFloat ZifyBool ZifyNat.
Ltac Zify.zify_post_hook ::= Z.div_mod_to_equations.
Open Scope Z_scope.

(** Indices of a three-dimensional array with elements of es bytes. *)
Lemma idx4_c B A C es k i j t : 0 <= k < B -> 0 <= i < A -> 0 <= j < C -> 0 <= t < es -> A * C * B * es <= 2147483647 ->
  (k * C * A * es + i * C * es + j * es + t)%C = Some (((k * A + i) * C + j) * es + t) /\ 0 <= ((k * A + i) * C + j) * es + t < A * C * B * es.
Proof.
  intros Hk Hi Hj Ht Hn.
  assert (E1 : 0 <= k * A + i < B * A) by (clear - Hk Hi; nia).
  assert (E2 : 0 <= (k * A + i) * C + j < B * A * C) by (clear - E1 Hj; nia).
  assert (E3 : 0 <= ((k * A + i) * C + j) * es + t < B * A * C * es) by (clear - E2 Ht; nia).
  replace (B * A * C * es) with (A * C * B * es) in E3 by ring. split; [|exact E3].
  assert (T1 : 0 <= k * C * A * es) by (clear - Hk Hi Hj Ht; assert (0 <= k * C) by nia; assert (0 <= k * C * A) by nia; nia).
  assert (T2 : 0 <= i * C * es) by (clear - Hi Hj Ht; assert (0 <= i * C) by nia; nia).
  assert (T3 : 0 <= j * es) by (clear - Hj Ht; nia).
  assert (S0 : k * C * A * es + i * C * es + j * es + t = ((k * A + i) * C + j) * es + t) by ring.
  assert (U1 : 0 <= k * C) by (clear - Hk Hj; nia). assert (U2 : 0 <= k * C * A) by (clear - U1 Hi; nia).
  assert (U3 : k * C <= k * C * A) by (clear - U1 Hi; nia). assert (U4 : k * C * A <= k * C * A * es) by (clear - U2 Ht; nia).
  assert (U5 : 0 <= i * C <= i * C * es) by (clear - Hi Hj Ht; assert (0 <= i * C) by nia; nia).
  unfold ci. rewrite (cmul_ok k C), (cmul_ok (k * C)), (cmul_ok (k * C * A)), (cmul_ok i C), (cmul_ok (i * C)), (cmul_ok j es) by lia.
  rewrite (cadd_ok (k * C * A * es)) by lia. rewrite cadd_ok by lia. rewrite cadd_ok by lia. now rewrite S0.
Qed.

Lemma cube_transport_run e s d md p ms es : cube s p ms BSQ es -> hm_at s d = Some md ->
  hm_samples md = hm_lines ms -> hm_lines md = hm_samples ms -> hm_bands md = hm_bands ms ->
  readable s (hm_data md) (hm_samples ms * hm_lines ms * hm_bands ms * es) -> hm_data md <> hm_data ms ->
  exists s', hyper_mat_transport d p e s = Ret tt s' /\ bands_transposed s ms md es s' /\ written s (hm_data md) s'.
Proof.
  intros CU Hd ES EL EB RD Hne. destruct CU as [Hp Ht Hpad Hty HS HL HB Hsz Hws Dp Hw].
  pose proof (type_size_range _ _ Hty) as Hes.
  apply readable_isb in RD as (q & szq & f & Eq & Hq & Hnq).
  apply readable_isb in Dp as (w & szw & g & Ew & Hw' & Hnw).
  unfold hyper_mat_transport. rewrite bind_assert by (destruct p; [reflexivity|discriminate Hp]). runs (hget_ok _ _ e _ Hp).
  runs (il_cmp_bsq ms BSQ e s Ht Hpad). cbn [layout_name]. rewrite bind_assert by reflexivity. runs (hget_ok _ _ e _ Hd). cbv zeta.
  rewrite ES, EL, EB. rewrite bind_assert by lia. rewrite (type_size_elemsize _ _ Hty). rewrite Eq, Ew.
  set (A := hm_lines ms) in *. set (C := hm_samples ms) in *. set (B := hm_bands ms) in *.
  assert (w <> q) by congruence.
  set (spec := fun x => g (((x / es / A / C * A + x / es mod A) * C + x / es / A mod C) * es + x mod es) mod 256).
  assert (W : wr e s q
    (for_ 0 B (fun k => for_ 0 C (fun i => for_ 0 A (fun j => for_ 0 es (fun t =>
          x <- ev (k * C * A * es + j * C * es + i * es + t)%C ;;
          v <- load8 (Some w) x ;;
          y <- ev (k * A * C * es + i * A * es + j * es + t)%C ;;
          store8 (Some q) y v)))))
     (fun x => exists k, 0 <= k < B /\ exists i, 0 <= i < C /\ exists j, 0 <= j < A /\ exists t, 0 <= t < es /\
        x = ((k * C + i) * A + j) * es + t) spec).
  { apply wr_for. intros k Hk. apply wr_for. intros i Hi. apply wr_for. intros j Hj. apply wr_for. intros t Ht'.
    destruct (idx4_c B A C es k j i t Hk Hj Hi Ht' ltac:(replace (A * C * B * es) with (C * A * B * es) by ring; exact Hsz)) as [X1 Y1].
    destruct (idx4_c B C A es k i j t Hk Hi Hj Ht' Hsz) as [X2 Y2].
    replace (A * C * B * es) with (C * A * B * es) in Y1 by ring.
    eapply wr_bind; [apply rdv_ev; exact X1|]. eapply wr_bind; [eapply rdv_load8; eauto; lia|]. eapply wr_bind; [apply rdv_ev; exact X2|].
    eapply wr_store8; [eauto|lia|]. unfold spec. destruct (radix2 ((k * C + i) * A + j) t es Ht') as [-> ->].
    destruct (radix2 (k * C + i) j A Hj) as [-> ->]. destruct (radix2 k i C Hi) as [-> ->]. rewrite Z.mod_mod by lia. reflexivity. }
  destruct (wr_run _ _ _ _ _ _ _ _ Hq W) as (f' & E & F & _).
  eexists. split; [exact E|]. split; [|eapply written_putd; eauto].
  intros i j k t (Hi & Hj & Hk) Ht'. fold A C B in Hi, Hj, Hk. unfold sample_byte, offset. rewrite ES, EL, Eq, Ew. fold A C.
  destruct (idx4_c B A C es k i j t Hk Hi Hj Ht' ltac:(replace (A * C * B * es) with (C * A * B * es) by ring; exact Hsz)) as [_ Y1].
  destruct (idx4_c B C A es k j i t Hk Hj Hi Ht' Hsz) as [_ Y2].
  replace (A * C * B * es) with (C * A * B * es) in Y1 by ring.
  rewrite (byte_at_putd_eq _ _ _ _ _ _ Hq), inb_true by lia.
  rewrite F by (exists k; split; auto; exists j; split; auto; exists i; split; auto; exists t; auto).
  unfold spec. destruct (radix2 ((k * C + j) * A + i) t es Ht') as [-> ->].
  destruct (radix2 (k * C + j) i A Hi) as [-> ->]. destruct (radix2 k j C Hj) as [-> ->].
  rewrite (byte_at_isb _ _ _ _ _ Hw') by lia. reflexivity.
Qed.

Theorem cube_transport_ok : forall e s d md p ms es, cube s p ms BSQ es -> hm_at s d = Some md ->
  hm_samples md = hm_lines ms -> hm_lines md = hm_samples ms -> hm_bands md = hm_bands ms ->
  readable s (hm_data md) (hm_samples ms * hm_lines ms * hm_bands ms * es) -> hm_data md <> hm_data ms ->
  exists s', hyper_mat_transport d p e s = Ret tt s' /\ bands_transposed s ms md es s' /\ only_written (hm_data md) s s'.
Proof. intros e s d md p ms es ? ? ? ? ? ? ?. destruct (cube_transport_run e s d md p ms es) as (s' & E & T & W); auto. exists s'. split; auto. split; auto. now apply written_only. Qed.
Theorem cube_transport_twice : forall e s d md p ms b mb es, cube s p ms BSQ es -> cube s d md BSQ es -> hm_at s b = Some mb ->
  hm_type md = hm_type ms -> hm_samples md = hm_lines ms -> hm_lines md = hm_samples ms -> hm_bands md = hm_bands ms ->
  hm_samples mb = hm_samples ms -> hm_lines mb = hm_lines ms -> hm_bands mb = hm_bands ms ->
  readable s (hm_data mb) (hm_samples ms * hm_lines ms * hm_bands ms * es) -> hm_data md <> hm_data ms -> hm_data mb <> hm_data md ->
  exists s1 s2, hyper_mat_transport d p e s = Ret tt s1 /\ hyper_mat_transport b d e s1 = Ret tt s2
    /\ forall i j k t, in_cube ms i j k -> 0 <= t < es -> sample_byte s2 mb BSQ es i j k t = sample_byte s ms BSQ es i j k t.
Proof.
  intros e s d md p ms b mb es CP CD Hb T E1 E2 E3 F1 F2 F3 RB N1 N2.
  assert (Sz : hm_samples md * hm_lines md * hm_bands md * es = hm_samples ms * hm_lines ms * hm_bands ms * es) by (rewrite E1, E2, E3; ring).
  destruct (cube_transport_run e s d md p ms es) as (s1 & X1 & A1 & W1); auto; [apply CD|rewrite <- Sz; apply CD|].
  destruct (cube_transport_run e s1 b mb d md es) as (s2 & X2 & A2 & W2); auto; try congruence.
  - eapply written_cube; eauto.
  - destruct W1 as (q & n' & dd & f & Eq & H & ->). now rewrite (hm_at_putd _ _ _ _ _ _ H).
  - rewrite Sz. eapply written_readable; eauto.
  - exists s1, s2. split; auto. split; auto. intros i j k t (Hi & Hj & Hk) Ht. rewrite A2 by (auto; unfold in_cube; rewrite E1, E2, E3; auto).
    apply A1; auto. repeat split; auto; lia.
Qed.

(** ** Mean over the bands *)
Lemma sp_average_run e s x off n W : 0 <= n -> (forall i, 0 <= i < n -> word_at s x (4 * (off + i)) 4 = Some (W i)) ->
  sp_average x off n e s = Ret (float_average n (fun i => fl_of_bits (W i))) s.
Proof.
  intros Hn HW. unfold sp_average.
  assert (L : forS 0 n (fun i sum => v <- loadf x (off + i) ;; ret (fl_add sum v)) (fl_of_Z 0) e s
    = Ret (float_sum n (fun i => fl_of_bits (W i))) s).
  { apply forS_pure; auto. intros i y Hi. runs (load_float e s x _ _ (HW i Hi)). reflexivity. }
  runs L. reflexivity.
Qed.

Lemma bip_idx S L B i j : 0 <= i < L -> 0 <= j < S -> 0 < B -> S * L * B * 4 <= 2147483647 ->
  (i * S * B)%C = Some (i * S * B) /\ (j * B)%C = Some (j * B) /\ (i * S + j)%C = Some (i * S + j)
  /\ forall k, 0 <= k < B -> 0 <= i * S * B + j * B + k < S * L * B.
Proof.
  intros Hi Hj HB Hn.
  assert (E1 : 0 <= i * S + j < L * S) by (clear - Hi Hj; nia).
  assert (E2 : (i * S + j + 1) * B <= L * S * B) by (clear - E1 HB; nia).
  assert (U1 : 0 <= i * S) by (clear - Hi Hj; nia). assert (U2 : 0 <= i * S * B) by (clear - U1 HB; nia).
  assert (U3 : 0 <= j * B) by (clear - Hj HB; nia). assert (U4 : i * S <= i * S * B) by (clear - U1 HB; nia).
  assert (U5 : L * S <= L * S * B) by (clear - E1 HB; nia).
  replace (S * L * B) with (L * S * B) in * by ring.
  assert (S0 : i * S * B + j * B + B = (i * S + j + 1) * B) by ring.
  unfold ci. rewrite (cmul_ok i S) by lia. rewrite !cmul_ok by lia. rewrite cadd_ok by lia.
  repeat split; auto; lia.
Qed.

Lemma sum_ok n v : 0 <= n -> (forall k, 0 <= k < n -> fl_ok (v k)) -> fl_ok (float_sum n v).
Proof.
  intros Hn Hv. unfold float_sum. assert (G : forall m, 0 <= m -> m <= n -> fl_ok (foldz m (fun a i => fl_add a (v i)) (fl_of_Z 0))).
  { intros m Hm. pattern m. apply natlike_ind; [intros; reflexivity| |exact Hm]. intros k Hk IH Hkn. unfold Z.succ in *. rewrite foldz_S by lia.
    apply fl_add_ok; [apply IH; lia|apply Hv; lia]. }
  apply G; lia.
Qed.
Lemma average_ok n v : 0 <= n -> (forall k, 0 <= k < n -> fl_ok (v k)) -> fl_ok (float_average n v).
Proof. intros Hn Hv. apply fl_div_ok; [now apply sum_ok|apply fl_of_Z_valid]. Qed.

Theorem cube_mean_exact : forall e s p m d md, cube s p m BIP 4 -> sm_at s d = Some md -> sm_type md = 4 ->
  sm_cols md = hm_samples m -> sm_rows md = hm_lines m -> readable s (sm_data md) (hm_lines m * hm_samples m * 4) -> sm_data md <> hm_data m ->
  exists s', hyper_mat_mean p d e s = Ret tt s' /\ per_pixel s m md (float_average (hm_bands m)) s' /\ only_written (sm_data md) s s'.
Proof.
  intros e s p m d md CU Hd T EC ER RD Hne. destruct CU as [Hp Ht Hpad Hty HS HL HB Hsz Hws Dp Hw].
  apply readable_isb in RD as (q & szq & f & Eq & Hq & Hnq).
  apply readable_isb in Dp as (w & szw & g & Ew & Hw' & Hnw).
  unfold hyper_mat_mean. rewrite bind_assert by (destruct p; [reflexivity|discriminate Hp]). runs (hget_ok _ _ e _ Hp).
  runs (il_cmp_bip m BIP e s Ht Hpad). rewrite bind_assert by reflexivity. cbv zeta. runs (sget_ok _ _ e _ Hd).
  rewrite bind_assert by lia. rewrite bind_assert by lia. unfold per_pixel. rewrite EC, Eq in *. rewrite Ew in *.
  set (S := hm_samples m) in *. set (L := hm_lines m) in *. set (B := hm_bands m) in *. assert (w <> q) by congruence.
  set (X := fun i j k => word g (((i * S + j) * B + k) * 4) 4).
  set (h := fun t => bits_of_fl (float_average B (fun k => fl_of_bits (X (t / S) (t mod S) k)))).
  destruct (grid_run e s q 4 L S _ h
    (fun i j => a <- ev (i * S * B)%C ;; b <- ev (j * B)%C ;; v <- sp_average (Some w) (a + b) B ;; x <- ev (i * S + j)%C ;; storef (Some q) x v)
    ltac:(lia) ltac:(lia) (arr_of s q szq f 0 4 (L * S) Hq ltac:(lia) ltac:(lia) ltac:(lia))) as (s' & E & A & I).
  - intros i j s1 Hi Hj A1 I1. destruct (bip_idx S L B i j Hi Hj ltac:(lia) ltac:(lia)) as (E1 & E2 & E3 & BD).
    pose proof (inside_old _ _ _ _ _ _ _ _ I1 H Hw') as Hw1.
    runs (ev_ok _ _ e s1 E1). runs (ev_ok _ _ e s1 E2).
    assert (AV : sp_average (Some w) (i * S * B + j * B) B e s1 = Ret (float_average B (fun k => fl_of_bits (X i j k))) s1).
    { apply sp_average_run; [lia|]. intros k Hk. pose proof (BD k Hk). rewrite (word_at_isb s1 w szw g 4 Hw1) by lia. unfold X. do 2 f_equal. ring. }
    runs AV. runs (ev_ok _ _ e s1 E3). unfold storef.
    pose proof (cell_range L S i j Hi Hj) as Hc.
    destruct (arr_store e s1 q 0 4 (L * S) _ (i * S + j) (4 * (i * S + j)) 4 (bits_of_fl (float_average B (fun k => fl_of_bits (X i j k)))) A1 Hc ltac:(lia) eq_refl)
      as (s2 & E4 & A4 & I4).
    exists s2. split; [exact E4|]. split.
    + eapply upto_step; [exact A4|]. unfold h. rewrite cell_div, cell_mod by lia. apply Z.mod_small. change (256 ^ 4) with 4294967296. apply bits_of_fl_range.
      apply average_ok; [lia|]. intros k Hk. apply fl_of_bits_ok. unfold X. change 4294967296 with (256 ^ Z.of_nat 4). apply ProofWord.word_range.
    + eapply inside_weaken; [| |exact I4]; lia.
  - exists s'. split; [exact E|]. split.
    + intros i j Hi Hj. exists (X i j). split.
      * intros k Hk. unfold sample_word, offset. rewrite Ew. destruct (bip_idx S L B i j Hi Hj ltac:(lia) ltac:(lia)) as (_ & _ & _ & BD). specialize (BD k Hk).
        fold S B. rewrite (word_at_isb s w szw g _ Hw') by (change (Z.of_nat (Z.to_nat 4)) with 4; lia). reflexivity.
      * pose proof (cell_range L S i j Hi Hj) as Hc. pose proof (arr_word s' q 0 4 (L * S) h (i * S + j) A Hc) as Wd. rewrite Z.add_0_l in Wd.
        change (Z.to_nat 4) with 4%nat in Wd. rewrite Wd. unfold h. now rewrite cell_div, cell_mod by lia.
    + destruct I as (N & d0 & d' & _ & -> & _). apply only_written_putd.
Qed.
(** Whole numbers. *)
Theorem average_of_whole : forall n v z, 0 < n <= 16777216 -> (forall i, 0 <= i < n -> is_int (v i) (z i)) ->
  sumz n (fun i => Z.abs (z i)) <= 16777216 -> forall mu, sumz n z = mu * n -> is_int (float_average n v) mu.
Proof. exact average_whole. Qed.
