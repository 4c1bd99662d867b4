(** * Proofs: matching spectra, reading a spectrum. *)
From Verif Require Import Base ModelFloat ModelDouble ModelCore ModelImage ModelFile ModelFilter SpecBase SpecCore SpecImage SpecImage2 SpecPixel SpecNum
  SpecMatrix SpecFilter SpecStat SpecSpectral Logic ProofCore ProofLayout ProofCore2 ProofImage ProofImage2 ProofHM ProofCopy ProofImage3 ProofPixel ProofWord ProofArr
  ProofGrid ProofFold ProofMatrix ProofFloat ProofFloat2 ProofDiv ProofGrad ProofFilter ProofStat ProofSave2 ProofValid ProofThresh ProofSpectral ProofSpectral2 ProofSpectral4.
From Verif Require Import ModelSpectral.
From Coq Require Import Floats.SpecFloat ZifyBool ZifyNat.
Ltac Zify.zify_post_hook ::= Z.div_mod_to_equations.
Open Scope Z_scope.

Lemma word_old s s1 p off k w : old_unchanged s s1 -> word_at s p off (S k) = Some w -> word_at s1 p off (S k) = Some w.
Proof.
  intros HO W. destruct (word_isb s p off k w W) as (q & N & d & -> & I & A & B).
  pose proof (isb_lt _ _ _ _ I) as Lt. assert (I1 : isb s1 q N d) by (unfold isb in *; rewrite (nth_bytes_at s s1 q (HO q Lt)); exact I).
  rewrite (word_at_isb s1 q N d (S k) I1) by lia. rewrite <- W. rewrite (word_at_isb s q N d (S k) I) by lia. reflexivity.
Qed.

Lemma putd_comm s q w d d' : q <> w -> putd (putd s q d) w d' = putd (putd s w d') q d.
Proof. intros H. unfold putd; cbn [objs files]. f_equal. apply lupd_comm. congruence. Qed.

Theorem match_exact : forall acos_ e s p m spectrum threshold X Wy K, env_ok e -> heap_ok s -> cube s p m BIP 4 -> nonnull spectrum = true ->
  elements_of s spectrum 4 (hm_bands m) Wy -> hm_lines m * hm_samples m + 96 <= INT_MAX ->
  (forall i j k, in_cube m i j k -> sample_word s m BIP 4 i j k = Some (X i j k)) ->
  (forall i j k, in_cube m i j k -> cut_product (fl_of_bits (X i j k)) (fl_of_bits (Wy k)) = Some (K i j k)) ->
  exists r s', spectrum_SAM_match acos_ p spectrum threshold e s = Ret r s'
    /\ marked s (hm_lines m) (hm_samples m)
         (fun i j => SFleb threshold (library_angle acos_ (hm_bands m) (fun k => fl_of_bits (X i j k)) (fun k => fl_of_bits (Wy k)) (K i j))) r s'.
Proof.
  intros acos_ e s p m sp th X Wy K He Hs CU HNs Ey Hsz1 HX HK. destruct CU as [Hp Ht Hpad Hty HS HL HB Hsz Hws Dp Hw].
  apply readable_isb in Dp as (qc & szc & g & Ec & Hc & Hnc).
  unfold spectrum_SAM_match. rewrite bind_assert by (destruct p; [reflexivity|discriminate Hp]). runs (hget_ok _ _ e _ Hp).
  runs (il_cmp_bip m BIP e s Ht Hpad). rewrite bind_assert by reflexivity. rewrite bind_assert by exact HNs. cbv zeta.
  rewrite Ec in *. set (S := hm_samples m) in *. set (L := hm_lines m) in *. set (B := hm_bands m) in *.
  destruct (create_sm_run e s L S 1 1 1 He Hs eq_refl HL HS ltac:(lia) ltac:(unfold INT_MAX in *; lia)) as (dd & EC & _ & _).
  runs EC. set (k := List.length (objs s)) in *. set (s0 := newsm e s L S 1 1 1 dd) in *.
  assert (L0 : List.length (objs s0) = (k + 2)%nat) by (unfold s0, newsm; cbn [objs]; rewrite app_length; reflexivity).
  assert (HB4 : 0 <= 4 * B <= 2147483647) by lia.
  runs (wb_malloc e s0 (4 * B) HB4). rewrite L0. set (s2 := with_block e s0 (4 * B) (e_junk e (k + 2))).
  set (q := (k + 1)%nat). set (w := (k + 2)%nat).
  assert (Iq2 : isb s2 q (L * S * 1 * 1) dd) by (apply wb_isb_old; apply newsm_data).
  assert (Iw2 : isb s2 w (4 * B) (e_junk e (k + 2))) by (unfold s2, w; rewrite <- L0; apply wb_isb).
  assert (Hqw : q <> w) by (unfold q, w; lia).
  assert (Old2 : old_unchanged s s2).
  { intros i Hi. unfold s2. rewrite (wb_old e s0 (4 * B)) by (fold k in Hi; lia). now apply newsm_old_unchanged. }
  assert (Oldp : forall dm dt, old_unchanged s (putd (putd s2 q dm) w dt)).
  { intros dm dt i Hi. fold k in Hi. rewrite !objs_putd_ne by (unfold q, w; lia). now apply Old2. }
  set (h := fun t => if SFleb th (library_angle acos_ B (fun k => fl_of_bits (X (t / S) (t mod S) k)) (fun k => fl_of_bits (Wy k)) (K (t / S) (t mod S))) then 1 else 0).
  assert (Hm2 : sm_at s2 (Some k) = Some (newsm_hdr s L S 1 1 1)).
  { rewrite (nth_sm_at s0 s2 k) by (apply wb_old; lia). apply newsm_at. }
  match goal with |- context [bind (for_ 0 L ?b) _ e s2] => set (body := b) end.
  assert (LP : exists dm dt, for_ 0 L body e s2 = Ret tt (putd (putd s2 q dm) w dt) /\ forall c, 0 <= c < L * S -> dm c mod 256 = h c).
  { destruct (for_inv e 0 L body (fun i s1 => exists dm dt, s1 = putd (putd s2 q dm) w dt /\ forall c, 0 <= c < i * S -> dm c mod 256 = h c) s2)
      as (s' & E & dm & dt & -> & V); [lia| | |exists dm, dt; auto].
    - exists dd, (e_junk e (k + 2)). rewrite (putd_id _ _ _ _ Iq2), (putd_id _ _ _ _ Iw2). split; [reflexivity|intros; lia].
    - intros i s1 Hi (dm0 & dt0 & -> & V0). unfold body.
      match goal with |- context [for_ 0 S ?b] => set (row := b) end.
      destruct (for_inv e 0 S row (fun j s1 => exists dm dt, s1 = putd (putd s2 q dm) w dt /\ forall c, 0 <= c < i * S + j -> dm c mod 256 = h c) (putd (putd s2 q dm0) w dt0))
        as (s' & E & dm & dt & -> & V).
      + lia.
      + exists dm0, dt0. split; [reflexivity|]. intros c Hc'. apply V0. lia.
      + intros j s1 Hj (dm & dt & -> & V). unfold row.
        destruct (bip_idx S L B i j Hi Hj ltac:(lia) ltac:(lia)) as (E1 & E2 & E3 & BD).
        set (sa := putd (putd s2 q dm) w dt).
        assert (Iwa : isb sa w (4 * B) dt) by (unfold sa; eapply isb_putd_eq; apply isb_putd_ne; [congruence|exact Iw2]).
        assert (Ica : isb sa qc szc g).
        { pose proof (isb_lt _ _ _ _ Hc) as Lt. unfold isb. rewrite (nth_bytes_at s sa qc); [exact Hc|]. apply (Oldp dm dt qc Lt). }
        runs (ev_ok _ _ e sa E1). runs (ev_ok _ _ e sa E2).
        destruct (line_run e sa w 0 4 B _ (X i j) (fun k0 => v <- loadle (Some qc) (4 * (i * S * B + j * B + k0)) 4 ;; storele (Some w) (4 * k0) 4 v)
          ltac:(lia) (arr_of sa w (4 * B) dt 0 4 B Iwa ltac:(lia) ltac:(lia) ltac:(lia))) as (sb & EL & AL & IL).
        { intros kk s3 Hk A3 I3. pose proof (BD kk Hk) as Bk.
          assert (Hqc : qc <> w) by (pose proof (isb_lt _ _ _ _ Hc) as Lt; fold k in Lt; unfold w; lia).
          pose proof (inside_old _ _ _ _ _ _ _ _ I3 Hqc Ica) as Ic3.
          rewrite (bind_ret _ _ _ _ _ _ (loadle_ok e s3 qc szc g 4 Ic3 (4 * (i * S * B + j * B + kk)) ltac:(lia) ltac:(lia))).
          assert (EX : word g (4 * (i * S * B + j * B + kk)) 4 = X i j kk).
          { pose proof (HX i j kk ltac:(split; [exact Hi|split; [exact Hj|exact Hk]])) as H. unfold sample_word, offset in H. rewrite Ec in H.
            assert (H' : word_at s (Some qc) (4 * (i * S * B + j * B + kk)) 4 = Some (X i j kk)) by (rewrite <- H; f_equal; fold S B; ring).
            rewrite (word_at_isb s qc szc g 4 Hc) in H' by lia. now injection H'. }
          rewrite EX.
          destruct (arr_store e s3 w 0 4 B _ kk (4 * kk) 4 (X i j kk) A3 Hk ltac:(lia) eq_refl) as (s4 & E4 & A4 & I4).
          exists s4. split; [exact E4|]. split; [|eapply inside_weaken; [| |exact I4]; lia].
          eapply upto_step; [exact A4|]. apply Z.mod_small. rewrite <- EX. apply ProofWord.word_range. }
        runs EL. destruct IL as (N' & d0 & dt' & Iw' & -> & _).
        assert (Ea : putd sa w dt' = putd (putd s2 q dm) w dt') by (unfold sa; apply putd_putd). rewrite Ea in *.
        set (sb := putd (putd s2 q dm) w dt') in *.
        assert (Et : elements_of sb (Some w) 4 B (X i j)).
        { intros t Ht'. pose proof (arr_word sb w 0 4 B (X i j) t AL Ht') as W. now rewrite Z.add_0_l in W. }
        assert (Es : elements_of sb sp 4 B Wy) by (intros t Ht'; apply (word_old s); [apply Oldp|now apply Ey]).
        assert (EA : spectral_angle_mapper acos_ (Some w) sp B e sb = Ret (library_angle acos_ B (fun k => fl_of_bits (X i j k)) (fun k => fl_of_bits (Wy k)) (K i j)) sb).
        { apply (angle_exact acos_ e sb (Some w) sp B (X i j) Wy (K i j)); auto; [lia|]. intros t Ht'. apply HK. repeat split; try exact Ht'; lia. }
        runs EA.
        assert (Hmb : sm_at sb (Some k) = Some (newsm_hdr s L S 1 1 1)).
        { rewrite (nth_sm_at s2 sb k); [exact Hm2|]. unfold sb. rewrite !objs_putd_ne by (unfold q, w; lia). reflexivity. }
        runs (sget_ok _ _ e _ Hmb).
        assert (E5 : (i * S)%C = Some (i * S)).
        { unfold ci. apply cmul_ok. pose proof (cell_range L S i j Hi Hj). assert (0 <= i * S) by (clear - Hi Hj; nia). unfold INT_MAX in *. lia. }
        runs (ev_ok _ _ e sb E5). cbn [newsm_hdr sm_data]. fold k q.
        assert (Iqb : isb sb q (L * S * 1 * 1) dm) by (unfold sb; apply isb_putd_ne; [congruence|]; eapply isb_putd_eq; exact Iq2).
        pose proof (cell_range L S i j Hi Hj) as CR.
        eexists. split; [apply (store8_ok e sb q _ dm (i * S + j) _ Iqb); lia|].
        eexists (fupd dm (i * S + j) _), dt'. split.
        * unfold sb. rewrite (putd_comm _ q w) by congruence. rewrite putd_putd. rewrite (putd_comm _ w q) by congruence. reflexivity.
        * intros c Hc'. unfold fupd. destruct (Z.eqb_spec c (i * S + j)) as [->|Hne].
          -- rewrite Z.mod_mod by lia. unfold h. rewrite cell_div, cell_mod by lia. destruct (SFleb _ _); reflexivity.
          -- apply V. lia.
      + eexists. split; [exact E|]. exists dm, dt. split; [reflexivity|]. intros c Hc'. apply V. lia. }
  destruct LP as (dm & dt & E & V). runs E. set (s3 := putd (putd s2 q dm) w dt).
  assert (Nw : nth_error (objs s3) w = Some (mkObj (e_addr e w) (4 * B) w true (CBytes dt))).
  { unfold s3, putd at 1; cbn [objs]. rewrite lupd_nth_eq. rewrite objs_putd_ne by congruence. unfold s2, with_block; cbn [objs]. rewrite L0. fold w.
    pose proof (nth_error_app_new0 (objs s0) [mkObj (e_addr e w) (4 * B) w true (CBytes (e_junk e (k + 2)))]) as Y. rewrite L0 in Y. fold w in Y. rewrite Y. reflexivity. }
  unfold w in Nw at 1. fold w in Nw.
  runs (free_ok e s3 w _ Nw eq_refl eq_refl).
  eexists _, _. split; [reflexivity|]. set (s4 := mkSt (map (kill_root w) (objs s3)) (files s3)).
  assert (Keep : forall i, (i < w)%nat -> nth_error (objs s4) i = nth_error (objs s3) i).
  { intros i Hi. unfold s4; cbn [objs]. rewrite kill_nth. destruct (nth_error (objs s3) i) as [o|] eqn:Eo; [|reflexivity]. cbn. f_equal. apply kill_other.
    assert (H0 : heap_ok s0) by (apply newsm_heap_ok; exact Hs).
    assert (X0 : nth_error (objs s2) i = nth_error (objs s0) i) by (apply wb_old; unfold w in Hi; lia).
    destruct (Nat.eq_dec i q) as [->|Hne].
    - unfold s3 in Eo. rewrite objs_putd_ne in Eo by congruence. unfold putd in Eo; cbn [objs] in Eo. rewrite lupd_nth_eq in Eo.
      rewrite X0 in Eo. clear X0. destruct (nth_error (objs s0) q) as [o'|] eqn:Eo'; [|discriminate]. cbn in Eo. injection Eo as <-. cbn. pose proof (H0 _ _ Eo'). unfold w. lia.
    - unfold s3 in Eo. rewrite !objs_putd_ne in Eo by (try congruence; lia). rewrite X0 in Eo. pose proof (H0 _ _ Eo). unfold w. lia. }
  exists (newsm_hdr s L S 1 1 1). split; [|split; [reflexivity|split; [reflexivity|split; [reflexivity|split; [reflexivity|split; [|split; [|split]]]]]]].
  - rewrite (nth_sm_at s3 s4 k) by (apply Keep; unfold w; lia). rewrite (nth_sm_at s2 s3 k) by (unfold s3; rewrite !objs_putd_ne by (unfold q, w; lia); reflexivity). exact Hm2.
  - exists k. split; [reflexivity|]. fold k. lia.
  - exists q. split; [reflexivity|]. fold k. unfold q. lia.
  - intros i j Hi Hj. cbn [newsm_hdr sm_data]. fold k q. rewrite (nth_byte_at s3 s4 q) by (apply Keep; unfold q, w; lia).
    assert (Iq3 : isb s3 q (L * S * 1 * 1) dm) by (unfold s3; apply isb_putd_ne; [congruence|]; eapply isb_putd_eq; exact Iq2).
    pose proof (cell_range L S i j Hi Hj) as CR. rewrite (byte_at_isb s3 q _ dm (i * S + j) Iq3) by lia. rewrite V by lia. unfold h. now rewrite cell_div, cell_mod by lia.
  - intros i Hi. fold k in Hi. rewrite Keep by (unfold w; lia). apply Oldp. exact Hi.
Qed.
