(** * Floating-point division: correct rounding of the quotient. *)
From Verif Require Import Base ModelFloat SpecNum ProofFloat ProofFloat2.
From Coq Require Import Floats.SpecFloat ZifyBool ZifyNat.
Ltac Zify.zify_post_hook ::= Z.div_mod_to_equations.
Open Scope Z_scope.

Lemma new_location_locs D r : 0 < D -> 0 <= r < D -> locs (new_location D r) r D.
Proof.
  intros HD Hr. unfold new_location. destruct (Z.even D) eqn:Ev.
  - unfold new_location_even. destruct (Zeq_bool r 0) eqn:E; [now apply Zeq_bool_eq in E|].
    apply Zeq_bool_neq in E. cbn [locs]. destruct (Z.compare_spec (2 * r) D); lia.
  - unfold new_location_odd. destruct (Zeq_bool r 0) eqn:E; [now apply Zeq_bool_eq in E|].
    apply Zeq_bool_neq in E. rewrite <- Z.negb_odd in Ev. apply negb_false_iff in Ev.
    apply Z.odd_spec in Ev as [c Hc]. cbn [locs]. destruct (Z.compare_spec (2 * r + 1) D); lia.
Qed.

Section Format.
  Variables prec emax : Z.
  Hypotheses (Hprec : 1 < prec) (Hemax : prec < emax) (Hemin : -1074 <= 3 - emax - prec) (Hmax : emax <= 1024).
  Notation ok x := (valid_binary prec emax x = true).

  (** The quotient of two finite numbers in the normal range, with g its
      binary exponent; everything is scaled by 2^4000 to stay with integers. *)
  Lemma SFdiv_num x y a b : ok x -> ok y -> sf_num x = Some a -> sf_num y = Some b -> a <> 0 -> b <> 0 ->
    Z.abs b <= Z.abs a * 2 ^ (- (emin prec emax + prec)) ->
    exists g, - 4000 < fexp prec emax g /\ - 4000 < g - 1 /\
      Z.abs b * 2 ^ (g - 1 + 4000) <= Z.abs a * 2 ^ 4000 < Z.abs b * 2 ^ (g + 4000)
      /\ rounds prec emax (xorb (a <? 0) (b <? 0))
           (rne (Z.abs a * 2 ^ 4000) (Z.abs b * 2 ^ (fexp prec emax g + 4000))) (fexp prec emax g) (SFdiv prec emax x y).
  Proof.
    remember 4000 as k4 eqn:Ek4. intros Vx Vy Na Nb Ha Hb Hn.
    destruct x as [sx| | |sx mx ex]; try discriminate Na; [injection Na as <-; lia|].
    destruct y as [sy| | |sy my ey]; try discriminate Nb; [injection Nb as <-; lia|].
    cbn [sf_num] in Na, Nb. injection Na as Ea. injection Nb as Eb.
    pose proof (valid_emin _ _ Hemin _ _ _ Vx) as Hx. pose proof (valid_emin _ _ Hemin _ _ _ Vy) as Hy.
    apply valid_finite in Vx as [Vx Cx]; auto. apply valid_finite in Vy as [Vy Cy]; auto.
    pose proof (pow_pos (ex + 1074) ltac:(lia)) as Px. pose proof (pow_pos (ey + 1074) ltac:(lia)) as Py.
    assert (Aa : Z.abs a = Zpos mx * 2 ^ (ex + 1074)).
    { rewrite <- Ea, Z.abs_mul, (Z.abs_eq (2 ^ _)) by lia. destruct sx; reflexivity. }
    assert (Ab : Z.abs b = Zpos my * 2 ^ (ey + 1074)).
    { rewrite <- Eb, Z.abs_mul, (Z.abs_eq (2 ^ _)) by lia. destruct sy; reflexivity. }
    assert (Sa : (a <? 0) = sx).
    { rewrite <- Ea. destruct sx; cbn [cond_Zopp]; nia. }
    assert (Sb : (b <? 0) = sy).
    { rewrite <- Eb. destruct sy; cbn [cond_Zopp]; nia. }
    rewrite Sa, Sb, Aa, Ab in *. clear Ea Eb Sa Sb Aa Ab Ha Hb.
    cbn [SFdiv]. unfold SFdiv_core_binary.
    destruct (digits_bounds (Zpos mx) ltac:(lia)) as [D1 B1]. destruct (digits_bounds (Zpos my) ltac:(lia)) as [D2 B2].
    set (d1 := Zdigits2 (Zpos mx)) in *. set (d2 := Zdigits2 (Zpos my)) in *.
    set (e' := Z.min (fexp prec emax (d1 + ex - (d2 + ey))) (ex - ey)).
    set (sh := ex - ey - e'). assert (Hsh : 0 <= sh) by (unfold sh, e'; lia).
    assert (Em : match sh with Z0 => Zpos mx | Zpos _ => Z.shiftl (Zpos mx) sh | Zneg _ => 0 end = Zpos mx * 2 ^ sh).
    { destruct sh eqn:Es; [cbn; lia| |lia]. now rewrite Z.shiftl_mul_pow2 by lia. }
    rewrite Em. clear Em.
    rewrite (surjective_pairing (Z.div_eucl _ _)). change (fst (Z.div_eucl ?u ?v)) with (u / v).
    change (snd (Z.div_eucl ?u ?v)) with (u mod v).
    set (m' := Zpos mx * 2 ^ sh). pose proof (pow_pos sh Hsh) as Psh.
    set (D := Zpos my) in *. assert (HD : 0 < D) by (unfold D; lia).
    pose proof (Z.div_mod m' D ltac:(lia)) as Eq. pose proof (Z.mod_pos_bound m' D HD) as Rr.
    set (M := m' / D) in *. set (r := m' mod D) in *.
    (* the quotient is normal: M has at least prec digits *)
    assert (Hg0 : emin prec emax + prec <= d1 + ex - (d2 + ey)).
    { destruct (Z_le_gt_dec (emin prec emax + prec) (d1 + ex - (d2 + ey))) as [|Hgt]; auto. exfalso.
      assert (Hk : 0 <= - (emin prec emax + prec)) by (unfold emin; lia).
      assert (Zpos mx * 2 ^ (ex + 1074) * 2 ^ (- (emin prec emax + prec)) < 2 ^ (d2 - 1) * 2 ^ (ey + 1074)).
      { apply Z.lt_le_trans with (2 ^ d1 * 2 ^ (ex + 1074) * 2 ^ (- (emin prec emax + prec))).
        - apply Z.mul_lt_mono_pos_r; [apply pow_pos; lia|]. apply Z.mul_lt_mono_pos_r; lia.
        - rewrite <- !pow_split by lia. apply pow_le. lia. }
      assert (2 ^ (d2 - 1) * 2 ^ (ey + 1074) <= D * 2 ^ (ey + 1074)) by (apply Z.mul_le_mono_nonneg_r; lia).
      lia. }
    assert (He' : e' <= d1 + ex - (d2 + ey) - prec) by (unfold e', fexp; lia).
    assert (HM : 0 < M).
    { destruct (Z_lt_ge_dec 0 M) as [|Hge]; auto. exfalso.
      assert (HM0 : m' < D) by (clear - Eq Rr Hge HD; nia).
      assert (2 ^ d2 <= m').
      { unfold m'. apply Z.le_trans with (2 ^ (d1 - 1) * 2 ^ sh); [|apply Z.mul_le_mono_nonneg_r; lia].
        rewrite <- pow_split by lia. apply pow_le. unfold sh. lia. }
      lia. }
    destruct (digits_bounds M HM) as [DM BM]. set (dM := Zdigits2 M) in *.
    set (g := dM + e').
    (* bounds on e' *)
    assert (Bx : ex <= emax - prec) by lia. assert (By : ey <= emax - prec) by lia.
    assert (Lo : -2200 < e').
    { unfold e', fexp, emin in *. lia. }
    assert (HdM : d1 - d2 + sh <= dM).
    { destruct (Z_le_gt_dec (d1 - d2 + sh) dM) as [|Hgt]; auto. exfalso.
      assert (M + 1 <= 2 ^ dM) by lia.
      assert (m' < 2 ^ dM * D) by (clear - Eq Rr H HD; nia).
      assert (2 ^ (d1 - 1) * 2 ^ sh <= m') by (unfold m'; apply Z.mul_le_mono_nonneg_r; lia).
      rewrite <- pow_split in H1 by lia.
      assert (2 ^ dM * D < 2 ^ dM * 2 ^ d2) by (apply Z.mul_lt_mono_pos_l; [apply pow_pos; lia|lia]).
      rewrite <- pow_split in H2 by lia.
      assert (d1 - 1 + sh < dM + d2) by (apply (Z.pow_lt_mono_r_iff 2); lia). lia. }
    assert (Hfe : e' <= fexp prec emax (dM + e')) by (unfold sh, e', fexp, emin in *; lia).
    pose proof (fexp_min prec emax (dM + e')) as Hf0. unfold emin in Hf0.
    exists g. split; [unfold g; lia|]. split; [unfold g; lia|].
    (* a / b = (m' / D) * 2^e' *)
    set (P := 2 ^ (ey + 1074)) in *.
    assert (EA : Zpos mx * 2 ^ (ex + 1074) * 2 ^ k4 = m' * (P * 2 ^ (e' + k4))).
    { unfold m', P. rewrite <- !Z.mul_assoc. f_equal. rewrite <- !pow_split by lia. f_equal. unfold sh. lia. }
    rewrite EA. set (E4 := 2 ^ (e' + k4)) in *. assert (HE4 : 0 < E4) by (apply pow_pos; lia).
    assert (EB1 : D * P * 2 ^ (g - 1 + k4) = D * 2 ^ (dM - 1) * (P * E4)).
    { replace (g - 1 + k4) with ((dM - 1) + (e' + k4)) by (unfold g; lia). rewrite pow_split by lia. unfold E4. ring. }
    assert (EB2 : D * P * 2 ^ (g + k4) = D * 2 ^ dM * (P * E4)).
    { replace (g + k4) with (dM + (e' + k4)) by (unfold g; lia). rewrite pow_split by lia. unfold E4. ring. }
    rewrite EB1, EB2. assert (HPE : 0 < P * E4) by (clear - Py HE4; nia).
    split.
    { split; [apply Z.mul_le_mono_nonneg_r|apply Z.mul_lt_mono_pos_r]; try lia.
      - apply Z.le_trans with (D * M); [apply Z.mul_le_mono_nonneg_l|]; lia.
      - apply Z.lt_le_trans with (D * (M + 1)); [lia|apply Z.mul_le_mono_nonneg_l; lia]. }
    pose proof (round_aux prec emax Hprec Hemax Hemin (xorb sx sy) M e' (new_location D r) r D HD HM
      (new_location_locs D r HD Rr) Hfe) as RA. cbv zeta in RA. fold dM g in RA.
    replace (rne (m' * (P * E4)) (D * P * 2 ^ (fexp prec emax g + k4))) with (rne (M * D + r) (D * 2 ^ (fexp prec emax g - e'))); [exact RA|].
    replace (fexp prec emax g + k4) with ((fexp prec emax g - e') + (e' + k4)) by lia.
    assert (Hfg : 0 <= fexp prec emax g - e') by (unfold g; lia).
    rewrite (pow_split (fexp prec emax g - e')) by lia. fold E4.
    replace (D * P * (2 ^ (fexp prec emax g - e') * E4)) with (D * 2 ^ (fexp prec emax g - e') * (P * E4)) by ring.
    rewrite rne_scale; [f_equal; lia| |exact HPE]. pose proof (pow_pos _ Hfg). nia.
  Qed.

  (** Integers that divide. *)
  Lemma div_int x y a b w : isint prec emax x a -> isint prec emax y b -> b <> 0 -> a = w * b -> Z.abs w <= 2 ^ prec ->
    isint prec emax (SFdiv prec emax x y) w.
  Proof.
    intros [Vx Nx] [Vy Ny] Hb Ew Hw. pose proof sf_one_pos as HO.
    destruct (Z.eq_dec a 0) as [->|Ha].
    { assert (w = 0) by nia. subst w. rewrite Z.mul_0_l in Nx.
      assert (Hx : exists s, x = S754_zero s).
      { destruct x as [s| | |s m ex]; try discriminate Nx; [eauto|].
        cbn [sf_num] in Nx. pose proof (valid_emin _ _ Hemin _ _ _ Vx).
        pose proof (pow_pos (ex + 1074) ltac:(lia)). injection Nx as Nx. destruct s; cbn [cond_Zopp] in Nx; nia. }
      destruct Hx as [s ->].
      destruct y as [s'| | |s' m ey]; try discriminate Ny.
      - cbn [sf_num] in Ny. injection Ny as Ny. nia.
      - split; reflexivity. }
    destruct (SFdiv_num x y (a * sf_one) (b * sf_one)) as (g & Hf & Hg & [B1 B2] & R); auto; [nia|nia| |].
    { subst a. rewrite !Z.abs_mul. pose proof (pow_pos (- (emin prec emax + prec)) ltac:(unfold emin; lia)).
      assert (1 <= Z.abs w) by nia. set (T := 2 ^ (- (emin prec emax + prec))) in *. clearbody T.
      assert (0 <= Z.abs b * Z.abs sf_one) by nia. set (BB := Z.abs b * Z.abs sf_one) in *. 
      replace (Z.abs w * Z.abs b * Z.abs sf_one) with (Z.abs w * BB) by (unfold BB; ring).
      clearbody BB. assert (BB <= Z.abs w * BB) by (clear - H0 H1; nia). clear - H H1 H2. nia. }
    remember 4000 as k4 eqn:Ek4.
    set (f := fexp prec emax g) in *.
    rewrite !Z.abs_mul in *. rewrite (Z.abs_eq sf_one) in * by lia.
    assert (Eab : Z.abs a = Z.abs w * Z.abs b) by (subst a; apply Z.abs_mul).
    set (B := Z.abs b * sf_one) in *. assert (HB : 0 < B) by (unfold B; clear - HO Hb; nia).
    assert (EA : Z.abs a * sf_one = Z.abs w * B) by (unfold B; rewrite Eab; ring). rewrite EA in *.
    assert (W1 : 2 ^ (g - 1 + k4) <= Z.abs w * 2 ^ k4) by (clear - B1 HB; apply (Z.mul_le_mono_pos_l _ _ B HB); lia).
    (* w = w' 2^max(f,0)-ish: rne exact *)
    assert (Hgp : g <= prec + 1).
    { destruct (Z_le_gt_dec g (prec + 1)); auto. exfalso.
      assert (2 ^ (g - 1 + k4) <= 2 ^ (prec + k4)).
      { rewrite (pow_split prec) by (clear - Ek4 Hprec; lia). pose proof (pow_pos k4 ltac:(clear - Ek4; lia)) as Q. etransitivity; [exact W1|]. apply Z.mul_le_mono_nonneg_r; [clear - Q; lia|exact Hw]. }
      assert (g - 1 + k4 <= prec + k4) by (apply (Z.pow_le_mono_r_iff 2); lia). lia. }
    assert (Hf1 : f <= 1) by (unfold f, fexp, emin; lia).
    assert (HQ : exists w', Z.abs w = w' * 2 ^ (Z.max f 0)).
    { destruct (Z_le_gt_dec f 0) as [Hle|Hgt]; [exists (Z.abs w); replace (Z.max f 0) with 0 by lia; cbn; lia|].
      assert (f = 1) by lia. assert (g = prec + 1) by (unfold f, fexp, emin in *; lia).
      assert (2 ^ prec <= Z.abs w).
      { replace (g - 1 + k4) with (prec + k4) in W1 by lia. rewrite pow_split in W1 by lia.
        pose proof (pow_pos k4 ltac:(clear - Ek4; lia)) as Q. apply (Z.mul_le_mono_pos_r _ _ _ Q). exact W1. }
      exists (2 ^ (prec - 1)). replace (Z.max f 0) with 1 by lia. rewrite <- pow_split by lia.
      replace (prec - 1 + 1) with prec by lia. lia. }
    destruct HQ as [w' Ew'].
    assert (Hq : rne (Z.abs w * B * 2 ^ k4) (B * 2 ^ (f + k4)) = w' * 2 ^ (Z.max f 0 - f)).
    { replace (Z.abs w * B * 2 ^ k4) with (w' * 2 ^ (Z.max f 0 - f) * (B * 2 ^ (f + k4))).
      - apply rne_exact. apply Z.mul_pos_pos; [exact HB|apply pow_pos; clear - Hf Ek4; lia].
      - rewrite Ew'. replace (2 ^ (f + k4)) with (2 ^ (f + k4)) by auto.
        assert (E : 2 ^ (Z.max f 0 - f) * 2 ^ (f + k4) = 2 ^ (Z.max f 0) * 2 ^ k4).
        { rewrite <- !pow_split by lia. f_equal. lia. }
        replace (w' * 2 ^ (Z.max f 0 - f) * (B * 2 ^ (f + k4))) with (w' * B * (2 ^ (Z.max f 0 - f) * 2 ^ (f + k4))) by ring.
        rewrite E. ring. }
    rewrite Hq in R.
    pose proof (fexp_min prec emax g) as Hfm. fold f in Hfm. unfold emin in Hfm.
    assert (Hval : w' * 2 ^ (Z.max f 0 - f) * 2 ^ (f + 1074) = Z.abs w * sf_one).
    { rewrite Ew', sf_one_eq. rewrite <- !Z.mul_assoc. f_equal. rewrite <- !pow_split by lia. f_equal. lia. }
    unfold rounds in R. rewrite Hval in R.
    assert (Hlt : Z.abs w * sf_one < 2 ^ (emax + 1074)).
    { rewrite pow_split by lia. rewrite <- sf_one_eq. apply Z.mul_lt_mono_pos_r; auto.
      apply Z.le_lt_trans with (2 ^ prec); auto. apply pow_lt. lia. }
    replace (Z.abs w * sf_one <? 2 ^ (emax + 1074)) with true in R by lia.
    destruct R as (V & N & _). split; auto. rewrite N. f_equal.
    assert (Sg : cond_Zopp (xorb (a * sf_one <? 0) (b * sf_one <? 0)) (w' * 2 ^ (Z.max f 0 - f)) * 2 ^ (f + 1074)
      = cond_Zopp (xorb (a * sf_one <? 0) (b * sf_one <? 0)) (Z.abs w * sf_one)).
    { rewrite <- Hval. destruct (xorb _ _); cbn [cond_Zopp]; ring. }
    rewrite Sg. subst a.
    replace (w * b * sf_one <? 0) with (w * b <? 0) by (clear - HO; nia).
    replace (b * sf_one <? 0) with (b <? 0) by (clear - HO; nia).
    destruct (Z.ltb_spec (w * b) 0) as [L1|L1], (Z.ltb_spec b 0) as [L2|L2]; cbn [xorb cond_Zopp].
    - rewrite (Z.abs_eq w) by (clear - L1 L2 Hb; nia). ring.
    - rewrite (Z.abs_neq w) by (clear - L1 L2 Hb; nia). ring.
    - rewrite (Z.abs_neq w) by (clear - L1 L2 Hb; nia). ring.
    - rewrite (Z.abs_eq w) by (clear - L1 L2 Hb; nia). ring.
  Qed.
End Format.
