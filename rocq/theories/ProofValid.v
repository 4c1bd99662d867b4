(** * Results of division and square root are always numbers of the format;
    square roots of squares are exact. *)
From Verif Require Import Base ModelFloat SpecNum ProofFloat ProofFloat2 ProofDiv.
From Coq Require Import Floats.SpecFloat ZifyBool ZifyNat.
Ltac Zify.zify_post_hook ::= Z.div_mod_to_equations.
Open Scope Z_scope.

Section Format.
  Variables prec emax : Z.
  Hypotheses (Hprec : 1 < prec) (Hemax : prec < emax) (Hemin : -1074 <= 3 - emax - prec) (Hmax : emax <= 1024).
  Notation ok x := (valid_binary prec emax x = true).

  Lemma rounds_ok s q f x : rounds prec emax s q f x -> ok x.
  Proof. unfold rounds. destruct (_ <? _); [tauto|intros ->; reflexivity]. Qed.

  Lemma some_place l : exists r D, 0 < D /\ locs l r D.
  Proof.
    destruct l as [|[]].
    - exists 0, 1. split; [lia|reflexivity]. - exists 1, 2. split; [lia|cbn; lia]. - exists 1, 4. split; [lia|cbn; lia]. - exists 3, 4. split; [lia|cbn; lia].
  Qed.

  Lemma aux_ok s M e l : 0 <= M -> (M = 0 -> e <= emin prec emax) -> e <= fexp prec emax (Zdigits2 M + e) ->
    ok (binary_round_aux prec emax s M e l).
  Proof.
    intros HM H0 Hf. destruct (some_place l) as (r & D & HD & HL).
    destruct (Z.eq_dec M 0) as [->|Hne].
    2:{ eapply rounds_ok. apply (round_aux prec emax Hprec Hemax Hemin s M e l r D); auto. lia. }
    specialize (H0 eq_refl). change (Zdigits2 0) with 0 in Hf. rewrite Z.add_0_l in Hf.
    assert (Ef : fexp prec emax e = emin prec emax) by (unfold fexp; lia).
    unfold binary_round_aux, shr_fexp. change (Zdigits2 0) with 0. rewrite Z.add_0_l, Ef.
    destruct (shr_spec 0 l e (emin prec emax - e) r D HD ltac:(lia) HL ltac:(lia)) as (x1 & E1 & Em & El).
    rewrite E1. replace (e + (emin prec emax - e)) with (emin prec emax) by lia.
    set (n := emin prec emax - e) in *. pose proof (pow_pos n ltac:(lia)) as HP.
    assert (HDP : 0 < D * 2 ^ n) by nia. pose proof (locs_range _ _ _ HD HL) as Hr.
    rewrite (round_loc _ _ _ _ HDP El), Em. rewrite Z.div_0_l, Z.mod_0_l by lia. rewrite !Z.mul_0_l, !Z.add_0_l.
    assert (Hq : 0 <= rne r (D * 2 ^ n) <= 1).
    { apply rne_bounds; auto. split; [lia|]. nia. }
    set (q := rne r (D * 2 ^ n)) in *. clearbody q.
    assert (q = 0 \/ q = 1) as [-> | ->] by lia.
    - change (Zdigits2 0) with 0. rewrite shr_none by (unfold fexp; lia). cbn [shr_record_of_loc shr_m]. reflexivity.
    - change (Zdigits2 1) with 1. rewrite shr_none by (unfold fexp; lia). cbn [shr_record_of_loc shr_m].
      eapply rounds_ok. apply (pack prec emax Hprec Hemax Hemin s 1 (emin prec emax)); [lia|lia|]. change (Zdigits2 1) with 1. unfold fexp. lia.
  Qed.

  Lemma div_ok x y : ok x -> ok y -> ok (SFdiv prec emax x y).
  Proof.
    intros Vx Vy. destruct x as [sx|sx| |sx mx ex]; destruct y as [sy|sy| |sy my ey]; try reflexivity.
    cbn [SFdiv]. unfold SFdiv_core_binary.
    destruct (digits_bounds (Zpos mx) ltac:(lia)) as [D1 B1]. destruct (digits_bounds (Zpos my) ltac:(lia)) as [D2 B2].
    set (d1 := Zdigits2 (Zpos mx)) in *. set (d2 := Zdigits2 (Zpos my)) in *.
    set (e' := Z.min (fexp prec emax (d1 + ex - (d2 + ey))) (ex - ey)).
    set (sh := ex - ey - e'). assert (Hsh : 0 <= sh) by (unfold sh, e'; lia).
    assert (Em : match sh with Z0 => Zpos mx | Zpos _ => Z.shiftl (Zpos mx) sh | Zneg _ => 0 end = Zpos mx * 2 ^ sh).
    { destruct sh eqn:Es; [cbn; lia| |lia]. now rewrite Z.shiftl_mul_pow2 by lia. }
    rewrite Em. clear Em.
    rewrite (surjective_pairing (Z.div_eucl _ _)). change (fst (Z.div_eucl ?u ?v)) with (u / v).
    change (snd (Z.div_eucl ?u ?v)) with (u mod v).
    set (m' := Zpos mx * 2 ^ sh). pose proof (pow_pos sh Hsh) as Psh.
    set (D := Zpos my) in *. assert (HD : 0 < D) by (unfold D; lia).
    pose proof (Z.div_mod m' D ltac:(lia)) as Eq. pose proof (Z.mod_pos_bound m' D HD) as Rr.
    assert (HM : 0 <= m' / D) by (apply Z.div_pos; [unfold m'; nia|lia]).
    set (M := m' / D) in *. set (r := m' mod D) in *.
    assert (HdM : d1 - d2 + sh <= Zdigits2 M).
    { destruct (Z_le_gt_dec (d1 - d2 + sh) (Zdigits2 M)) as [|Hgt]; auto. exfalso.
      assert (HdM0 : 0 <= Zdigits2 M /\ M + 1 <= 2 ^ Zdigits2 M).
      { destruct (Z.eq_dec M 0) as [E0|]; [rewrite E0; cbn; lia|]. destruct (digits_bounds M ltac:(lia)) as [A B]. lia. }
      destruct HdM0 as [HdM0 H]. set (dM := Zdigits2 M) in *.
      assert (m' < 2 ^ dM * D) by (clear - Eq Rr H HD; nia).
      assert (2 ^ (d1 - 1) * 2 ^ sh <= m') by (unfold m'; apply Z.mul_le_mono_nonneg_r; lia).
      rewrite <- pow_split in H1 by lia.
      assert (2 ^ dM * D < 2 ^ dM * 2 ^ d2) by (apply Z.mul_lt_mono_pos_l; [apply pow_pos; lia|lia]).
      rewrite <- pow_split in H2 by lia.
      assert (d1 - 1 + sh < dM + d2) by (apply (Z.pow_lt_mono_r_iff 2); lia). lia. }
    apply aux_ok; auto.
    - intros E0. rewrite E0 in HdM. change (Zdigits2 0) with 0 in HdM. unfold sh, e', fexp in *. lia.
    - unfold sh, e', fexp in *. lia.
  Qed.

  Lemma sqrt_core m e (Hm : 0 < m) : let d := Zdigits2 m in let e' := Z.min (fexp prec emax (Z.div2 (d + e + 1))) (Z.div2 e) in
    0 <= e - 2 * e' /\ 0 < Z.sqrt (m * 2 ^ (e - 2 * e')) /\ e' <= fexp prec emax (Zdigits2 (Z.sqrt (m * 2 ^ (e - 2 * e'))) + e').
  Proof.
    intros d e'. destruct (digits_bounds m Hm) as [D1 B1]. fold d in D1, B1.
    pose proof (Zdiv2_odd_eqn (d + e + 1)) as O1. pose proof (Zdiv2_odd_eqn e) as O2.
    assert (Hs : 0 <= e - 2 * e') by (unfold e'; destruct (Z.odd e); lia). split; [exact Hs|].
    set (sh := e - 2 * e') in *. pose proof (pow_pos sh Hs) as Psh.
    assert (Hm' : 0 < m * 2 ^ sh) by nia. set (m' := m * 2 ^ sh) in *.
    assert (Hq : 0 < Z.sqrt m') by (apply Z.sqrt_pos; lia). split; [exact Hq|].
    pose proof (Z.sqrt_spec m' ltac:(lia)) as [_ S2]. set (q := Z.sqrt m') in *.
    destruct (digits_bounds q Hq) as [DQ BQ]. set (dq := Zdigits2 q) in *.
    assert (L : 2 ^ (d - 1 + sh) <= m').
    { rewrite pow_split by lia. unfold m'. apply Z.mul_le_mono_nonneg_r; lia. }
    assert (U : m' < 2 ^ (2 * dq)).
    { replace (2 * dq) with (dq + dq) by lia. rewrite pow_split by lia. unfold Z.succ in S2. eapply Z.lt_le_trans; [exact S2|]. apply Z.mul_le_mono_nonneg; lia. }
    assert (d - 1 + sh < 2 * dq) by (apply (Z.pow_lt_mono_r_iff 2); lia).
    assert (Z.div2 (d + e + 1) <= dq + e').
    { unfold sh in *. destruct (Z.odd (d + e + 1)); lia. }
    assert (e' <= fexp prec emax (Z.div2 (d + e + 1))) by (unfold e'; lia).
    unfold fexp in *. lia.
  Qed.
  Lemma shift_match m s : 0 <= s -> match s with Z0 => m | Zpos _ => Z.shiftl m s | Zneg _ => 0 end = m * 2 ^ s.
  Proof. intros H. destruct s eqn:Es; [cbn; lia| |lia]. now rewrite Z.shiftl_mul_pow2 by lia. Qed.

  Lemma sqrt_ok x : ok x -> ok (SFsqrt prec emax x).
  Proof.
    intros Vx. destruct x as [sx|sx| |sx mx ex]; try reflexivity; [destruct sx; reflexivity|]. destruct sx; [reflexivity|].
    cbn [SFsqrt]. unfold SFsqrt_core_binary. destruct (sqrt_core (Zpos mx) ex ltac:(lia)) as (A & B & C). cbv zeta in *.
    rewrite shift_match by exact A. rewrite <- Z.sqrtrem_sqrt in B, C.
    destruct (Z.sqrtrem _) as [q r]. cbn [fst] in *. apply aux_ok; auto; lia.
  Qed.

  Lemma sqrt_int x S : 0 <= S < 2 ^ prec -> isint prec emax x (S * S) -> x <> S754_zero true -> isint prec emax (SFsqrt prec emax x) S.
  Proof.
    intros HS [Vx Nx] Hz. split; [now apply sqrt_ok|]. pose proof sf_one_pos as HO.
    destruct x as [sx|sx| |sx mx ex]; try discriminate Nx.
    { destruct sx; [congruence|]. cbn in Nx. injection Nx as Nx. assert (S = 0) by nia. subst S. reflexivity. }
    cbn [sf_num] in Nx. injection Nx as Nx.
    pose proof (valid_emin _ _ Hemin _ _ _ Vx) as Hx. pose proof (pow_pos (ex + 1074) ltac:(lia)) as Px.
    destruct sx; cbn [cond_Zopp] in Nx.
    { exfalso. assert (0 <= S * S * sf_one) by (apply Z.mul_nonneg_nonneg; [apply Z.square_nonneg|lia]).
      assert (- Zpos mx * 2 ^ (ex + 1074) < 0) by (apply Z.mul_neg_pos; [reflexivity|exact Px]). lia. }
    cbn [SFsqrt]. unfold SFsqrt_core_binary. destruct (sqrt_core (Zpos mx) ex ltac:(lia)) as (A & B & C). cbv zeta in *.
    rewrite shift_match by exact A.
    set (e' := Z.min (fexp prec emax (Z.div2 (Zdigits2 (Zpos mx) + ex + 1))) (Z.div2 ex)) in *.
    destruct (digits_bounds (Zpos mx) ltac:(lia)) as [D1 B1]. set (d := Zdigits2 (Zpos mx)) in *. set (m := Zpos mx) in *.
    rewrite sf_one_eq in *.
    pose proof (Zdiv2_odd_eqn (d + ex + 1)) as O1. pose proof (Zdiv2_odd_eqn ex) as O2.
    assert (Hlow : - 1074 <= e') by (unfold e', fexp, emin; destruct (Z.odd ex); lia).
    assert (He' : e' <= 0).
    { assert (2 ^ (d - 1 + (ex + 1074)) < 2 ^ (2 * prec + 1074)).
      { rewrite (pow_split (d - 1) (ex + 1074)), (pow_split (2 * prec) 1074) by lia. replace (2 * prec) with (prec + prec) by lia. rewrite (pow_split prec prec) by lia.
        apply Z.le_lt_trans with (m * 2 ^ (ex + 1074)); [apply Z.mul_le_mono_nonneg_r; lia|]. rewrite Nx.
        apply Z.mul_lt_mono_pos_r; [apply pow_pos; lia|]. apply Z.mul_lt_mono_nonneg; lia. }
      assert (d - 1 + (ex + 1074) < 2 * prec + 1074) by (apply (Z.pow_lt_mono_r_iff 2); lia).
      unfold e', fexp, emin. destruct (Z.odd (d + ex + 1)); lia. }
    assert (EQ : m * 2 ^ (ex - 2 * e') = (S * 2 ^ (- e')) * (S * 2 ^ (- e'))).
    { assert (P : 0 < 2 ^ 1074) by (apply pow_pos; lia).
      apply (Z.mul_cancel_r _ _ (2 ^ 1074)); [lia|].
      replace (S * 2 ^ (- e') * (S * 2 ^ (- e')) * 2 ^ 1074) with (S * S * 2 ^ 1074 * (2 ^ (- e') * 2 ^ (- e'))) by ring.
      rewrite <- Nx. rewrite <- pow_split by lia. rewrite <- !Z.mul_assoc. f_equal. rewrite <- !pow_split by lia. f_equal. lia. }
    rewrite EQ. set (q := S * 2 ^ (- e')) in *. pose proof (pow_pos (- e') ltac:(lia)) as PE. assert (Hq : 0 <= q) by (unfold q; nia).
    pose proof (Z.sqrtrem_spec (q * q) ltac:(nia)) as SP. destruct (Z.sqrtrem (q * q)) as [a b] eqn:Esr. destruct SP as [S1 S2].
    assert (a = q).
    { assert (EA : a = Z.sqrt (q * q)) by (rewrite <- Z.sqrtrem_sqrt, Esr; reflexivity). rewrite EA. apply Z.sqrt_square. exact Hq. }
    subst a. assert (b = 0) by lia. subst b. change (Zeq_bool 0 0) with true. cbv iota.
    rewrite EQ, Z.sqrt_square in B, C by exact Hq.
    pose proof (round_aux_rounded prec emax Hprec Hemax Hemin false q e' 1074 B ltac:(unfold emin; lia) ltac:(lia) C) as R. cbn [cond_Zopp] in R.
    assert (Eq' : q * 2 ^ (e' + 1074) = S * 2 ^ 1074).
    { unfold q. rewrite <- Z.mul_assoc, <- pow_split by lia. do 2 f_equal. lia. }
    destruct (int_exact prec emax Hprec Hemax Hemin 1074 (q * 2 ^ (e' + 1074)) _ S ltac:(unfold emin; lia) Eq' ltac:(lia) R) as [_ N].
    now rewrite sf_one_eq in N.
  Qed.
End Format.

Lemma fl_div_ok x y : fl_ok x -> fl_ok y -> fl_ok (fl_div x y).
Proof. apply div_ok; lia. Qed.
Lemma db_div_ok x y : db_ok x -> db_ok y -> db_ok (db_div x y).
Proof. apply div_ok; lia. Qed.
Lemma db_sqrt_ok x : db_ok x -> db_ok (db_sqrt x).
Proof. apply sqrt_ok; lia. Qed.
Lemma db_sqrt_int x S : 0 <= S < 9007199254740992 -> isint 53 1024 x (S * S) -> x <> S754_zero true -> isint 53 1024 (db_sqrt x) S.
Proof. intros H. apply sqrt_int; try lia. Qed.
Lemma fl_of_Z_valid z : fl_ok (fl_of_Z z).
Proof. eapply rounded_ok. apply (normalize_rounded 24 128 ltac:(lia) ltac:(lia) ltac:(lia) z 0 false 1074 ltac:(unfold emin; lia) ltac:(lia)). Qed.
Lemma fl_of_db_valid x : db_ok x -> fl_ok (fl_of_db x).
Proof.
  intros V. destruct x as [b|b| |b m e]; try reflexivity. pose proof (db_emin _ _ _ V) as He. eapply rounded_ok.
  apply (normalize_rounded 24 128 ltac:(lia) ltac:(lia) ltac:(lia) (cond_Zopp b (Zpos m)) e b 1074 ltac:(unfold emin; lia) ltac:(lia)).
Qed.
