(** * Facts about the floating-point operations (no axioms). *)
From Verif Require Import Base Logic ModelFloat SpecBase SpecNum.
From Coq Require Import Floats.SpecFloat ZifyBool ZifyNat.
Ltac Zify.zify_post_hook ::= Z.div_mod_to_equations.
Open Scope Z_scope.

Lemma pow_pos k : 0 <= k -> 0 < 2 ^ k.
Proof. intros. apply Z.pow_pos_nonneg; lia. Qed.
Lemma pow_split a b : 0 <= a -> 0 <= b -> 2 ^ (a + b) = 2 ^ a * 2 ^ b.
Proof. intros. now rewrite Z.pow_add_r. Qed.
Lemma pow_le a b : 0 <= a <= b -> 2 ^ a <= 2 ^ b.
Proof. intros. apply Z.pow_le_mono_r; lia. Qed.
Lemma pow_lt a b : 0 <= a < b -> 2 ^ a < 2 ^ b.
Proof. intros. apply Z.pow_lt_mono_r; lia. Qed.

Lemma pow_pred d : 0 < d -> 2 ^ d = 2 ^ (d - 1) * 2.
Proof. intros. replace d with ((d - 1) + 1) at 1 by lia. rewrite pow_split by lia. reflexivity. Qed.

(** ** Number of digits *)
Lemma digits2_bounds p :
  2 ^ (Zpos (digits2_pos p) - 1) <= Zpos p < 2 ^ (Zpos (digits2_pos p)).
Proof.
  induction p as [p IH|p IH|]; cbn [digits2_pos]; [| |cbn; lia].
  - rewrite Pos2Z.inj_succ. unfold Z.succ. set (d := Zpos (digits2_pos p)) in *.
    assert (0 < d) by (unfold d; lia).
    replace (d + 1 - 1) with ((d - 1) + 1) by lia. rewrite !pow_split by lia.
    change (2 ^ 1) with 2.
    pose proof (pow_pred d ltac:(lia)) as E.
    rewrite Pos2Z.inj_xI. lia.
  - rewrite Pos2Z.inj_succ. unfold Z.succ. set (d := Zpos (digits2_pos p)) in *.
    assert (0 < d) by (unfold d; lia).
    replace (d + 1 - 1) with ((d - 1) + 1) by lia. rewrite !pow_split by lia.
    change (2 ^ 1) with 2.
    pose proof (pow_pred d ltac:(lia)) as E.
    change (Zpos p~0) with (2 * Zpos p). lia.
Qed.

Lemma digits_bounds m : 0 < m -> 0 < Zdigits2 m /\ 2 ^ (Zdigits2 m - 1) <= m < 2 ^ Zdigits2 m.
Proof. destruct m as [|p|p]; intros; try lia. cbn [Zdigits2]. split; [lia|apply digits2_bounds]. Qed.

Lemma digits_unique m k : 0 < k -> 2 ^ (k - 1) <= m < 2 ^ k -> Zdigits2 m = k.
Proof.
  intros Hk Hm. assert (Hm0 : 0 < m) by (pose proof (pow_pos (k - 1) ltac:(lia)); lia).
  destruct (digits_bounds m Hm0) as [Hd Hb]. set (d := Zdigits2 m) in *.
  destruct (Z.lt_trichotomy d k) as [H|[H|H]]; auto.
  - pose proof (pow_le d (k - 1) ltac:(lia)). lia.
  - pose proof (pow_le k (d - 1) ltac:(lia)). lia.
Qed.

Lemma digits_le m k : 0 < m -> m < 2 ^ k -> Zdigits2 m <= k.
Proof.
  intros Hm Hk. destruct (digits_bounds m Hm) as [Hd Hb].
  destruct (Z_le_gt_dec (Zdigits2 m) k); auto. exfalso.
  destruct (Z_le_gt_dec 0 k).
  - pose proof (pow_le k (Zdigits2 m - 1) ltac:(lia)). lia.
  - rewrite Z.pow_neg_r in Hk by lia. lia.
Qed.

Lemma digits_mul m k : 0 < m -> 0 <= k -> Zdigits2 (m * 2 ^ k) = Zdigits2 m + k.
Proof.
  intros Hm Hk. destruct (digits_bounds m Hm) as [Hd Hb]. pose proof (pow_pos k Hk).
  apply digits_unique; [lia|].
  replace (Zdigits2 m + k - 1) with ((Zdigits2 m - 1) + k) by lia.
  rewrite !pow_split by lia. nia.
Qed.

Lemma shift_pos_mul d m : Zpos (shift_pos d m) = Zpos m * 2 ^ Zpos d.
Proof. rewrite shift_pos_correct. rewrite Z.mul_comm. reflexivity. Qed.

(** ** Locations: l describes the fraction r/D *)
Definition locs (l : location) (r D : Z) : Prop :=
  match l with
  | loc_Exact => r = 0
  | loc_Inexact Lt => 0 < r /\ 2 * r < D
  | loc_Inexact Eq => 2 * r = D
  | loc_Inexact Gt => D < 2 * r /\ r < D
  end.

Lemma locs_range l r D : 0 < D -> locs l r D -> 0 <= r < D.
Proof. destruct l as [|[]]; cbn [locs]; lia. Qed.

Lemma loc_of_record_of m l : loc_of_shr_record (shr_record_of_loc m l) = l.
Proof. destruct l as [|[]]; reflexivity. Qed.
Lemma shr_m_of m l : shr_m (shr_record_of_loc m l) = m.
Proof. destruct l as [|[]]; reflexivity. Qed.

Lemma shr_1_spec x r D : 0 < D -> 0 <= shr_m x -> locs (loc_of_shr_record x) r D ->
  shr_m (shr_1 x) = shr_m x / 2
  /\ locs (loc_of_shr_record (shr_1 x)) (shr_m x mod 2 * D + r) (D * 2).
Proof.
  intros HD Hm HL. destruct x as [m a b]. cbn [shr_m] in *.
  assert (Hr : 0 <= r < D) by (eapply locs_range; eauto).
  assert (E : shr_1 (Build_shr_record m a b) = Build_shr_record (m / 2) (Z.odd m) (a || b)).
  { destruct m as [|[p|p|]|p]; try lia; cbn [shr_1 Z.odd]; f_equal.
    - rewrite Pos2Z.inj_xI. lia.
    - change (Zpos p~0) with (2 * Zpos p). lia. }
  rewrite E. cbn [shr_m]. split; [reflexivity|].
  rewrite Zmod_odd. destruct (Z.odd m), a, b; cbn [loc_of_shr_record locs orb] in HL |- *; lia.
Qed.

Lemma iter_nat_shr n x r D : 0 < D -> 0 <= shr_m x -> locs (loc_of_shr_record x) r D ->
  shr_m (Nat.iter n shr_1 x) = shr_m x / 2 ^ Z.of_nat n
  /\ locs (loc_of_shr_record (Nat.iter n shr_1 x)) (shr_m x mod 2 ^ Z.of_nat n * D + r) (D * 2 ^ Z.of_nat n).
Proof.
  intros HD Hm HL. induction n as [|n [IH1 IH2]].
  - cbn. rewrite Z.div_1_r, Z.mod_1_r. split; auto. now rewrite Z.mul_1_r.
  - change (Nat.iter (S n) shr_1 x) with (shr_1 (Nat.iter n shr_1 x)).
    set (y := Nat.iter n shr_1 x) in *.
    assert (Hp : 0 < 2 ^ Z.of_nat n) by (apply pow_pos; lia).
    set (P := 2 ^ Z.of_nat n) in *.
    assert (EP : 2 ^ Z.of_nat (S n) = P * 2).
    { rewrite Nat2Z.inj_succ. unfold Z.succ. rewrite pow_split by lia. reflexivity. }
    assert (Hy : 0 <= shr_m y) by (rewrite IH1; apply Z.div_pos; lia).
    assert (HD' : 0 < D * P) by nia.
    destruct (shr_1_spec y _ _ HD' Hy IH2) as [A B].
    rewrite EP. split.
    + rewrite A, IH1. rewrite Z.div_div by lia. reflexivity.
    + rewrite IH1 in B.
      replace (shr_m x mod (P * 2) * D + r)
        with ((shr_m x / P) mod 2 * (D * P) + (shr_m x mod P * D + r)).
      { replace (D * (P * 2)) with (D * P * 2) by ring. exact B. }
      rewrite (Z.rem_mul_r (shr_m x) P 2) by lia. ring.
Qed.

Lemma iter_nat_add {A} (f : A -> A) n m x : Nat.iter (n + m) f x = Nat.iter n f (Nat.iter m f x).
Proof. induction n as [|n IH]; [reflexivity|]. cbn. now f_equal. Qed.

Lemma iter_pos_nat {A} (f : A -> A) p x : iter_pos f p x = Nat.iter (Pos.to_nat p) f x.
Proof.
  revert x. induction p as [p IH|p IH|]; intros x; cbn [iter_pos].
  - rewrite !IH. change (f x) with (Nat.iter 1 f x). rewrite <- !iter_nat_add. f_equal. lia.
  - rewrite !IH. rewrite <- iter_nat_add. f_equal. lia.
  - reflexivity.
Qed.

(** Shifting by n >= 0 places. *)
Lemma shr_spec m l e n r D : 0 < D -> 0 <= m -> locs l r D -> 0 <= n ->
  exists x, shr (shr_record_of_loc m l) e n = (x, e + n)
    /\ shr_m x = m / 2 ^ n /\ locs (loc_of_shr_record x) (m mod 2 ^ n * D + r) (D * 2 ^ n).
Proof.
  intros HD Hm HL Hn.
  destruct n as [|p|p]; [| |lia].
  - cbn [shr]. exists (shr_record_of_loc m l). rewrite Z.add_0_r. split; auto.
    rewrite shr_m_of, loc_of_record_of. change (2 ^ 0) with 1.
    rewrite Z.div_1_r, Z.mod_1_r. split; auto. now rewrite Z.mul_1_r.
  - cbn [shr]. eexists. split; [reflexivity|]. rewrite iter_pos_nat.
    destruct (iter_nat_shr (Pos.to_nat p) (shr_record_of_loc m l) r D) as [A B]; auto.
    { now rewrite shr_m_of. }
    { now rewrite loc_of_record_of. }
    rewrite shr_m_of in *. rewrite positive_nat_Z in *. auto.
Qed.

Lemma shr_none m l e n : n <= 0 -> shr (shr_record_of_loc m l) e n = (shr_record_of_loc m l, e).
Proof. destruct n; intros; try lia; reflexivity. Qed.

(** ** Rounding to nearest, ties to even *)
Definition rne (a b : Z) : Z :=
  let q := a / b in let r := a mod b in
  if (2 * r <? b) || ((2 * r =? b) && Z.even q) then q else q + 1.

Lemma rne_nearest a b : 0 < b -> nearest_even a b (rne a b).
Proof.
  intros Hb. unfold nearest_even, rne. pose proof (Z.div_mod a b ltac:(lia)) as E.
  pose proof (Z.mod_pos_bound a b Hb) as Hr. set (q := a / b) in *. set (r := a mod b) in *.
  destruct ((2 * r <? b) || ((2 * r =? b) && Z.even q)) eqn:C.
  - replace (a - q * b) with r by lia. rewrite Z.abs_eq by lia. split; [lia|]. intros. destruct (Z.even q); auto. lia.
  - replace (a - (q + 1) * b) with (r - b) by lia. rewrite Z.abs_neq by lia.
    split; [lia|]. intros. assert (2 * r = b) by lia.
    rewrite Z.add_1_r, Z.even_succ, <- Z.negb_even. destruct (Z.even q); auto. lia.
Qed.

Lemma nearest_even_unique n d y z : 0 < d -> nearest_even n d y -> nearest_even n d z -> y = z.
Proof.
  intros Hd [A1 A2] [B1 B2].
  destruct (Z.eq_dec y z); auto. exfalso.
  assert (Z.abs (y - z) * d <= d).
  { replace (Z.abs (y - z) * d) with (Z.abs ((n - z * d) - (n - y * d))).
    - lia.
    - replace (n - z * d - (n - y * d)) with ((y - z) * d) by ring. rewrite Z.abs_mul, (Z.abs_eq d); lia. }
  assert (Z.abs (y - z) = 1) by nia.
  assert (2 * Z.abs (n - y * d) = d /\ 2 * Z.abs (n - z * d) = d) as [Hy Hz].
  { assert (y = z + 1 \/ z = y + 1) as [-> | ->] by lia.
    - replace (n - (z + 1) * d) with (n - z * d - d) in * by ring. lia.
    - replace (n - (y + 1) * d) with (n - y * d - d) in * by ring. lia. }
  specialize (A2 Hy). specialize (B2 Hz).
  assert (y = z + 1 \/ z = y + 1) as [-> | ->] by lia.
  - rewrite Z.add_1_r, Z.even_succ, <- Z.negb_even in A2. rewrite B2 in A2. discriminate.
  - rewrite Z.add_1_r, Z.even_succ, <- Z.negb_even in B2. rewrite A2 in B2. discriminate.
Qed.

Lemma rne_exact a b : 0 < b -> rne (a * b) b = a.
Proof.
  intros Hb. unfold rne. rewrite Z.div_mul, Z.mod_mul by lia. cbn [Z.mul].
  replace (0 <? b) with true by lia. reflexivity.
Qed.

Lemma rne_scale a b k : 0 < b -> 0 < k -> rne (a * k) (b * k) = rne a b.
Proof.
  intros Hb Hk. apply (nearest_even_unique (a * k) (b * k)); [nia|apply rne_nearest; nia|].
  destruct (rne_nearest a b Hb) as [A1 A2]. set (q := rne a b) in *. unfold nearest_even.
  replace (a * k - q * (b * k)) with ((a - q * b) * k) by ring.
  rewrite Z.abs_mul, (Z.abs_eq k) by lia. split; [nia|]. intros. apply A2. nia.
Qed.

Lemma rne_opp a b : 0 < b -> rne (- a) b = - rne a b.
Proof.
  intros Hb. apply (nearest_even_unique (- a) b); auto; [apply rne_nearest; auto|].
  destruct (rne_nearest a b Hb) as [A1 A2]. unfold nearest_even.
  replace (- a - - rne a b * b) with (- (a - rne a b * b)) by ring. rewrite Z.abs_opp.
  split; auto. intros H. rewrite Z.even_opp. auto.
Qed.

Lemma rne_mono a a' b : 0 < b -> a <= a' -> rne a b <= rne a' b.
Proof.
  intros Hb H. unfold rne.
  pose proof (Z.div_mod a b ltac:(lia)) as E1. pose proof (Z.mod_pos_bound a b Hb) as R1.
  pose proof (Z.div_mod a' b ltac:(lia)) as E2. pose proof (Z.mod_pos_bound a' b Hb) as R2.
  pose proof (Z.div_le_mono a a' b Hb H) as Q.
  set (q := a / b) in *. set (r := a mod b) in *. set (q' := a' / b) in *. set (r' := a' mod b) in *.
  destruct (Z.eq_dec q q') as [Eq|].
  - rewrite Eq in *. assert (r <= r') by lia.
    destruct (Z.even q'); destruct (2 * r <? b) eqn:C1, (2 * r =? b) eqn:C2, (2 * r' <? b) eqn:C3, (2 * r' =? b) eqn:C4; cbn; lia.
  - destruct ((2 * r <? b) || ((2 * r =? b) && Z.even q)), ((2 * r' <? b) || ((2 * r' =? b) && Z.even q')); lia.
Qed.

Lemma rne_bounds a b lo hi : 0 < b -> lo * b <= a <= hi * b -> lo <= rne a b <= hi.
Proof.
  intros Hb [H1 H2]. apply (rne_mono _ _ b Hb) in H1, H2. rewrite rne_exact in H1, H2 by auto. lia.
Qed.

Lemma round_loc m l r D : 0 < D -> locs l r D -> round_nearest_even m l = rne (m * D + r) D.
Proof.
  intros HD HL. pose proof (locs_range _ _ _ HD HL) as Hr.
  unfold rne. replace ((m * D + r) / D) with m.
  2:{ rewrite Z.add_comm, Z.div_add by lia. rewrite Z.div_small by lia. lia. }
  replace ((m * D + r) mod D) with r.
  2:{ rewrite Z.add_comm, Z.mod_add by lia. rewrite Z.mod_small; lia. }
  destruct l as [|[]]; cbn [locs round_nearest_even] in HL |- *.
  - replace (2 * r <? D) with true by lia. reflexivity.
  - replace (2 * r =? D) with true by lia. replace (2 * r <? D) with false by lia. cbn.
    destruct (Z.even m); reflexivity.
  - replace (2 * r <? D) with true by lia. reflexivity.
  - replace (2 * r <? D) with false by lia. replace (2 * r =? D) with false by lia. reflexivity.
Qed.

(** ** Rounding of a positive number to the format *)
Section Format.
  Variables prec emax : Z.
  Hypotheses (Hprec : 1 < prec) (Hemax : prec < emax) (Hemin : -1074 <= 3 - emax - prec).

  (** x is the result of rounding to q * 2^f (sign s), overflowing to infinity. *)
  Definition rounds (s : bool) (q f : Z) (x : sf) : Prop :=
    if q * 2 ^ (f + 1074) <? 2 ^ (emax + 1074) then
      valid_binary prec emax x = true
      /\ sf_num x = Some (cond_Zopp s q * 2 ^ (f + 1074))
      /\ (q = 0 -> x = S754_zero s)
    else x = S754_infinity s.

  Lemma fexp_min e : emin prec emax <= fexp prec emax e.
  Proof. unfold fexp. lia. Qed.

  (** Packing a canonical mantissa. *)
  Lemma pack s m e : 0 < m -> emin prec emax <= e -> fexp prec emax (Zdigits2 m + e) = e ->
    rounds s m e
      (match m with
       | Z0 => S754_zero s
       | Zpos m => if Zle_bool e (emax - prec) then S754_finite s m e else S754_infinity s
       | Zneg _ => S754_nan
       end).
  Proof.
    intros Hm He Hc. destruct m as [|m|m]; try lia.
    destruct (digits_bounds _ Hm) as [Hd Hb]. set (d := Zdigits2 (Zpos m)) in *.
    assert (He' : 0 <= e + 1074) by (unfold emin in He; lia).
    pose proof (pow_pos _ He') as HP.
    assert (Hdp : d <= prec) by (unfold fexp in Hc; lia).
    unfold rounds. destruct (Z.leb_spec e (emax - prec)) as [Hle|Hgt].
    - replace (Zpos m * 2 ^ (e + 1074) <? 2 ^ (emax + 1074)) with true.
      2:{ symmetry. apply Z.ltb_lt. apply Z.lt_le_trans with (2 ^ d * 2 ^ (e + 1074)); [nia|].
          rewrite <- pow_split by lia. apply pow_le. lia. }
      split; [|split; [reflexivity|lia]].
      cbn [valid_binary]. unfold bounded, canonical_mantissa.
      change (Zpos (digits2_pos m)) with d. rewrite Hc.
      rewrite Zeq_is_eq_bool in *. unfold Zeq_bool. rewrite Z.compare_refl.
      cbn. apply Z.leb_le. lia.
    - replace (Zpos m * 2 ^ (e + 1074) <? 2 ^ (emax + 1074)) with false; [reflexivity|].
      symmetry. apply Z.ltb_ge.
      assert (d = prec) by (unfold fexp, emin in *; lia).
      apply Z.le_trans with (2 ^ (d - 1) * 2 ^ (e + 1074)); [|nia].
      rewrite <- pow_split by lia. apply pow_le. lia.
  Qed.

  Lemma round_aux s M e l r D : 0 < D -> 0 < M -> locs l r D ->
    e <= fexp prec emax (Zdigits2 M + e) ->
    let f := fexp prec emax (Zdigits2 M + e) in
    rounds s (rne (M * D + r) (D * 2 ^ (f - e))) f (binary_round_aux prec emax s M e l).
  Proof.
    intros HD HM HL Hfe f. fold f in Hfe.
    destruct (digits_bounds _ HM) as [Hd Hb]. set (d := Zdigits2 M) in *.
    pose proof (locs_range _ _ _ HD HL) as Hr.
    assert (Hf : emin prec emax <= f) by apply fexp_min.
    unfold binary_round_aux, shr_fexp. fold d f.
    destruct (shr_spec M l e (f - e) r D HD ltac:(lia) HL ltac:(lia)) as (x1 & E1 & Em & El).
    rewrite E1. replace (e + (f - e)) with f by lia.
    set (n := f - e) in *. pose proof (pow_pos n ltac:(lia)) as HP.
    assert (HDP : 0 < D * 2 ^ n) by nia.
    rewrite (round_loc _ _ _ _ HDP El), Em.
    assert (EM : M / 2 ^ n * (D * 2 ^ n) + (M mod 2 ^ n * D + r) = M * D + r).
    { pose proof (Z.div_mod M (2 ^ n) ltac:(lia)). nia. }
    rewrite EM. set (q := rne (M * D + r) (D * 2 ^ n)).
    assert (Hq : 0 <= q <= 2 ^ prec).
    { apply rne_bounds; auto. split; [nia|].
      assert (2 ^ d <= 2 ^ prec * 2 ^ n).
      { rewrite <- pow_split by lia. apply pow_le. unfold n, f, fexp in *. lia. }
      nia. }
    assert (Hlow : emin prec emax < f -> 2 ^ (prec - 1) <= q).
    { intros Hlt. assert (Efd : f = d + e - prec) by (unfold f, fexp in *; lia).
      assert (Hn : n = d - prec) by (unfold n; lia).
      assert (H1 : 2 ^ (prec - 1) * 2 ^ n <= M).
      { rewrite <- pow_split by lia. replace (prec - 1 + n) with (d - 1) by lia. lia. }
      assert (H2 : rne (2 ^ (prec - 1) * (D * 2 ^ n)) (D * 2 ^ n) <= q).
      { apply rne_mono; auto. nia. }
      rewrite rne_exact in H2 by auto. exact H2. }
    clearbody q. clear E1 Em El EM HL Hr.
    destruct (Z.eq_dec q 0) as [-> | Hq0].
    { cbn [Zdigits2]. rewrite shr_none by (unfold fexp in *; lia). cbn [shr_record_of_loc shr_m].
      unfold rounds. rewrite Z.mul_0_l.
      pose proof (pow_pos (emax + 1074) ltac:(lia)).
      replace (0 <? 2 ^ (emax + 1074)) with true by lia.
      split; [reflexivity|]. split; [|reflexivity]. destruct s; reflexivity. }
    destruct (Z.eq_dec q (2 ^ prec)) as [Eq | Hq1].
    - assert (Edq : Zdigits2 q = prec + 1).
      { apply digits_unique; [lia|]. replace (prec + 1 - 1) with prec by lia. rewrite Eq.
        rewrite pow_split by lia. change (2 ^ 1) with 2. pose proof (pow_pos prec ltac:(lia)). lia. }
      rewrite Edq. assert (Ef : fexp prec emax (prec + 1 + f) - f = 1) by (unfold fexp in *; lia).
      rewrite Ef.
      destruct (shr_spec q loc_Exact f 1 0 1 ltac:(lia) ltac:(lia) eq_refl ltac:(lia)) as (x2 & E2 & Em2 & _).
      rewrite E2, Em2. change (2 ^ 1) with 2.
      assert (Eh : q / 2 = 2 ^ (prec - 1)).
      { rewrite Eq, (pow_pred prec) by lia. rewrite Z.div_mul; lia. }
      rewrite Eh.
      assert (Hpp : 0 < 2 ^ (prec - 1)) by (apply pow_pos; lia).
      assert (Edh : Zdigits2 (2 ^ (prec - 1)) = prec).
      { apply digits_unique; [lia|]. split; [lia|]. apply pow_lt; lia. }
      pose proof (pack s (2 ^ (prec - 1)) (f + 1) Hpp ltac:(lia)) as PK.
      rewrite Edh in PK. specialize (PK ltac:(unfold fexp in *; lia)).
      unfold rounds in PK |- *.
      assert (EV : 2 ^ (prec - 1) * 2 ^ (f + 1 + 1074) = q * 2 ^ (f + 1074)).
      { rewrite Eq, (pow_pred prec) by lia. replace (f + 1 + 1074) with ((f + 1074) + 1) by lia.
        rewrite (pow_split (f + 1074) 1) by (unfold emin in *; lia). change (2 ^ 1) with 2. ring. }
      rewrite EV in PK. destruct (q * 2 ^ (f + 1074) <? 2 ^ (emax + 1074)); [|exact PK].
      destruct PK as (P1 & P2 & P3). split; [exact P1|]. split; [|intros; lia].
      rewrite P2. f_equal. destruct s; cbn [cond_Zopp]; rewrite ?Z.mul_opp_l; congruence.
    - assert (Hq2 : 0 < q < 2 ^ prec) by lia.
      pose proof (digits_le q prec ltac:(lia) ltac:(lia)) as Hdq.
      rewrite shr_none by (unfold fexp in *; lia). rewrite shr_m_of.
      apply pack; [lia|auto|].
      destruct (Z.eq_dec f (emin prec emax)) as [Ef|Ef].
      + unfold fexp. lia.
      + assert (Edq : Zdigits2 q = prec).
        { apply digits_unique; [lia|]. split; [apply Hlow; lia|lia]. }
        rewrite Edq. unfold fexp. lia.
  Qed.

  (** The number A / 2^k rounded to the format, in units of 2^-1074. *)
  Definition rexp (k A : Z) : Z := fexp prec emax (Zdigits2 A - k).
  Definition rnd (k A : Z) : Z := rne A (2 ^ (rexp k A + k)) * 2 ^ (rexp k A + 1074).

  Lemma digits_opp A : Zdigits2 (- A) = Zdigits2 A.
  Proof. destruct A; reflexivity. Qed.
  Lemma rexp_opp k A : rexp k (- A) = rexp k A.
  Proof. unfold rexp. now rewrite digits_opp. Qed.
  Lemma rexp_ge k A : emin prec emax <= rexp k A.
  Proof. apply fexp_min. Qed.
  Lemma rnd_opp k A : - emin prec emax <= k -> rnd k (- A) = - rnd k A.
  Proof.
    intros Hk. unfold rnd. rewrite rexp_opp, rne_opp; [ring|]. apply pow_pos.
    pose proof (rexp_ge k A). lia.
  Qed.
  Lemma rnd_0 k : - emin prec emax <= k -> rnd k 0 = 0.
  Proof.
    intros Hk. unfold rnd. pose proof (rexp_ge k 0).
    replace 0 with (0 * 2 ^ (rexp k 0 + k)) at 1 by ring.
    rewrite rne_exact; [ring|]. apply pow_pos; lia.
  Qed.

  (** What a rounding operation returns for the exact value A / 2^k. *)
  Definition rounded (k A : Z) (x : sf) : Prop :=
    if Z.abs (rnd k A) <? 2 ^ (emax + 1074) then
      valid_binary prec emax x = true /\ sf_num x = Some (rnd k A)
    else x = S754_infinity (A <? 0).

  Lemma rounds_rounded s q f x k A : 0 <= k + emin prec emax -> 0 < A -> f = rexp k A -> q = rne A (2 ^ (f + k)) ->
    rounds s q f x -> rounded k (cond_Zopp s A) x.
  Proof.
    intros Hk HA -> -> H. pose proof (rexp_ge k A) as Hr. unfold emin in *.
    assert (Hq : 0 <= rne A (2 ^ (rexp k A + k))).
    { assert (E : rne (0 * 2 ^ (rexp k A + k)) (2 ^ (rexp k A + k)) <= rne A (2 ^ (rexp k A + k))).
      { apply rne_mono; [apply pow_pos; lia|lia]. }
      rewrite rne_exact in E by (apply pow_pos; lia). exact E. }
    pose proof (pow_pos (rexp k A + 1074) ltac:(lia)) as HP.
    unfold rounded.
    assert (ER : rnd k (cond_Zopp s A) = cond_Zopp s (rnd k A)).
    { destruct s; cbn [cond_Zopp]; auto. apply rnd_opp. unfold emin. lia. }
    rewrite ER. replace (Z.abs (cond_Zopp s (rnd k A))) with (rnd k A).
    2:{ destruct s; cbn [cond_Zopp]; rewrite ?Z.abs_opp, Z.abs_eq; auto; unfold rnd; nia. }
    unfold rounds in H. change (rne A (2 ^ (rexp k A + k)) * 2 ^ (rexp k A + 1074)) with (rnd k A) in H.
    destruct (rnd k A <? 2 ^ (emax + 1074)).
    - destruct H as (V & N & _). split; auto. rewrite N. f_equal.
      unfold rnd. destruct s; cbn [cond_Zopp]; ring.
    - rewrite H. f_equal. destruct s; cbn [cond_Zopp]; lia.
  Qed.

  Lemma zpos_neq p : Zpos p <> 0. Proof. lia. Qed.

  (** A positive integer times a power of two, rounded. *)
  Lemma round_aux_rounded s M e k : 0 < M -> 0 <= k + emin prec emax -> - k <= e ->
    e <= fexp prec emax (Zdigits2 M + e) ->
    rounded k (cond_Zopp s (M * 2 ^ (e + k))) (binary_round_aux prec emax s M e loc_Exact).
  Proof.
    intros HM Hk He Hfe.
    pose proof (pow_pos (e + k) ltac:(lia)) as HP.
    assert (Ef : rexp k (M * 2 ^ (e + k)) = fexp prec emax (Zdigits2 M + e)).
    { unfold rexp. rewrite digits_mul by lia. f_equal. lia. }
    pose proof (fexp_min (Zdigits2 M + e)) as Hmin.
    eapply rounds_rounded; [exact Hk|nia|symmetry; exact Ef| |].
    2:{ apply (round_aux s M e loc_Exact 0 1); auto; [lia|reflexivity]. }
    replace (M * 1 + 0) with M by ring. rewrite Z.mul_1_l.
    set (f := fexp prec emax (Zdigits2 M + e)) in *.
    rewrite <- (rne_scale M (2 ^ (f - e)) (2 ^ (e + k))); [|apply pow_pos; lia|exact HP].
    f_equal. rewrite <- pow_split by lia. f_equal. lia.
  Qed.

  Lemma binary_round_rounded s m e k : 0 <= k + emin prec emax -> - k <= e ->
    rounded k (cond_Zopp s (Zpos m * 2 ^ (e + k))) (binary_round prec emax s m e).
  Proof.
    intros Hk He. unfold binary_round, shl_align.
    change (Zpos (digits2_pos m)) with (Zdigits2 (Zpos m)).
    set (f := fexp prec emax (Zdigits2 (Zpos m) + e)).
    pose proof (fexp_min (Zdigits2 (Zpos m) + e)) as Hmin. fold f in Hmin.
    destruct (f - e) as [|d|d] eqn:E.
    - apply round_aux_rounded; auto; lia.
    - apply round_aux_rounded; auto; lia.
    - assert (Efe : e = f + Zpos d) by lia.
      assert (EM : Zpos (shift_pos d m) = Zpos m * 2 ^ Zpos d) by apply shift_pos_mul.
      replace (Zpos m * 2 ^ (e + k)) with (Zpos (shift_pos d m) * 2 ^ (f + k)).
      2:{ rewrite EM, <- Z.mul_assoc, <- pow_split by lia. do 2 f_equal. lia. }
      apply round_aux_rounded; auto; [lia..|].
      rewrite EM, digits_mul by lia.
      replace (Zdigits2 (Zpos m) + Zpos d + f) with (Zdigits2 (Zpos m) + e) by lia. fold f. lia.
  Qed.

  Lemma normalize_rounded z e b k : 0 <= k + emin prec emax -> - k <= e ->
    rounded k (z * 2 ^ (e + k)) (binary_normalize prec emax z e b).
  Proof.
    intros Hk He. destruct z as [|m|m].
    - unfold rounded. rewrite Z.mul_0_l, rnd_0 by lia. cbn [Z.abs].
      pose proof (pow_pos (emax + 1074) ltac:(lia)). replace (0 <? 2 ^ (emax + 1074)) with true by lia.
      split; reflexivity.
    - apply (binary_round_rounded false); auto.
    - pose proof (binary_round_rounded true m e k Hk He) as H. cbn [cond_Zopp] in H.
      replace (Zneg m * 2 ^ (e + k)) with (- (Zpos m * 2 ^ (e + k))) by (rewrite <- Z.mul_opp_l; reflexivity).
      exact H.
  Qed.

  (** Exactly representable values are not changed by rounding. *)
  Lemma rnd_exact_pos k A w g : 0 < A -> 0 <= k + emin prec emax -> emin prec emax <= g ->
    A = w * 2 ^ (g + k) -> w <= 2 ^ prec -> rnd k A = w * 2 ^ (g + 1074).
  Proof.
    intros HA Hk Hg EA Hw. assert (Hgk : 0 <= g + k) by lia.
    pose proof (pow_pos _ Hgk) as HP. assert (Hw0 : 0 < w) by nia.
    assert (H74 : 0 <= emin prec emax + 1074) by (unfold emin; lia).
    assert (Hr : rexp k A <= g \/ (w = 2 ^ prec /\ rexp k A = g + 1)).
    { unfold rexp, fexp. rewrite EA, digits_mul by lia.
      destruct (Z.eq_dec w (2 ^ prec)) as [Ew|Ew].
      - right. split; auto. assert (Zdigits2 w = prec + 1); [|lia].
        apply digits_unique; [lia|]. replace (prec + 1 - 1) with prec by lia. rewrite Ew.
        rewrite pow_split by lia. change (2 ^ 1) with 2. pose proof (pow_pos prec ltac:(lia)). lia.
      - left. pose proof (digits_le w prec Hw0 ltac:(lia)). lia. }
    pose proof (rexp_ge k A) as Hge. unfold rnd. set (f := rexp k A) in *.
    destruct Hr as [Hr|[Ew Hr]].
    - assert (EB : A = (w * 2 ^ (g - f)) * 2 ^ (f + k)).
      { rewrite EA, <- Z.mul_assoc, <- pow_split by lia. do 2 f_equal. lia. }
      rewrite EB, rne_exact by (apply pow_pos; lia).
      rewrite <- Z.mul_assoc, <- pow_split by lia. do 2 f_equal. lia.
    - assert (EB : A = 2 ^ (prec - 1) * 2 ^ (f + k)).
      { rewrite EA, Ew, <- !pow_split by lia. f_equal. lia. }
      rewrite EB, rne_exact by (apply pow_pos; lia).
      rewrite Ew, <- !pow_split by lia. f_equal. lia.
  Qed.

  Lemma rnd_exact k A w g : 0 <= k + emin prec emax -> emin prec emax <= g ->
    A = w * 2 ^ (g + k) -> Z.abs w <= 2 ^ prec -> rnd k A = w * 2 ^ (g + 1074).
  Proof.
    intros Hk Hg EA Hw. pose proof (pow_pos (g + k) ltac:(lia)) as HP.
    destruct (Z.lt_trichotomy w 0) as [H|[H|H]].
    - replace A with (- - A) by ring. rewrite rnd_opp by lia.
      rewrite (rnd_exact_pos k (- A) (- w) g); try lia; nia.
    - subst w. replace A with 0 by nia. rewrite rnd_0 by lia. ring.
    - apply rnd_exact_pos; auto; lia || nia.
  Qed.

  (** The error of rounding is at most half a unit in the last place. *)
  Lemma rnd_error A : 2 * Z.abs (rnd 1074 A - A) <= 2 ^ (rexp 1074 A + 1074).
  Proof.
    pose proof (rexp_ge 1074 A). unfold emin in *. pose proof (pow_pos (rexp 1074 A + 1074) ltac:(lia)) as HP.
    destruct (rne_nearest A _ HP) as [E _]. unfold rnd. rewrite <- Z.abs_opp in E.
    replace (- (A - rne A (2 ^ (rexp 1074 A + 1074)) * 2 ^ (rexp 1074 A + 1074)))
      with (rne A (2 ^ (rexp 1074 A + 1074)) * 2 ^ (rexp 1074 A + 1074) - A) in E by ring.
    exact E.
  Qed.

  (** Canonical numbers are ordered as the comparison says. *)
  Lemma valid_finite s m e : valid_binary prec emax (S754_finite s m e) = true ->
    emin prec emax <= e <= emax - prec /\ fexp prec emax (Zdigits2 (Zpos m) + e) = e.
  Proof.
    cbn [valid_binary]. unfold bounded, canonical_mantissa. intros H. apply andb_prop in H as [H1 H2].
    apply Zeq_bool_eq in H1. apply Zle_bool_imp_le in H2.
    change (Zpos (digits2_pos m)) with (Zdigits2 (Zpos m)) in H1. split; auto. split; auto.
    rewrite <- H1. apply fexp_min.
  Qed.

  Lemma canonical_lt m e m' e' : emin prec emax <= e -> e < e' ->
    fexp prec emax (Zdigits2 (Zpos m) + e) = e ->
    fexp prec emax (Zdigits2 (Zpos m') + e') = e' ->
    Zpos m * 2 ^ (e + 1074) < Zpos m' * 2 ^ (e' + 1074).
  Proof.
    intros Hmin Hlt Hc Hc'.
    destruct (digits_bounds (Zpos m) ltac:(lia)) as [Hd Hb].
    destruct (digits_bounds (Zpos m') ltac:(lia)) as [Hd' Hb'].
    set (d := Zdigits2 (Zpos m)) in *. set (d' := Zdigits2 (Zpos m')) in *.
    unfold fexp, emin in *.
    assert (d <= prec) by lia. assert (d' = prec) by lia.
    pose proof (pow_pos (e + 1074) ltac:(lia)). pose proof (pow_pos (e' + 1074) ltac:(lia)).
    apply Z.lt_le_trans with (2 ^ d * 2 ^ (e + 1074)); [nia|].
    apply Z.le_trans with (2 ^ (d' - 1) * 2 ^ (e' + 1074)); [|nia].
    rewrite <- !pow_split by lia. apply pow_le. lia.
  Qed.

  Lemma compare_num x y a b : valid_binary prec emax x = true -> valid_binary prec emax y = true ->
    sf_num x = Some a -> sf_num y = Some b -> SFcompare x y = Some (Z.compare a b).
  Proof.
    intros Vx Vy Na Nb.
    destruct x as [sx| | |sx mx ex]; try discriminate Na; destruct y as [sy| | |sy my ey]; try discriminate Nb;
      cbn [sf_num] in Na, Nb; injection Na as <-; injection Nb as <-; cbn [SFcompare]; f_equal.
    - apply valid_finite in Vy as [Vy _]. unfold emin in Vy. pose proof (pow_pos (ey + 1074) ltac:(lia)).
      destruct sy; cbn [cond_Zopp]; symmetry; [apply Z.compare_gt_iff | apply Z.compare_lt_iff]; nia.
    - apply valid_finite in Vx as [Vx _]. unfold emin in Vx. pose proof (pow_pos (ex + 1074) ltac:(lia)).
      destruct sx; cbn [cond_Zopp]; symmetry; [apply Z.compare_lt_iff | apply Z.compare_gt_iff]; nia.
    - apply valid_finite in Vx as [Vx Cx]. apply valid_finite in Vy as [Vy Cy].
      assert (Hx : 0 < 2 ^ (ex + 1074)) by (apply pow_pos; unfold emin in Vx; lia).
      assert (Hy : 0 < 2 ^ (ey + 1074)) by (apply pow_pos; unfold emin in Vy; lia).
      assert (P : (match Z.compare ex ey with Lt => Lt | Gt => Gt | Eq => Pos.compare mx my end)
                  = Z.compare (Zpos mx * 2 ^ (ex + 1074)) (Zpos my * 2 ^ (ey + 1074))).
      { destruct (Z.compare_spec ex ey) as [E|E|E].
        - subst ey. destruct (Pos.compare_spec mx my) as [E|E|E]; symmetry.
          + subst my. apply Z.compare_refl.
          + apply Z.compare_lt_iff. nia.
          + apply Z.compare_gt_iff. nia.
        - symmetry. apply Z.compare_lt_iff. apply canonical_lt; auto; lia.
        - symmetry. apply Z.compare_gt_iff. apply canonical_lt; auto; lia. }
      destruct sx, sy; cbn [cond_Zopp].
      + rewrite !Z.mul_opp_l.
        assert (EC : forall u v, (- u ?= - v) = CompOpp (u ?= v)).
        { intros u v. destruct (Z.compare_spec u v), (Z.compare_spec (- u) (- v)); try lia; reflexivity. }
        rewrite EC, <- P. destruct (Z.compare ex ey); reflexivity.
      + symmetry. apply Z.compare_lt_iff. nia.
      + symmetry. apply Z.compare_gt_iff. nia.
      + exact P.
  Qed.

  (** Two numbers with the same nonzero value are the same. *)
  Lemma num_inj x y a : valid_binary prec emax x = true -> valid_binary prec emax y = true ->
    sf_num x = Some a -> sf_num y = Some a -> a <> 0 -> x = y.
  Proof.
    intros Vx Vy Na Nb Ha.
    destruct x as [sx| | |sx mx ex]; try discriminate Na; destruct y as [sy| | |sy my ey]; try discriminate Nb;
      cbn [sf_num] in Na, Nb; injection Na as Na; injection Nb as Nb; try congruence.
    apply valid_finite in Vx as [Vx Cx]. apply valid_finite in Vy as [Vy Cy].
    assert (Hx : 0 < 2 ^ (ex + 1074)) by (apply pow_pos; unfold emin in Vx; lia).
    assert (Hy : 0 < 2 ^ (ey + 1074)) by (apply pow_pos; unfold emin in Vy; lia).
    assert (Es : sx = sy) by (destruct sx, sy; cbn [cond_Zopp] in *; auto; nia).
    assert (Em : Zpos mx * 2 ^ (ex + 1074) = Zpos my * 2 ^ (ey + 1074))
      by (destruct sx, sy; cbn [cond_Zopp] in *; try discriminate; nia).
    assert (Ee : ex = ey).
    { destruct (Z.lt_trichotomy ex ey) as [H|[H|H]]; auto.
      - pose proof (canonical_lt mx ex my ey ltac:(lia) H Cx Cy). lia.
      - pose proof (canonical_lt my ey mx ex ltac:(lia) H Cy Cx). lia. }
    subst ey. assert (mx = my) by nia. congruence.
  Qed.

  (** Addition, subtraction, multiplication: the exact result, rounded. *)
  Lemma shl_align_fst m e e' : e' <= e -> Zpos (fst (shl_align m e e')) = Zpos m * 2 ^ (e - e').
  Proof.
    intros H. unfold shl_align. destruct (e' - e) as [|d|d] eqn:E; [| lia |].
    - replace (e - e') with 0 by lia. cbn. lia.
    - cbn [fst]. rewrite shift_pos_mul. do 2 f_equal. lia.
  Qed.

  Lemma valid_emin s m e : valid_binary prec emax (S754_finite s m e) = true -> -1074 <= e.
  Proof. intros H. apply valid_finite in H as [H _]. unfold emin in H. lia. Qed.

  Lemma valid_bound x a : valid_binary prec emax x = true -> sf_num x = Some a -> Z.abs a < 2 ^ (emax + 1074).
  Proof.
    intros V N. destruct x as [sx| | |s m e]; try discriminate N; cbn [sf_num] in N; injection N as <-.
    - pose proof (pow_pos (emax + 1074) ltac:(lia)). cbn. lia.
    - apply valid_finite in V as [V C].
      destruct (digits_bounds (Zpos m) ltac:(lia)) as [Hd Hb]. set (d := Zdigits2 (Zpos m)) in *.
      assert (H0 : 0 <= e + 1074) by (unfold emin in V; lia). pose proof (pow_pos _ H0).
      replace (Z.abs (cond_Zopp s (Zpos m) * 2 ^ (e + 1074))) with (Zpos m * 2 ^ (e + 1074))
        by (destruct s; cbn [cond_Zopp]; nia).
      apply Z.lt_le_trans with (2 ^ d * 2 ^ (e + 1074)); [nia|].
      rewrite <- pow_split by lia. apply pow_le. unfold fexp in C. lia.
  Qed.

  Lemma valid_rnd x a : valid_binary prec emax x = true -> sf_num x = Some a -> rnd 1074 a = a.
  Proof.
    intros V N. destruct x as [sx| | |s m e]; try discriminate N; cbn [sf_num] in N; injection N as <-.
    - apply rnd_0. unfold emin. lia.
    - apply valid_finite in V as [V C].
      destruct (digits_bounds (Zpos m) ltac:(lia)) as [Hd Hb]. set (d := Zdigits2 (Zpos m)) in *.
      apply rnd_exact; [unfold emin; lia|lia|reflexivity|].
      assert (d <= prec) by (unfold fexp in C; lia). pose proof (pow_le d prec ltac:(lia)).
      destruct s; cbn [cond_Zopp]; lia.
  Qed.

  Lemma rounded_valid x a : valid_binary prec emax x = true -> sf_num x = Some a -> rounded 1074 a x.
  Proof.
    intros V N. unfold rounded. rewrite (valid_rnd x a V N).
    pose proof (valid_bound x a V N). replace (Z.abs a <? 2 ^ (emax + 1074)) with true by lia. auto.
  Qed.

  Lemma align_num s m e ez : ez <= e -> -1074 <= ez ->
    cond_Zopp s (Zpos (fst (shl_align m e ez))) * 2 ^ (ez + 1074) = cond_Zopp s (Zpos m) * 2 ^ (e + 1074).
  Proof.
    intros H1 H2. rewrite shl_align_fst by lia.
    replace (e + 1074) with ((e - ez) + (ez + 1074)) by lia. rewrite (pow_split (e - ez)) by lia.
    destruct s; cbn [cond_Zopp]; ring.
  Qed.

  Lemma SFadd_num x y a b : valid_binary prec emax x = true -> valid_binary prec emax y = true ->
    sf_num x = Some a -> sf_num y = Some b -> rounded 1074 (a + b) (SFadd prec emax x y).
  Proof.
    intros Vx Vy Na Nb.
    destruct x as [sx| | |sx mx ex]; try discriminate Na; destruct y as [sy| | |sy my ey]; try discriminate Nb;
      cbn [SFadd].
    - injection Na as <-. injection Nb as <-. destruct (Bool.eqb sx sy); apply rounded_valid; reflexivity.
    - injection Na as <-. rewrite Z.add_0_l. apply rounded_valid; auto.
    - injection Nb as <-. rewrite Z.add_0_r. apply rounded_valid; auto.
    - pose proof (valid_emin _ _ _ Vx). pose proof (valid_emin _ _ _ Vy).
      cbn [sf_num] in Na, Nb. injection Na as <-. injection Nb as <-.
      rewrite <- (align_num sx mx ex (Z.min ex ey)), <- (align_num sy my ey (Z.min ex ey)) by lia.
      rewrite <- Z.mul_add_distr_r. apply normalize_rounded; [unfold emin; lia|lia].
  Qed.

  Lemma SFsub_num x y a b : valid_binary prec emax x = true -> valid_binary prec emax y = true ->
    sf_num x = Some a -> sf_num y = Some b -> rounded 1074 (a - b) (SFsub prec emax x y).
  Proof.
    intros Vx Vy Na Nb.
    destruct x as [sx| | |sx mx ex]; try discriminate Na; destruct y as [sy| | |sy my ey]; try discriminate Nb;
      cbn [SFsub].
    - injection Na as <-. injection Nb as <-. destruct (Bool.eqb sx (negb sy)); apply rounded_valid; reflexivity.
    - injection Na as <-. apply rounded_valid; auto. cbn [sf_num] in Nb |- *. injection Nb as <-. f_equal.
      destruct sy; cbn [negb cond_Zopp]; ring.
    - injection Nb as <-. rewrite Z.sub_0_r. apply rounded_valid; auto.
    - pose proof (valid_emin _ _ _ Vx). pose proof (valid_emin _ _ _ Vy).
      cbn [sf_num] in Na, Nb. injection Na as <-. injection Nb as <-.
      rewrite <- (align_num sx mx ex (Z.min ex ey)), <- (align_num sy my ey (Z.min ex ey)) by lia.
      rewrite <- Z.mul_sub_distr_r. apply normalize_rounded; [unfold emin; lia|lia].
  Qed.

  Lemma digits_prod a b : 0 < a -> 0 < b -> Zdigits2 a + Zdigits2 b - 1 <= Zdigits2 (a * b).
  Proof.
    intros Ha Hb. destruct (digits_bounds a Ha) as [D1 B1]. destruct (digits_bounds b Hb) as [D2 B2].
    destruct (digits_bounds (a * b) ltac:(nia)) as [D3 B3].
    destruct (Z_le_gt_dec (Zdigits2 a + Zdigits2 b - 1) (Zdigits2 (a * b))); auto. exfalso.
    pose proof (pow_le (Zdigits2 (a * b)) ((Zdigits2 a - 1) + (Zdigits2 b - 1)) ltac:(lia)) as H.
    rewrite pow_split in H by lia. pose proof (pow_pos (Zdigits2 a - 1) ltac:(lia)).
    pose proof (pow_pos (Zdigits2 b - 1) ltac:(lia)). nia.
  Qed.

  (** For products the exact value is the product of the numerators / 2^2148. *)
  Lemma SFmul_num x y a b : valid_binary prec emax x = true -> valid_binary prec emax y = true ->
    sf_num x = Some a -> sf_num y = Some b -> rounded 2148 (a * b) (SFmul prec emax x y).
  Proof.
    intros Vx Vy Na Nb.
    assert (R0 : forall s, rounded 2148 0 (S754_zero s)).
    { intros s. unfold rounded. rewrite rnd_0 by (unfold emin; lia). cbn [Z.abs].
      pose proof (pow_pos (emax + 1074) ltac:(lia)). replace (0 <? 2 ^ (emax + 1074)) with true by lia.
      split; reflexivity. }
    destruct x as [sx| | |sx mx ex]; try discriminate Na; destruct y as [sy| | |sy my ey]; try discriminate Nb;
      cbn [SFmul].
    - injection Na as <-. rewrite Z.mul_0_l. apply R0.
    - injection Na as <-. rewrite Z.mul_0_l. apply R0.
    - injection Nb as <-. rewrite Z.mul_0_r. apply R0.
    - cbn [sf_num] in Na, Nb. injection Na as <-. injection Nb as <-.
      pose proof (valid_emin _ _ _ Vx). pose proof (valid_emin _ _ _ Vy).
      apply valid_finite in Vx as [Vx Cx]. apply valid_finite in Vy as [Vy Cy].
      replace (cond_Zopp sx (Zpos mx) * 2 ^ (ex + 1074) * (cond_Zopp sy (Zpos my) * 2 ^ (ey + 1074)))
        with (cond_Zopp (xorb sx sy) (Zpos (mx * my) * 2 ^ (ex + ey + 2148))).
      2:{ replace (ex + ey + 2148) with ((ex + 1074) + (ey + 1074)) by lia. rewrite pow_split by lia.
          rewrite Pos2Z.inj_mul. destruct sx, sy; cbn [xorb cond_Zopp]; ring. }
      apply round_aux_rounded; [lia|unfold emin; lia|lia|].
      rewrite Pos2Z.inj_mul. pose proof (digits_prod (Zpos mx) (Zpos my) ltac:(lia) ltac:(lia)) as D.
      destruct (digits_bounds (Zpos mx) ltac:(lia)) as [D1 _].
      destruct (digits_bounds (Zpos my) ltac:(lia)) as [D2 _].
      unfold fexp, emin in *. lia.
  Qed.
End Format.

(** ** The two formats *)
Lemma db_prec : 1 < 53 /\ 53 < 1024 /\ -1074 <= 3 - 1024 - 53. Proof. lia. Qed.
Lemma fl_prec : 1 < 24 /\ 24 < 128 /\ -1074 <= 3 - 128 - 24. Proof. lia. Qed.

Lemma sf_one_pos : 0 < sf_one.
Proof. unfold sf_one. apply pow_pos; lia. Qed.
Lemma sf_one_eq : sf_one = 2 ^ 1074. Proof. reflexivity. Qed.
#[global] Opaque sf_one.

Lemma fl_emin s m e : fl_ok (S754_finite s m e) -> -149 <= e <= 104.
Proof. intros H. apply (valid_finite 24 128) in H as [H _]. unfold emin in H. lia. Qed.
Lemma db_emin s m e : db_ok (S754_finite s m e) -> -1074 <= e <= 971.
Proof. intros H. apply (valid_finite 53 1024) in H as [H _]. unfold emin in H. lia. Qed.

(** Conversions to integers in terms of the value. *)
Lemma pow_1074 e : -1074 <= e <= 0 -> 2 ^ 1074 = 2 ^ (- e) * 2 ^ (e + 1074).
Proof. intros. rewrite <- pow_split by lia. f_equal. lia. Qed.

Lemma scaled_pos m e : -1074 <= e ->
  (if 0 <=? e then Zpos m * 2 ^ e else Zpos m / 2 ^ (- e)) = Zpos m * 2 ^ (e + 1074) / sf_one.
Proof.
  intros He. rewrite sf_one_eq. destruct (Z.leb_spec 0 e) as [H|H].
  - rewrite pow_split by lia. rewrite Z.mul_assoc. symmetry. apply Z.div_mul.
    apply Z.pow_nonzero; lia.
  - rewrite (pow_1074 e) by lia.
    pose proof (pow_pos (- e) ltac:(lia)). pose proof (pow_pos (e + 1074) ltac:(lia)).
    rewrite Z.div_mul_cancel_r by lia. reflexivity.
Qed.

Lemma sf_trunc_num x a : sf_num x = Some a ->
  (forall s m e, x = S754_finite s m e -> -1074 <= e) -> sf_trunc x = Some (Z.quot a sf_one).
Proof.
  intros N He. pose proof sf_one_pos as HO. destruct x as [s| | |s m e]; try discriminate N; cbn [sf_num sf_trunc] in *.
  - injection N as <-. rewrite Z.quot_0_l; auto. lia.
  - injection N as <-. specialize (He _ _ _ eq_refl). rewrite scaled_pos by auto.
    pose proof (pow_pos (e + 1074) ltac:(lia)).
    destruct s; cbn [cond_Zopp]; f_equal.
    + rewrite Z.mul_opp_l, Z.quot_opp_l by lia. f_equal. symmetry. apply Z.quot_div_nonneg; nia.
    + symmetry. apply Z.quot_div_nonneg; nia.
Qed.

Lemma sf_rne_num x a : sf_num x = Some a ->
  (forall s m e, x = S754_finite s m e -> -1074 <= e) -> sf_rne x = Some (rne a sf_one).
Proof.
  intros N He. pose proof sf_one_pos as HO. destruct x as [s| | |s m e]; try discriminate N; cbn [sf_num sf_rne] in *.
  - injection N as <-. pose proof (rne_exact 0 sf_one HO) as E. rewrite Z.mul_0_l in E. now rewrite E.
  - injection N as <-. specialize (He _ _ _ eq_refl).
    assert (E : (if 0 <=? e then Zpos m * 2 ^ e
                 else let d := 2 ^ (- e) in let q := Zpos m / d in let r := Zpos m mod d in
                      if (2 * r <? d) || ((2 * r =? d) && Z.even q) then q else q + 1)
                = rne (Zpos m * 2 ^ (e + 1074)) sf_one).
    { rewrite sf_one_eq. destruct (Z.leb_spec 0 e) as [H|H].
      - rewrite pow_split, Z.mul_assoc by lia. symmetry. apply rne_exact. apply pow_pos; lia.
      - cbv zeta. change (rne (Zpos m) (2 ^ (- e)) = rne (Zpos m * 2 ^ (e + 1074)) (2 ^ 1074)).
        rewrite (pow_1074 e) by lia.
        symmetry. apply rne_scale; apply pow_pos; lia. }
    cbv zeta in E. rewrite E. f_equal. destruct s; cbn [cond_Zopp]; auto.
    rewrite Z.mul_opp_l. symmetry. now apply rne_opp.
Qed.

Lemma fl_trunc x a : fl_ok x -> sf_num x = Some a -> sf_trunc x = Some (Z.quot a sf_one).
Proof. intros V N. apply sf_trunc_num; auto. intros s m e ->. apply fl_emin in V. lia. Qed.
Lemma db_trunc x a : db_ok x -> sf_num x = Some a -> sf_trunc x = Some (Z.quot a sf_one).
Proof. intros V N. apply sf_trunc_num; auto. intros s m e ->. apply db_emin in V. lia. Qed.
Lemma fl_rne x a : fl_ok x -> sf_num x = Some a -> sf_rne x = Some (rne a sf_one).
Proof. intros V N. apply sf_rne_num; auto. intros s m e ->. apply fl_emin in V. lia. Qed.
Lemma db_rne x a : db_ok x -> sf_num x = Some a -> sf_rne x = Some (rne a sf_one).
Proof. intros V N. apply sf_rne_num; auto. intros s m e ->. apply db_emin in V. lia. Qed.

(** ** float to double is exact *)
Lemma digits_abs_bound s m d : Zdigits2 (Zpos m) <= d -> Z.abs (cond_Zopp s (Zpos m)) <= 2 ^ d.
Proof.
  intros H. destruct (digits_bounds (Zpos m) ltac:(lia)) as [D B]. pose proof (pow_le _ d (conj (Z.lt_le_incl _ _ D) H)).
  destruct s; cbn [cond_Zopp]; lia.
Qed.

Lemma rounded_exact prec emax k A w g x : 1 < prec -> prec < emax -> -1074 <= 3 - emax - prec ->
  0 <= k + emin prec emax -> emin prec emax <= g ->
  A = w * 2 ^ (g + k) -> Z.abs w <= 2 ^ prec -> Z.abs w * 2 ^ (g + 1074) < 2 ^ (emax + 1074) ->
  rounded prec emax k A x -> valid_binary prec emax x = true /\ sf_num x = Some (w * 2 ^ (g + 1074)).
Proof.
  intros H1 H2 H3 Hk Hg EA Hw Hb R. unfold rounded in R.
  assert (E : rnd prec emax k A = w * 2 ^ (g + 1074)) by (apply rnd_exact; auto).
  rewrite E in R. pose proof (pow_pos (g + 1074) ltac:(unfold emin in *; lia)).
  replace (Z.abs (w * 2 ^ (g + 1074)) <? 2 ^ (emax + 1074)) with true in R; [exact R|].
  symmetry. apply Z.ltb_lt. rewrite Z.abs_mul, (Z.abs_eq (2 ^ _)) by lia. exact Hb.
Qed.

Lemma db_of_fl_ok x : fl_ok x -> db_ok (db_of_fl x) /\ sf_num (db_of_fl x) = sf_num x.
Proof.
  intros V. destruct x as [s|s| |s m e]; try (split; reflexivity).
  unfold db_of_fl, renorm. pose proof (fl_emin _ _ _ V) as He.
  apply (valid_finite 24 128) in V as [V C].
  assert (D : Zdigits2 (Zpos m) <= 24) by (unfold fexp in C; lia).
  pose proof (digits_abs_bound s m 24 D) as Hw.
  pose proof (normalize_rounded 53 1024 ltac:(lia) ltac:(lia) ltac:(lia) (cond_Zopp s (Zpos m)) e s 1074
                ltac:(unfold emin; lia) ltac:(lia)) as R.
  eapply (rounded_exact 53 1024 1074 _ (cond_Zopp s (Zpos m)) e) in R; try lia; auto.
  - unfold emin; lia.
  - unfold emin; lia.
  - apply Z.le_lt_trans with (2 ^ 24 * 2 ^ (e + 1074)).
    + apply Z.mul_le_mono_nonneg_r; auto. apply Z.pow_nonneg; lia.
    + rewrite <- pow_split by lia. apply pow_lt. lia.
Qed.

Lemma db_of_fl_nan x : fl_ok x -> (sf_num (db_of_fl x) = None <-> sf_num x = None).
Proof. intros V. destruct (db_of_fl_ok x V) as [_ ->]. tauto. Qed.

(** ** Small integers are exact *)
Lemma of_Z_ok prec emax z : 1 < prec -> prec < emax -> -1074 <= 3 - emax - prec ->
  Z.abs z <= 2 ^ prec ->
  valid_binary prec emax (binary_normalize prec emax z 0 false) = true
  /\ sf_num (binary_normalize prec emax z 0 false) = Some (z * sf_one).
Proof.
  intros H1 H2 H3 Hz.
  pose proof (normalize_rounded prec emax H1 H2 H3 z 0 false 1074 ltac:(unfold emin; lia) ltac:(lia)) as R.
  rewrite sf_one_eq. apply (rounded_exact prec emax 1074 _ z 0) in R; auto; try (unfold emin; lia).
  apply Z.le_lt_trans with (2 ^ prec * 2 ^ (0 + 1074)).
  - apply Z.mul_le_mono_nonneg_r; auto. apply Z.pow_nonneg; lia.
  - rewrite <- pow_split by lia. apply pow_lt. lia.
Qed.

Lemma fl_of_Z_ok z : Z.abs z <= 16777216 -> fl_ok (fl_of_Z z) /\ sf_num (fl_of_Z z) = Some (z * sf_one).
Proof. intros H. apply of_Z_ok; try lia. Qed.
Lemma db_of_Z_ok z : Z.abs z <= 9007199254740992 -> db_ok (db_of_Z z) /\ sf_num (db_of_Z z) = Some (z * sf_one).
Proof. intros H. apply of_Z_ok; try lia. Qed.

(** ** Bit patterns *)
Lemma Zpos_of z p : z = Zpos p -> 0 < z. Proof. lia. Qed.

Lemma fl_of_bits_ok b : 0 <= b < 4294967296 -> fl_ok (fl_of_bits b).
Proof.
  intros Hb. unfold fl_of_bits. change (2 ^ 31) with 2147483648. change (2 ^ 23) with 8388608. change (2 ^ 8) with 256.
  set (ex := b / 8388608 mod 256). assert (He : 0 <= ex < 256) by (unfold ex; lia).
  set (m := b mod 8388608). assert (Hm : 0 <= m < 8388608) by (unfold m; lia).
  clearbody ex m. unfold fl_ok.
  destruct (Z.eqb_spec ex 255) as [E|E].
  - destruct (m =? 0); reflexivity.
  - destruct (Z.eqb_spec ex 0) as [E0|E0].
    + destruct m as [|p|p] eqn:Em; try reflexivity.
      cbn [valid_binary]. unfold bounded, canonical_mantissa.
      pose proof (digits_le (Zpos p) 23 ltac:(lia) ltac:(change (2 ^ 23) with 8388608; lia)) as D.
      cbn [Zdigits2] in D. change (fexp 24 128 (Zpos (digits2_pos p) + -149)) with (Z.max (Zpos (digits2_pos p) + -149 - 24) (-149)).
      rewrite Z.max_r by lia. reflexivity.
    + destruct (m + 8388608) as [|p|p] eqn:Em; try lia.
      cbn [valid_binary]. unfold bounded, canonical_mantissa.
      assert (D : Zdigits2 (Zpos p) = 24).
      { apply digits_unique; [lia|]. change (2 ^ (24 - 1)) with 8388608. change (2 ^ 24) with 16777216. lia. }
      cbn [Zdigits2] in D. rewrite D.
      change (fexp 24 128 (24 + (ex - 150))) with (Z.max (24 + (ex - 150) - 24) (-149)).
      rewrite Z.max_l by lia. replace (24 + (ex - 150) - 24) with (ex - 150) by lia.
      apply andb_true_intro. split; [apply Zeq_is_eq_bool; reflexivity | apply Z.leb_le; lia].
Qed.

Lemma bits_of_fl_range x : fl_ok x -> 0 <= bits_of_fl x < 4294967296.
Proof.
  intros V. destruct x as [s|s| |s m e];
    [destruct s; vm_compute; split; congruence|destruct s; vm_compute; split; congruence|vm_compute; split; congruence|].
  apply (valid_finite 24 128) in V as [V C]. unfold emin in V. unfold bits_of_fl. change (2 ^ 23) with 8388608.
  destruct (digits_bounds (Zpos m) ltac:(lia)) as [D B].
  assert (D24 : Zdigits2 (Zpos m) <= 24) by (unfold fexp in C; lia).
  pose proof (pow_le _ 24 (conj (Z.lt_le_incl _ _ D) D24)) as P. change (2 ^ 24) with 16777216 in P.
  assert (S : sbit s = 0 \/ sbit s = 2147483648) by (destruct s; [right|left]; reflexivity).
  destruct (Z.ltb_spec (Zpos m) 8388608); lia.
Qed.

Lemma fl_bits_fl x : fl_ok x -> fl_of_bits (bits_of_fl x) = x.
Proof.
  intros V. destruct x as [s|s| |s m e]; [destruct s; reflexivity|destruct s; reflexivity|reflexivity|].
  apply (valid_finite 24 128) in V as [V C]. unfold emin in V. unfold bits_of_fl. change (2 ^ 23) with 8388608.
  destruct (digits_bounds (Zpos m) ltac:(lia)) as [D B].
  set (d := Zdigits2 (Zpos m)) in *.
  assert (D24 : d <= 24) by (unfold fexp in C; lia).
  pose proof (pow_le _ 24 (conj (Z.lt_le_incl _ _ D) D24)) as P. change (2 ^ 24) with 16777216 in P.
  assert (Sb : sbit s = (if s then 1 else 0) * 2147483648) by (destruct s; reflexivity).
  assert (So : Z.odd (if s then 1 else 0) = s) by (destruct s; reflexivity).
  assert (S01 : 0 <= (if s then 1 else 0) <= 1) by (destruct s; lia).
  set (z := if s then 1 else 0) in *. clearbody z.
  unfold fl_of_bits. change (2 ^ 31) with 2147483648. change (2 ^ 23) with 8388608. change (2 ^ 8) with 256.
  destruct (Z.ltb_spec (Zpos m) 8388608) as [H|H].
  - assert (Ee : e = -149).
    { assert (d < 24). { destruct (Z.eq_dec d 24) as [E|]; [|lia]. rewrite E in B. change (2 ^ (24 - 1)) with 8388608 in B. lia. }
      unfold fexp, emin in C. lia. }
    replace ((sbit s + Zpos m) / 2147483648) with z by lia. rewrite So.
    replace ((sbit s + Zpos m) / 8388608 mod 256) with 0 by lia. cbn [Z.eqb].
    replace ((sbit s + Zpos m) mod 8388608) with (Zpos m) by lia. now rewrite Ee.
  - set (w := sbit s + (e + 150) * 8388608 + (Zpos m - 8388608)).
    replace (w / 2147483648) with z by (unfold w; lia). rewrite So.
    assert (Ew : w / 8388608 mod 256 = e + 150) by (unfold w; lia). rewrite Ew.
    replace (w mod 8388608) with (Zpos m - 8388608) by (unfold w; lia).
    replace (e + 150 =? 255) with false by lia. replace (e + 150 =? 0) with false by lia.
    replace (Zpos m - 8388608 + 8388608) with (Zpos m) by lia.
    f_equal. lia.
Qed.

(** ** Comparison; canonical representation *)
Lemma fl_ltb x y a b : fl_ok x -> fl_ok y -> sf_num x = Some a -> sf_num y = Some b ->
  SFltb x y = (a <? b).
Proof.
  intros Vx Vy Na Nb. unfold SFltb.
  rewrite (compare_num 24 128 ltac:(lia) ltac:(lia) ltac:(lia) x y a b) by auto.
  unfold Z.ltb. destruct (a ?= b); reflexivity.
Qed.
Lemma db_ltb x y a b : db_ok x -> db_ok y -> sf_num x = Some a -> sf_num y = Some b ->
  SFltb x y = (a <? b).
Proof.
  intros Vx Vy Na Nb. unfold SFltb.
  rewrite (compare_num 53 1024 ltac:(lia) ltac:(lia) ltac:(lia) x y a b) by auto.
  unfold Z.ltb. destruct (a ?= b); reflexivity.
Qed.
Lemma num_canonical x y a : fl_ok x -> fl_ok y -> sf_num x = Some a -> sf_num y = Some a -> a <> 0 -> x = y.
Proof.
  intros Vx Vy Nx Ny Ha. destruct x as [sx| | |sx mx ex]; try discriminate Nx; [injection Nx as <-; lia|].
  destruct y as [sy| | |sy my ey]; try discriminate Ny; [injection Ny as <-; lia|].
  cbn [sf_num] in Nx, Ny. injection Nx as Nx. injection Ny as Ny.
  pose proof (fl_emin _ _ _ Vx) as Ex. pose proof (fl_emin _ _ _ Vy) as Ey.
  pose proof (pow_pos (ex + 1074) ltac:(lia)) as Px. pose proof (pow_pos (ey + 1074) ltac:(lia)) as Py.
  assert (S : sx = sy) by (destruct sx, sy; cbn [cond_Zopp] in *; auto; nia). subst sy.
  assert (E : Zpos mx * 2 ^ (ex + 1074) = Zpos my * 2 ^ (ey + 1074)) by (destruct sx; cbn [cond_Zopp] in *; nia).
  apply (valid_finite 24 128) in Vx as [_ Vx]; try lia. apply (valid_finite 24 128) in Vy as [_ Vy]; try lia.
  assert (D : Zdigits2 (Zpos mx) + ex = Zdigits2 (Zpos my) + ey).
  { pose proof (digits_mul (Zpos mx) (ex + 1074) ltac:(lia) ltac:(lia)) as D1.
    pose proof (digits_mul (Zpos my) (ey + 1074) ltac:(lia) ltac:(lia)) as D2. rewrite E in D1. lia. }
  assert (ex = ey) by congruence. subst ey. assert (Zpos mx = Zpos my) by (clear - E Px; nia). congruence.
Qed.
Lemma fl_of_Z_canonical x z : 0 <= z <= 16777216 -> z <> 0 -> fl_ok x -> sf_num x = Some (z * sf_one) -> x = fl_of_Z z.
Proof.
  intros Hz H0 V N. destruct (fl_of_Z_ok z ltac:(lia)) as [V' N']. apply (num_canonical _ _ _ V V' N N'). pose proof sf_one_pos. nia.
Qed.
Lemma fl_of_Z_trunc z : Z.abs z <= 16777216 -> int_of_sf (fl_of_Z z) = Some z.
Proof.
  intros Hz. destruct (fl_of_Z_ok z Hz) as [V N]. unfold int_of_sf. rewrite (fl_trunc _ _ V N). pose proof sf_one_pos.
  rewrite Z.quot_mul by lia. unfold chk, in_int, INT_MIN, INT_MAX. replace (_ && _) with true by lia. reflexivity.
Qed.
