(** * Rounding errors of square roots and of the distance of spectra. *)
From Verif Require Import Base ModelFloat SpecBase SpecNum SpecMatrix SpecStat SpecSpectral ProofFloat ProofFloat2 ProofErr ProofValid ProofMatrix ProofFold ProofFilter ProofPca2 ProofSum.
From Coq Require Import Floats.SpecFloat Lia.
Open Scope Z_scope.

Lemma root_arith q m' h B : B = 18014398509481984 -> 4503599627370496 <= q -> q * q <= m' <= q * q + 2 * q -> Z.abs h * B <= 5 * q ->
  Z.abs ((q + h) * (q + h) - m') * 281474976710656 <= m'.
Proof.
  intros HB Hq Hm Hh.
  assert (A : Z.abs ((q + h) * (q + h) - m') <= 2 * q * Z.abs h + Z.abs h * Z.abs h + 2 * q).
  { replace ((q + h) * (q + h) - m') with (2 * q * h + h * h + (q * q - m')) by ring.
    pose proof (Z.abs_triangle (2 * q * h + h * h) (q * q - m')). pose proof (Z.abs_triangle (2 * q * h) (h * h)).
    rewrite !Z.abs_mul in *. rewrite (Z.abs_eq q), (Z.abs_eq 2) in * by lia. lia. }
  set (D := Z.abs ((q + h) * (q + h) - m')) in *. clearbody D.
  set (g := Z.abs h) in *. assert (G0 : 0 <= g) by (unfold g; lia). clearbody g. clear h.
  assert (G1 : g <= q) by lia.
  assert (E1 : 2 * q * g * B <= 10 * (q * q)). { replace (2 * q * g * B) with (2 * q * (g * B)) by ring. replace (10 * (q * q)) with (2 * q * (5 * q)) by ring. apply Z.mul_le_mono_nonneg_l; lia. }
  assert (E2 : g * g * B <= 5 * (q * q)). { replace (g * g * B) with (g * (g * B)) by ring. replace (5 * (q * q)) with (q * (5 * q)) by ring. apply Z.mul_le_mono_nonneg; try lia. }
  assert (E3 : 2 * q * B <= 8 * (q * q)). { replace (2 * q * B) with (q * (2 * B)) by ring. replace (8 * (q * q)) with (q * (8 * q)) by ring. apply Z.mul_le_mono_nonneg_l; lia. }
  apply (Z.mul_le_mono_pos_r _ _ 64); [lia|].
  assert (D * B <= 23 * (q * q)). { apply Z.le_trans with ((2 * q * g + g * g + 2 * q) * B); [apply Z.mul_le_mono_nonneg_r; lia|]. rewrite !Z.mul_add_distr_r. lia. }
  lia.
Qed.

Lemma db_sqrt_err_gen k9 k13 ku x a : k9 = 900 -> k13 = 1300 -> ku = 1074 -> db_ok x -> sf_num x = Some a -> 2 ^ k9 <= a <= 2 ^ k13 ->
  db_ok (db_sqrt x) /\ exists s, sf_num (db_sqrt x) = Some s /\ 0 <= s /\ Z.abs (s * s - a * 2 ^ ku) * 281474976710656 <= a * 2 ^ ku.
Proof.
  intros E9 E13 Eu V N [B1 B2]. split; [now apply db_sqrt_ok|].
  assert (P9 : 0 < 2 ^ k9) by (apply pow_pos; lia).
  destruct x as [sx|sx| |sx mx ex]; try discriminate N; [cbn in N; injection N as <-; lia|].
  cbn [sf_num] in N. injection N as N.
  pose proof (valid_emin 53 1024 ltac:(lia) _ _ _ V) as Hx. rewrite <- Eu in N. pose proof (pow_pos (ex + ku) ltac:(lia)) as Px.
  destruct sx; cbn [cond_Zopp] in N.
  { exfalso. assert (- Zpos mx * 2 ^ (ex + ku) < 0) by (apply Z.mul_neg_pos; [reflexivity|exact Px]). lia. }
  unfold db_sqrt. cbn [SFsqrt]. unfold SFsqrt_core_binary.
  destruct (sqrt_core 53 1024 ltac:(lia) ltac:(lia) ltac:(lia) (Zpos mx) ex ltac:(lia)) as (A & B & C). cbv zeta in *.
  rewrite shift_match by exact A.
  apply (valid_finite 53 1024) in V as [V1 V2].
  destruct (digits_bounds (Zpos mx) ltac:(lia)) as [D1 DB]. set (d := Zdigits2 (Zpos mx)) in *. set (m := Zpos mx) in *.
  set (e' := Z.min (fexp 53 1024 (Z.div2 (d + ex + 1))) (Z.div2 ex)) in *.
  pose proof (Zdiv2_odd_eqn (d + ex + 1)) as O1. pose proof (Zdiv2_odd_eqn ex) as O2.
  (* the size *)
  assert (S1 : k9 < d + ex + ku).
  { apply (Z.pow_lt_mono_r_iff 2); [lia|lia|]. eapply Z.le_lt_trans; [exact B1|]. rewrite <- N. replace (d + ex + ku) with (d + (ex + ku)) by lia. rewrite (pow_split d) by lia. apply Z.mul_lt_mono_pos_r; lia. }
  assert (S2 : d - 1 + ex + ku <= k13).
  { apply (Z.pow_le_mono_r_iff 2); [lia|lia|]. eapply Z.le_trans; [|exact B2]. rewrite <- N. replace (d - 1 + ex + ku) with (d - 1 + (ex + ku)) by lia. rewrite (pow_split (d - 1)) by lia. apply Z.mul_le_mono_nonneg_r; lia. }
  assert (HG : -1021 < Z.div2 (d + ex + 1)) by (destruct (Z.odd (d + ex + 1)); lia).
  assert (Lo : - 1000 < e').
  { unfold e', fexp, emin. destruct (Z.odd ex), (Z.odd (d + ex + 1)); lia. }
  set (m' := m * 2 ^ (ex - 2 * e')) in *.
  pose proof (pow_pos _ A) as PA. assert (Hm' : 0 < m') by (unfold m', m; nia).
  pose proof (Z.sqrtrem_spec m' ltac:(lia)) as SP. pose proof (Z.sqrtrem_sqrt m') as EQ. destruct (Z.sqrtrem m') as [q r] eqn:Esr. cbn [fst] in EQ. destruct SP as [SP1 SP2].
  rewrite <- EQ in B, C.
  destruct (digits_bounds q B) as [DQ BQ]. set (dq := Zdigits2 q) in *.
  assert (Hdq : 53 <= dq) by (unfold fexp, emin in C; lia).
  assert (Ef : fexp 53 1024 (dq + e') = dq + e' - 53) by (unfold fexp, emin; lia).
  assert (Hup : 2 * (dq - 1) < d + (ex - 2 * e')).
  { apply (Z.pow_lt_mono_r_iff 2); [lia|lia|]. replace (2 * (dq - 1)) with ((dq - 1) + (dq - 1)) by lia. rewrite (pow_split (dq - 1)) by lia.
    apply Z.le_lt_trans with (q * q); [apply Z.mul_le_mono_nonneg; try lia; apply Z.pow_nonneg; lia|]. apply Z.le_lt_trans with m'; [lia|].
    unfold m'. rewrite (pow_split d) by lia. apply Z.mul_lt_mono_pos_r; lia. }
  set (w := dq - 53) in *. assert (Hw : 0 <= w) by (unfold w; lia).
  assert (EW : 2 ^ (dq - 1) = 4503599627370496 * 2 ^ w). { replace (dq - 1) with (52 + w) by (unfold w; lia). rewrite pow_split by lia. reflexivity. }
  assert (EW2 : 2 ^ dq = 9007199254740992 * 2 ^ w). { replace dq with (53 + w) by (unfold w; lia). rewrite pow_split by lia. reflexivity. }
  pose proof (pow_pos w Hw) as PW.
  (* the rounding *)
  assert (exists l4 r4, (if Zeq_bool r 0 then loc_Exact else loc_Inexact (if r <=? q then Lt else Gt)) = l4 /\ locs l4 r4 4 /\ 0 <= r4 <= 3) as (l4 & r4 & El & HL & Hr4).
  { destruct (Zeq_bool r 0); [exists loc_Exact, 0; split; [reflexivity|]; cbn; lia|]. destruct (r <=? q); [exists (loc_Inexact Lt), 1|exists (loc_Inexact Gt), 3]; (split; [reflexivity|]); cbn; lia. }
  rewrite El.
  pose proof (round_aux 53 1024 ltac:(lia) ltac:(lia) ltac:(lia) false q e' l4 r4 4 ltac:(lia) B HL C) as RA. cbv zeta in RA. fold dq in RA.
  rewrite Ef in RA. replace (dq + e' - 53 - e') with w in RA by (unfold w; lia). replace (dq + e' - 53) with (w + e') in RA by (unfold w; lia).
  destruct (rne_nearest (q * 4 + r4) (4 * 2 ^ w) ltac:(lia)) as [NE _].
  assert (Q0 : 0 <= rne (q * 4 + r4) (4 * 2 ^ w) <= 9007199254740992).
  { apply (rne_bounds _ _ 0 9007199254740992); lia. }
  set (Q := rne (q * 4 + r4) (4 * 2 ^ w)) in *. clearbody Q.
  assert (PE : 0 < 2 ^ (e' + 1074)) by (apply pow_pos; lia).
  assert (ES : 2 ^ (w + e' + 1074) = 2 ^ w * 2 ^ (e' + 1074)) by (rewrite <- pow_split by lia; f_equal; lia).
  unfold rounds in RA.
  assert (FIN : Q * 2 ^ (w + e' + 1074) < 2 ^ (1024 + 1074)).
  { apply Z.le_lt_trans with (2 ^ 53 * 2 ^ (w + e' + 1074)); [apply Z.mul_le_mono_nonneg_r; [apply Z.pow_nonneg; lia|change (2 ^ 53) with 9007199254740992; lia]|].
    rewrite <- pow_split by lia. apply Z.pow_lt_mono_r; lia. }
  replace (Q * 2 ^ (w + e' + 1074) <? 2 ^ (1024 + 1074)) with true in RA by (symmetry; apply Z.ltb_lt; exact FIN).
  destruct RA as (_ & NX & _). cbn [cond_Zopp] in NX. exists (Q * 2 ^ (w + e' + 1074)). split; [exact NX|]. rewrite ES.
  split; [apply Z.mul_nonneg_nonneg; [lia|apply Z.mul_nonneg_nonneg; lia]|].
  set (W := 2 ^ w) in *. set (PP := 2 ^ (e' + 1074)) in *.
  assert (EA : a * 2 ^ ku = m' * (PP * PP)).
  { rewrite <- N. unfold m', PP. rewrite <- !Z.mul_assoc. f_equal. rewrite <- !pow_split by lia. f_equal. lia. }
  rewrite EA.
  replace (Q * (W * PP) * (Q * (W * PP))) with ((Q * W) * (Q * W) * (PP * PP)) by ring.
  rewrite <- Z.mul_sub_distr_r, Z.abs_mul. assert (HPP : 0 < PP * PP) by (apply Z.mul_pos_pos; lia). rewrite (Z.abs_eq (PP * PP)) by lia.
  rewrite <- Z.mul_assoc, (Z.mul_comm (PP * PP)), Z.mul_assoc. apply Z.mul_le_mono_nonneg_r; [lia|].
  replace (Q * W) with (q + (Q * W - q)) by ring.
  apply (root_arith q m' (Q * W - q) 18014398509481984); [reflexivity|lia|lia|].
  replace (Q * (4 * W)) with (4 * (Q * W)) in NE by ring. set (QW := Q * W) in *. clearbody QW. clear - NE EW BQ PW Hr4. lia.
Qed.
Lemma db_sqrt_err x a : db_ok x -> sf_num x = Some a -> 2 ^ 900 <= a <= 2 ^ 1300 ->
  db_ok (db_sqrt x) /\ exists s, sf_num (db_sqrt x) = Some s /\ 0 <= s /\ Z.abs (s * s - a * 2 ^ 1074) * 281474976710656 <= a * 2 ^ 1074.
Proof. exact (db_sqrt_err_gen 900 1300 1074 x a eq_refl eq_refl eq_refl). Qed.

Lemma fl_sub_err x y a b : fl_ok x -> fl_ok y -> sf_num x = Some a -> sf_num y = Some b -> Z.abs (a - b) <= 2 ^ 1190 ->
  fl_ok (fl_sub x y) /\ exists c, sf_num (fl_sub x y) = Some c
    /\ Z.abs (c - (a - b)) * 2 ^ 24 <= Z.abs (a - b) + 2 ^ 948.
Proof.
  intros Vx Vy Na Nb B. pose proof (SFsub_num 24 128 ltac:(lia) ltac:(lia) ltac:(lia) x y a b Vx Vy Na Nb) as R.
  apply rounded_err in R as (V & c & N & P & E); [|clear; lia..|etransitivity; [exact B|apply Z.pow_le_mono_r; clear; lia]].
  split; auto. exists c. split; auto. change (24 + emin 24 128 + 1074 - 1) with 948 in E.
  change (1074 - 1074) with 0 in E. rewrite Z.mul_1_r in E. exact E.
Qed.

(** The square of a number that is off by a little. *)
Lemma square_off d e t : 0 <= t -> Z.abs (e - d) * 16777216 <= Z.abs d + t -> Z.abs (e * e - d * d) * 67108864 <= 10 * (d * d) + 20 * (t * t).
Proof.
  intros Ht H. set (g := Z.abs (e - d)) in *.
  assert (A : Z.abs (e * e - d * d) <= 2 * (Z.abs d * g) + g * g).
  { replace (e * e - d * d) with (2 * (d * (e - d)) + (e - d) * (e - d)) by ring. pose proof (Z.abs_triangle (2 * (d * (e - d))) ((e - d) * (e - d))).
    rewrite !Z.abs_mul in *. rewrite (Z.abs_eq 2) in * by lia. exact H0. }
  assert (D2 : d * d = Z.abs d * Z.abs d) by (rewrite <- Z.abs_mul; apply eq_sym, Z.abs_eq, Z.square_nonneg). rewrite D2 in *. clear D2.
  assert (G0 : 0 <= g) by (unfold g; lia). set (X := Z.abs (e * e - Z.abs d * Z.abs d)) in *. clearbody X. assert (H0 : 0 <= Z.abs d) by lia. set (b := Z.abs d) in *. clearbody b g. clear d e.
  assert (E1 : b * g * 16777216 <= b * b + b * t). { replace (b * g * 16777216) with (b * (g * 16777216)) by ring. replace (b * b + b * t) with (b * (b + t)) by ring. apply Z.mul_le_mono_nonneg_l; lia. }
  assert (G1 : g <= b + t) by lia.
  assert (E2 : g * g * 16777216 <= g * (b + t)). { rewrite <- Z.mul_assoc. apply Z.mul_le_mono_nonneg_l; lia. }
  assert (E3 : g * (b + t) * 16777216 <= (b + t) * (b + t)). { replace (g * (b + t) * 16777216) with (g * 16777216 * (b + t)) by ring. apply Z.mul_le_mono_nonneg_r; lia. }
  assert (E4 : 0 <= (b - 4 * t) * (b - 4 * t)) by apply Z.square_nonneg.
  replace ((b + t) * (b + t)) with (b * b + 2 * (b * t) + t * t) in E3 by ring.
  replace ((b - 4 * t) * (b - 4 * t)) with (b * b - 8 * (b * t) + 16 * (t * t)) in E4 by ring.
  assert (0 <= b * b) by (apply Z.mul_nonneg_nonneg; lia). assert (0 <= t * t) by (apply Z.mul_nonneg_nonneg; lia). assert (0 <= b * t) by (apply Z.mul_nonneg_nonneg; lia).
  lia.
Qed.

Lemma term_arith d e q t T : 0 <= t -> 32 * (t * t) <= T -> Z.abs (e - d) * 16777216 <= Z.abs d + t -> Z.abs (q - e * e) * 16777216 <= e * e + T ->
  Z.abs (q - d * d) * 16777216 <= 4 * (d * d) + 2 * T.
Proof.
  intros Ht HT H1 H2. pose proof (square_off d e t Ht H1) as H3.
  assert (0 <= d * d) by apply Z.square_nonneg. assert (0 <= e * e) by apply Z.square_nonneg. assert (0 <= t * t) by apply Z.square_nonneg.
  set (D := d * d) in *. set (E := e * e) in *. set (tt := t * t) in *. clearbody D E tt. lia.
Qed.

Lemma sum_close n p d T u : 0 <= n -> (forall i, 0 <= i < n -> Z.abs (p i * u - d i) * 16777216 <= 4 * d i + 2 * T) ->
  Z.abs (sumz n p * u - sumz n d) * 16777216 <= 4 * sumz n d + 2 * T * n.
Proof.
  intros H0. pattern n. apply natlike_ind; [| |exact H0].
  - intros _. rewrite !sumz_0. lia.
  - intros k Hk IH H. unfold Z.succ in *. rewrite !sumz_S by exact Hk. specialize (IH ltac:(intros; apply H; lia)). specialize (H k ltac:(lia)).
    replace ((sumz k p + p k) * u - (sumz k d + d k)) with ((sumz k p * u - sumz k d) + (p k * u - d k)) by ring.
    pose proof (Z.abs_triangle (sumz k p * u - sumz k d) (p k * u - d k)). lia.
Qed.

Lemma sumz_member n d i : 0 <= i < n -> (forall j, 0 <= j < n -> 0 <= d j) -> d i <= sumz n d.
Proof.
  intros Hi. assert (H0 : 0 <= n) by lia. revert Hi. pattern n. apply natlike_ind; [lia| |exact H0].
  intros k Hk IH Hi H. unfold Z.succ in *. rewrite sumz_S by exact Hk. pose proof (H k ltac:(lia)).
  destruct (Z.eq_dec i k) as [->|N].
  - pose proof (sumz_nonneg k d Hk ltac:(intros; apply H; lia)). lia.
  - specialize (IH ltac:(lia) ltac:(intros; apply H; lia)). lia.
Qed.

(** The last two steps: the root c of the sum and its conversion to a float. *)
Lemma root_close n D c s r t : 0 < n <= 1048576 -> 0 < D -> 0 <= s -> 0 <= t -> 1048576 * (t * t) <= D ->
  Z.abs (c - D) * 8388608 <= (n + 4) * D -> Z.abs (s * s - c) * 281474976710656 <= c -> Z.abs (r - s) * 16777216 <= s + t ->
  Z.abs (r * r - D) * 8388608 <= (n + 6) * D.
Proof.
  intros Hn HD Hs Ht HtD Hc Hsc Hr.
  pose proof (square_off s r t Ht ltac:(rewrite (Z.abs_eq s) by exact Hs; exact Hr)) as Q.
  assert (L : (n + 4) * D <= 1048580 * D) by (apply Z.mul_le_mono_nonneg_r; lia).
  replace ((n + 6) * D) with ((n + 4) * D + 2 * D) by ring.
  assert (0 <= t * t) by apply Z.square_nonneg.
  set (rr := r * r) in *. set (ss := s * s) in *. set (tt := t * t) in *. clearbody rr ss tt. set (K := (n + 4) * D) in *. clearbody K.
  clear - Hc Hsc Q L HD HtD H. lia.
Qed.

Lemma two_pow k a b : 0 <= a -> 0 <= b -> a + b = k -> 2 ^ k = 2 ^ a * 2 ^ b.
Proof. intros Ha Hb <-. apply Z.pow_add_r; lia. Qed.
Lemma root_le a b k j : 0 <= a -> 0 <= k -> a * a <= b -> b <= 2 ^ j -> 2 * k = j -> a <= 2 ^ k.
Proof.
  intros Ha Hk H1 H2 E. assert (P : 0 < 2 ^ k) by (apply pow_pos; lia). rewrite (two_pow j k k) in H2 by lia.
  apply Z.square_le_simpl_nonneg; lia.
Qed.

Lemma distance_term x y a b : fl_ok x -> fl_ok y -> sf_num x = Some a -> sf_num y = Some b -> (a - b) * (a - b) <= 2 ^ 2250 ->
  exists p, fl_ok (fl_mul (fl_sub x y) (fl_sub x y)) /\ sf_num (fl_mul (fl_sub x y) (fl_sub x y)) = Some p /\ 0 <= p
    /\ Z.abs (p * 2 ^ 1074 - (a - b) * (a - b)) * 16777216 <= 4 * ((a - b) * (a - b)) + 2 * 2 ^ 2022.
Proof.
  intros Vx Vy Na Nb B. set (d := a - b) in *.
  assert (L : Z.abs d <= 2 ^ 1125). { apply (root_le _ (d * d) _ 2250); try lia. }
  destruct (fl_sub_err x y a b Vx Vy Na Nb) as (Ve & e & Ne & Ee).
  { fold d. etransitivity; [exact L|]. apply Z.pow_le_mono_r; lia. }
  fold d in Ee. change (2 ^ 24) with 16777216 in Ee.
  assert (P0 : 0 <= 2 ^ 948) by (apply Z.pow_nonneg; lia).
  assert (P1 : 2 ^ 1896 = 2 ^ 948 * 2 ^ 948) by (apply two_pow; lia).
  assert (P2 : 2 ^ 2250 = 2 ^ 354 * 2 ^ 1896) by (apply two_pow; lia).
  assert (P3 : 2 ^ 2264 = 2 ^ 14 * 2 ^ 2250) by (apply two_pow; lia). change (2 ^ 14) with 16384 in P3.
  assert (P4 : 2 ^ 2022 = 2 ^ 126 * 2 ^ 1896) by (apply two_pow; lia).
  pose proof (square_off d e (2 ^ 948) P0 Ee) as Q.
  assert (P5 : 0 < 2 ^ 1896) by (apply pow_pos; lia). assert (P6 : 16777216 <= 2 ^ 126) by (apply Z.leb_le; reflexivity). assert (P7 : 16777216 <= 2 ^ 354) by (apply Z.leb_le; reflexivity).
  assert (T1 : 32 * (2 ^ 948 * 2 ^ 948) <= 2 ^ 2022). { rewrite <- P1, P4. apply Z.mul_le_mono_nonneg_r; lia. }
  assert (T2 : 2 ^ 1896 <= 2 ^ 2250) by (apply Z.pow_le_mono_r; lia).
  destruct (fl_mul_err (fl_sub x y) (fl_sub x y) e e Ve Ve Ne Ne) as (Vp & p & Np & Pp & Ep).
  { rewrite P3. rewrite Z.abs_eq by apply Z.square_nonneg. rewrite <- P1 in Q.
    assert (0 <= d * d) by apply Z.square_nonneg. set (ee := e * e) in *. set (dd := d * d) in *. clearbody ee dd.
    set (w := 2 ^ 2250) in *. set (w2 := 2 ^ 1896) in *. clearbody w w2. clear - Q B T2 P5 H. lia. }
  exists p. split; [exact Vp|]. split; [exact Np|]. split; [apply Pp, Z.square_nonneg|].
  apply (term_arith d e (p * 2 ^ 1074) (2 ^ 948) (2 ^ 2022) P0 T1 Ee).
  change (2 ^ 24) with 16777216 in Ep. rewrite (Z.abs_eq (e * e)) in Ep by apply Z.square_nonneg. exact Ep.
Qed.

Lemma choose_terms n (v : Z -> sf) (R : Z -> Z -> Prop) : 0 <= n -> (forall i, 0 <= i < n -> exists p, fl_ok (v i) /\ sf_num (v i) = Some p /\ 0 <= p /\ R i p) ->
  exists f, forall i, 0 <= i < n -> fl_ok (v i) /\ sf_num (v i) = Some (f i) /\ 0 <= f i /\ R i (f i).
Proof.
  intros _ H. exists (fun i => match sf_num (v i) with Some p => p | None => 0 end). intros i Hi. destruct (H i Hi) as (p & V & N & P & Q). rewrite N. auto.
Qed.

Lemma sum_limits S D U W G k : 0 < U -> 0 < G -> 0 < k -> D = k -> Z.abs (S * U - D) * 16777216 <= 5 * D -> 2 * (W * U) <= D -> D <= G * U -> W <= S <= 2 * G.
Proof.
  intros HU HG Hk _ H H1 H2. split; apply (Z.mul_le_mono_pos_r _ _ U HU).
  - assert (0 < D \/ D <= 0) as [|] by lia; lia.
  - replace (2 * G * U) with (2 * (G * U)) by ring. assert (0 < D \/ D <= 0) as [|] by lia; [lia|]. assert (0 < G * U) by (apply Z.mul_pos_pos; lia). lia.
Qed.

Theorem float_distance_err : forall n x y a b, 0 < n <= 1048576 ->
  (forall i, 0 <= i < n -> fl_ok (x i) /\ fl_ok (y i) /\ sf_num (x i) = Some (a i) /\ sf_num (y i) = Some (b i)) ->
  2 ^ 2075 <= sumz n (fun i => (a i - b i) * (a i - b i)) <= 2 ^ 2250 ->
  exists r, sf_num (float_distance n x y) = Some r
    /\ Z.abs (r * r - sumz n (fun i => (a i - b i) * (a i - b i))) * 8388608 <= (n + 6) * sumz n (fun i => (a i - b i) * (a i - b i)).
Proof.
  intros n x y a b Hn Hv [B1 B2].
  assert (Ht : exists p, forall i, 0 <= i < n -> fl_ok (fl_mul (fl_sub (x i) (y i)) (fl_sub (x i) (y i))) /\ sf_num (fl_mul (fl_sub (x i) (y i)) (fl_sub (x i) (y i))) = Some (p i) /\ 0 <= p i
      /\ Z.abs (p i * 2 ^ 1074 - (a i - b i) * (a i - b i)) * 16777216 <= 4 * ((a i - b i) * (a i - b i)) + 2 * 2 ^ 2022).
  { apply (choose_terms n (fun i => fl_mul (fl_sub (x i) (y i)) (fl_sub (x i) (y i))) (fun i q => Z.abs (q * 2 ^ 1074 - (a i - b i) * (a i - b i)) * 16777216 <= 4 * ((a i - b i) * (a i - b i)) + 2 * 2 ^ 2022)); [lia|].
    intros i Hi. destruct (Hv i Hi) as (H1 & H2 & H3 & H4). apply distance_term; auto.
    etransitivity; [|exact B2]. apply (sumz_member n (fun i => (a i - b i) * (a i - b i))); auto. intros. apply Z.square_nonneg. }
  destruct Ht as [p Hp].
  pose proof (sum_close n p (fun i => (a i - b i) * (a i - b i)) (2 ^ 2022) (2 ^ 1074) ltac:(lia) ltac:(intros i Hi; apply Hp, Hi)) as SC. cbv beta in SC.
  set (D := sumz n (fun i => (a i - b i) * (a i - b i))) in *. clearbody D.
  assert (PU : 0 < 2 ^ 1074) by (apply pow_pos; lia).
  assert (P22 : 0 < 2 ^ 2022) by (apply pow_pos; lia).
  assert (P75 : 2 ^ 2075 = 2 ^ 53 * 2 ^ 2022) by (apply two_pow; lia). change (2 ^ 53) with 9007199254740992 in P75.
  assert (HD : 0 < D) by lia.
  assert (SC5 : Z.abs (sumz n p * 2 ^ 1074 - D) * 16777216 <= 5 * D).
  { etransitivity; [exact SC|]. assert (2 * 2 ^ 2022 * n <= 2 * 2 ^ 2022 * 1048576) by (apply Z.mul_le_mono_nonneg_l; lia). rewrite P75 in B1.
    set (w := 2 ^ 2022) in *. clearbody w. clear - H B1 P22. lia. }
  clear SC.
  assert (S12 : 2 ^ 1000 <= sumz n p <= 2 * 2 ^ 1176).
  { apply (sum_limits _ D (2 ^ 1074) _ _ D PU); auto. }
  destruct S12 as [S1 S2].
  destruct (positive_sum_err n (fun i => fl_mul (fl_sub (x i) (y i)) (fl_sub (x i) (y i))) p Hn) as (c & Vc & Nc & Ec).
  { intros i Hi. destruct (Hp i Hi) as (H1 & H2 & H3 & _). auto. }
  { split; [exact S1|]. etransitivity; [exact S2|]. change (2 * 2 ^ 1176) with (2 ^ 1 * 2 ^ 1176). rewrite <- Z.pow_add_r by lia. apply Z.pow_le_mono_r; lia. }
  assert (P10 : 0 < 2 ^ 1000) by (apply pow_pos; lia).
  assert (L1 : (n + 1) * sumz n p <= 1048577 * sumz n p) by (apply Z.mul_le_mono_nonneg_r; lia).
  assert (EC : Z.abs (c * 2 ^ 1074 - D) * 8388608 <= (n + 4) * D).
  { assert (Ec' : Z.abs (c * 2 ^ 1074 - sumz n p * 2 ^ 1074) * 8388608 <= (n + 1) * (sumz n p * 2 ^ 1074)).
    { rewrite <- Z.mul_sub_distr_r, Z.abs_mul, (Z.abs_eq (2 ^ 1074)) by lia.
      replace (Z.abs (c - sumz n p) * 2 ^ 1074 * 8388608) with (Z.abs (c - sumz n p) * 8388608 * 2 ^ 1074) by ring. rewrite Z.mul_assoc. apply Z.mul_le_mono_nonneg_r; lia. }
    set (cu := c * 2 ^ 1074) in *. set (su := sumz n p * 2 ^ 1074) in *. clearbody cu su. clear - Hn SC5 Ec' HD.
    assert ((n + 1) * (su - D) <= 1048577 * Z.abs (su - D)). { apply Z.le_trans with ((n + 1) * Z.abs (su - D)); [apply Z.mul_le_mono_nonneg_l; lia|apply Z.mul_le_mono_nonneg_r; lia]. }
    replace ((n + 1) * su) with ((n + 1) * D + (n + 1) * (su - D)) in Ec' by ring. replace ((n + 4) * D) with ((n + 1) * D + 3 * D) by ring. lia. }
  assert (PA : 2 ^ 900 <= c <= 2 ^ 1300).
  { assert (E1 : 2 ^ 1000 = 2 ^ 100 * 2 ^ 900) by (apply two_pow; lia). assert (E2 : 2 ^ 1300 = 2 ^ 124 * 2 ^ 1176) by (apply two_pow; lia).
    assert (P1 : 4 <= 2 ^ 100) by (apply Z.leb_le; reflexivity). assert (P2 : 4 <= 2 ^ 124) by (apply Z.leb_le; reflexivity).
    assert (4 * 2 ^ 900 <= 2 ^ 1000) by (rewrite E1; apply Z.mul_le_mono_nonneg_r; [apply Z.pow_nonneg|]; lia).
    assert (4 * 2 ^ 1176 <= 2 ^ 1300) by (rewrite E2; apply Z.mul_le_mono_nonneg_r; [apply Z.pow_nonneg|]; lia).
    set (w1 := 2 ^ 900) in *. set (w2 := 2 ^ 1300) in *. set (w3 := 2 ^ 1000) in *. set (w4 := 2 ^ 1176) in *. clearbody w1 w2 w3 w4. clear - H H0 S1 S2 Ec L1 P10. lia. }
  destruct (db_of_fl_ok _ Vc) as [Vd Nd]. rewrite Nc in Nd.
  destruct (db_sqrt_err _ c Vd Nd PA) as (Vs & s & Ns & S0 & Es).
  assert (SS : s * s <= 4 * D).
  { assert ((n + 4) * D <= 1048580 * D) by (apply Z.mul_le_mono_nonneg_r; lia). set (cu := c * 2 ^ 1074) in *. clearbody cu. set (ss := s * s) in *. clearbody ss. clear - H EC Es HD. lia. }
  destruct (fl_of_db_err _ s Vs Ns) as (Vr & r & Nr & _ & Er).
  { rewrite Z.abs_eq by exact S0. apply Z.le_trans with (2 ^ 1126); [|apply Z.pow_le_mono_r; lia].
    apply (root_le _ (4 * D) _ 2252); lia. }
  exists r. split; [exact Nr|].
  rewrite (Z.abs_eq s) in Er by exact S0. change (2 ^ 24) with 16777216 in Er.
  apply (root_close n D (c * 2 ^ 1074) s r (2 ^ 948)); auto; [apply Z.pow_nonneg; lia|].
  etransitivity; [|exact B1]. rewrite <- Z.pow_add_r by lia. change 1048576 with (2 ^ 20). rewrite <- Z.pow_add_r by lia. apply Z.pow_le_mono_r; lia.
Qed.
