(** * Proofs: rounding errors; the weighted grey value. *)
From Verif Require Import Base Logic ModelCore ModelFloat ModelPixel SpecBase SpecImage SpecImage2 SpecPixel SpecNum ProofCore ProofLayout
  ProofHM ProofCore2 ProofImage3 ProofImage4 ProofBorder ProofPixel ProofColor ProofFloat ProofFloat2 ProofConv.
From Coq Require Import Floats.SpecFloat ZifyBool ZifyNat.
Ltac Zify.zify_post_hook ::= Z.div_mod_to_equations.
Open Scope Z_scope.

(** ** The error of one rounding *)
Section Error.
  Variables prec emax : Z.
  Hypotheses (Hprec : 1 < prec) (Hemax : prec < emax) (Hemin : -1074 <= 3 - emax - prec).

  Lemma rnd_scale k j A : 0 <= A -> 0 <= j -> 0 <= k + emin prec emax -> rnd prec emax (k + j) (A * 2 ^ j) = rnd prec emax k A.
  Proof.
    intros HA Hj Hk. destruct (Z.eq_dec A 0) as [->|Hne].
    { rewrite Z.mul_0_l, !rnd_0 by lia. reflexivity. }
    unfold rnd. assert (E : rexp prec emax (k + j) (A * 2 ^ j) = rexp prec emax k A).
    { unfold rexp. rewrite digits_mul by lia. f_equal. lia. }
    rewrite E. f_equal. pose proof (rexp_ge prec emax k A) as Hr.
    rewrite Z.add_assoc, pow_split by lia. apply rne_scale; apply pow_pos; lia.
  Qed.

  Lemma rounded_scale k j A x : 0 <= A -> 0 <= j -> 0 <= k + emin prec emax ->
    rounded prec emax (k + j) (A * 2 ^ j) x -> rounded prec emax k A x.
  Proof.
    intros HA Hj Hk. unfold rounded. rewrite rnd_scale by auto.
    replace (A * 2 ^ j <? 0) with (A <? 0); auto. pose proof (pow_pos j Hj). nia.
  Qed.

  Lemma round_error A d x : 0 <= A < 2 ^ (1074 + d) -> emin prec emax + prec <= d < emax ->
    rounded prec emax 1074 A x ->
    valid_binary prec emax x = true /\ sf_num x = Some (rnd prec emax 1074 A) /\ 0 <= rnd prec emax 1074 A
    /\ 2 * Z.abs (rnd prec emax 1074 A - A) <= 2 ^ (1074 + d - prec).
  Proof.
    intros HA Hd R. pose proof (rnd_error prec emax Hemin A) as E.
    assert (Hr : rexp prec emax 1074 A + 1074 <= 1074 + d - prec).
    { unfold rexp, fexp. destruct (Z.eq_dec A 0) as [->|Hne]; [change (Zdigits2 0) with 0; unfold emin in *; lia|].
      pose proof (digits_le A (1074 + d) ltac:(lia) ltac:(lia)). lia. }
    pose proof (rexp_ge prec emax 1074 A) as Hg. unfold emin in *.
    pose proof (pow_le (rexp prec emax 1074 A + 1074) (1074 + d - prec) ltac:(lia)) as HP.
    assert (H0 : 0 <= rnd prec emax 1074 A).
    { unfold rnd. pose proof (pow_pos (rexp prec emax 1074 A + 1074) ltac:(lia)) as P.
      pose proof (rne_mono 0 A _ P ltac:(lia)) as M. replace 0 with (0 * 2 ^ (rexp prec emax 1074 A + 1074)) in M at 1 by ring.
      rewrite rne_exact in M by auto. nia. }
    unfold rounded in R. replace (Z.abs (rnd prec emax 1074 A) <? 2 ^ (emax + 1074)) with true in R.
    { destruct R as [V N]. repeat split; auto. lia. }
    symmetry. apply Z.ltb_lt. pose proof (pow_lt (1074 + d - prec) (1074 + d) ltac:(lia)).
    pose proof (pow_le (1074 + d + 1) (emax + 1074) ltac:(lia)) as HQ. rewrite pow_split in HQ by lia. change (2 ^ 1) with 2 in HQ. lia.
  Qed.
End Error.

(** ** The weighted mean *)
Definition T1014 : Z := 2 ^ 1014.
Lemma T_pos : 0 < T1014. Proof. now apply pow_pos. Qed.
Lemma T_pow k : 0 <= k -> 2 ^ (1014 + k) = T1014 * 2 ^ k.
Proof. intros. unfold T1014. apply pow_split; lia. Qed.

Lemma lit_num : (db_ok (dlit 299 1000) /\ sf_num (dlit 299 1000) = Some (344723529877447232 * T1014))
  /\ (db_ok (dlit 578 1000) /\ sf_num (dlit 578 1000) = Some (666388629662757504 * T1014))
  /\ (db_ok (dlit 114 1000) /\ sf_num (dlit 114 1000) = Some (131433051525180560 * T1014)).
Proof. repeat split; vm_compute; reflexivity. Qed.
Lemma one_T : sf_one = 1152921504606846976 * T1014.
Proof. rewrite sf_one_eq. change 1074 with (1014 + 60). rewrite T_pow by lia. change (2 ^ 60) with 1152921504606846976. ring. Qed.

(** A small integer times a literal. *)
Lemma lit_mul r x L : 0 <= r < 256 -> 0 <= L < 1152921504606846976 -> db_ok x -> sf_num x = Some (L * T1014) ->
  exists v, db_ok (db_mul (db_of_Z r) x) /\ sf_num (db_mul (db_of_Z r) x) = Some v /\ 0 <= v /\ Z.abs (v - r * L * T1014) <= 16384 * T1014.
Proof.
  intros Hr HL V N. pose proof T_pos as TP. destruct (db_of_Z_ok r ltac:(lia)) as [Vr Nr].
  pose proof (SFmul_num 53 1024 ltac:(lia) ltac:(lia) ltac:(lia) _ _ _ _ Vr V Nr N) as R.
  replace (r * sf_one * (L * T1014)) with ((r * L * T1014) * 2 ^ 1074) in R by (rewrite sf_one_eq; generalize (2 ^ 1074); clear; intros; ring).
  assert (B : 0 <= r * L * T1014 < 2 ^ (1074 + 8)).
  { change (1074 + 8) with (1014 + 68). rewrite T_pow by lia. change (2 ^ 68) with 295147905179352825856.
    assert (H : 0 <= r * L) by (apply Z.mul_nonneg_nonneg; lia). assert (H' : r * L <= 255 * L) by (apply Z.mul_le_mono_nonneg_r; lia).
    split; [apply Z.mul_nonneg_nonneg; lia|]. rewrite (Z.mul_comm T1014). apply Z.mul_lt_mono_pos_r; lia. }
  apply (rounded_scale 53 1024) with (k := 1074) (j := 1074) in R; try exact (proj1 B); try (clear; lia); try (clear; unfold emin; lia).
  apply (round_error 53 1024 ltac:(clear; lia) ltac:(clear; lia) ltac:(clear; lia) _ 8) in R; [|exact B|clear; unfold emin; lia]. clear B.
  destruct R as (V' & N' & P & E). eexists. repeat split; [exact V'|exact N'|exact P|].
  change (1074 + 8 - 53) with (1014 + 15) in E. rewrite T_pow in E by lia. change (2 ^ 15) with 32768 in E. lia.
Qed.
Lemma small_add x y a b : db_ok x -> db_ok y -> sf_num x = Some a -> sf_num y = Some b -> 0 <= a -> 0 <= b ->
  a + b < 295147905179352825856 * T1014 ->
  exists v, db_ok (db_add x y) /\ sf_num (db_add x y) = Some v /\ 0 <= v /\ Z.abs (v - (a + b)) <= 16384 * T1014.
Proof.
  intros Vx Vy Na Nb Ha Hb Hs. pose proof (SFadd_num 53 1024 ltac:(lia) ltac:(lia) ltac:(lia) _ _ _ _ Vx Vy Na Nb) as R.
  apply (round_error 53 1024 ltac:(lia) ltac:(lia) ltac:(lia) _ 8) in R; [| |unfold emin; lia].
  - destruct R as (V' & N' & P & E). eexists. repeat split; [exact V'|exact N'|exact P|].
    change (1074 + 8 - 53) with (1014 + 15) in E. rewrite T_pow in E by lia. change (2 ^ 15) with 32768 in E. lia.
  - split; [lia|]. change (1074 + 8) with (1014 + 68). rewrite T_pow by lia. change (2 ^ 68) with 295147905179352825856. lia.
Qed.

(** A double close to a positive integer is rounded to it. *)
Lemma near_int D q : 1 <= q < 256 -> Z.abs (D - q * 1152921504606846976 * T1014) <= 1048576 * T1014 ->
  rnd 24 128 1074 D = q * 1152921504606846976 * T1014.
Proof.
  intros Hq HD. pose proof T_pos as TP.
  assert (B1 : T1014 * 2 ^ 59 <= D < T1014 * 2 ^ 69).
  { change (2 ^ 59) with 576460752303423488. change (2 ^ 69) with 590295810358705651712.
    assert (q * T1014 <= 255 * T1014 /\ T1014 <= q * T1014) by (clear - Hq TP; nia).
    assert (q * 1152921504606846976 * T1014 = 1152921504606846976 * (q * T1014)) by ring. lia. }
  rewrite <- !T_pow in B1 by lia. unfold rnd.
  assert (DP : 0 < D) by (exact (Z.lt_le_trans _ _ _ (pow_pos (1014 + 59) ltac:(clear; lia)) (proj1 B1))).
  assert (D1 : Zdigits2 D <= 1083) by (apply digits_le; [exact DP|exact (proj2 B1)]).
  assert (D2 : 1074 <= Zdigits2 D).
  { destruct (digits_bounds D DP) as [K1 K2]. destruct (Z_le_gt_dec 1074 (Zdigits2 D)) as [|G]; auto.
    exfalso. pose proof (pow_le (Zdigits2 D) (1014 + 59) ltac:(clear - G K1; lia)) as L. exact (Z.lt_irrefl _ (Z.lt_le_trans _ _ _ (Z.lt_le_trans _ _ _ (proj2 K2) L) (proj1 B1))). }
  clear B1.
  set (f := rexp 24 128 1074 D). assert (Hf : -24 <= f <= -15) by (unfold f, rexp, fexp, emin; lia). clearbody f.
  assert (E : 2 ^ (f + 1074) = T1014 * 2 ^ (60 + f)) by (rewrite <- T_pow by lia; f_equal; lia).
  assert (E2 : 1152921504606846976 = 2 ^ (- f) * 2 ^ (60 + f)).
  { rewrite <- pow_split by lia. replace (- f + (60 + f)) with 60 by lia. reflexivity. }
  pose proof (pow_pos (f + 1074) ltac:(lia)) as BP.
  assert (Z1 : q * 1152921504606846976 * T1014 = (q * 2 ^ (- f)) * 2 ^ (f + 1074)) by (rewrite E2, E; ring).
  assert (BL : 2 * (1048576 * T1014) < 2 ^ (f + 1074)).
  { rewrite E. pose proof (pow_le 36 (60 + f) ltac:(lia)) as W. change (2 ^ 36) with 68719476736 in W. clear - W TP. nia. }
  rewrite Z1 in *. f_equal. apply (nearest_even_unique D (2 ^ (f + 1074))); [exact BP|now apply rne_nearest|].
  unfold nearest_even. lia.
Qed.

Lemma weighted_value r g b : 0 <= r < 256 -> 0 <= g < 256 -> 0 <= b < 256 ->
  int_of_sf (gray_weighted r g b) = Some ((299 * r + 578 * g + 114 * b) / 1000).
Proof.
  intros Hr Hg Hb. pose proof T_pos as TP.
  destruct (Z.eq_dec (299 * r + 578 * g + 114 * b) 0) as [Z0|Z0].
  { assert (r = 0 /\ g = 0 /\ b = 0) as (-> & -> & ->) by lia. vm_compute. reflexivity. }
  destruct lit_num as ((V1 & N1) & (V2 & N2) & (V3 & N3)).
  destruct (lit_mul r _ 344723529877447232 Hr ltac:(lia) V1 N1) as (a & Va & Na & Pa & Ea).
  destruct (lit_mul g _ 666388629662757504 Hg ltac:(lia) V2 N2) as (c & Vc & Nc & Pc & Ec).
  destruct (lit_mul b _ 131433051525180560 Hb ltac:(lia) V3 N3) as (d & Vd & Nd & Pd & Ed).
  assert (QR : 0 <= r * T1014 <= 255 * T1014) by (clear - TP Hr; nia).
  assert (QG : 0 <= g * T1014 <= 255 * T1014) by (clear - TP Hg; nia).
  assert (QB : 0 <= b * T1014 <= 255 * T1014) by (clear - TP Hb; nia).
  replace (r * 344723529877447232 * T1014) with (344723529877447232 * (r * T1014)) in Ea by ring.
  replace (g * 666388629662757504 * T1014) with (666388629662757504 * (g * T1014)) in Ec by ring.
  replace (b * 131433051525180560 * T1014) with (131433051525180560 * (b * T1014)) in Ed by ring.
  destruct (small_add (db_mul (db_of_Z r) (dlit 299 1000)) (db_mul (db_of_Z g) (dlit 578 1000)) a c Va Vc Na Nc Pa Pc ltac:(lia)) as (u & Vu & Nu & Pu & Eu).
  assert (Su : u + d < 295147905179352825856 * T1014) by lia.
  destruct (small_add _ _ u d Vu Vd Nu Nd Pu Pd Su) as (w & Vw & Nw & Pw & Ew).
  pose proof (fl_of_db_num _ _ Vw Nw) as R.
  assert (Bw : 0 <= w < 2 ^ (1074 + 8)).
  { change (1074 + 8) with (1014 + 68). rewrite T_pow by lia. change (2 ^ 68) with 295147905179352825856. lia. }
  apply (round_error 24 128 ltac:(clear; lia) ltac:(clear; lia) ltac:(clear; lia) _ 8) in R; [|exact Bw|clear; unfold emin; lia]. clear Bw.
  destruct R as (V & N & P & E). change (1074 + 8 - 24) with (1014 + 44) in E. rewrite T_pow in E by lia.
  change (2 ^ 44) with 17592186044416 in E.
  set (n := 299 * r + 578 * g + 114 * b) in *. set (q := n / 1000). set (v := rnd 24 128 1074 w) in *.
  assert (EN : n * T1014 = 299 * (r * T1014) + 578 * (g * T1014) + 114 * (b * T1014)) by (unfold n; ring).
  assert (EQ : n * T1014 = 1000 * (q * T1014) + (n mod 1000) * T1014) by (unfold q; rewrite (Z.div_mod n 1000) at 1 by lia; ring).
  assert (Hq : 0 <= q < 256) by (unfold q, n; lia).
  assert (K : q * sf_one <= v < (q + 1) * sf_one).
  { rewrite one_T. destruct (Z.eq_dec (n mod 1000) 0) as [M0|M0].
    - rewrite M0 in EQ. assert (Hq1 : 1 <= q < 256) by (unfold q; lia).
      assert (Ev : v = q * 1152921504606846976 * T1014).
      { apply near_int; [exact Hq1|]. replace (q * 1152921504606846976 * T1014) with (1152921504606846976 * (q * T1014)) by ring. clear - Ea Ec Ed Eu Ew EN EQ TP QR QG QB; lia. }
      rewrite Ev. split; [lia|]. clear - TP. lia.
    - assert (M1 : T1014 <= n mod 1000 * T1014 <= 999 * T1014) by (pose proof (Z.mod_pos_bound n 1000 ltac:(lia)); clear - TP M0 H; nia).
      replace (q * (1152921504606846976 * T1014)) with (1152921504606846976 * (q * T1014)) by ring.
      replace ((q + 1) * (1152921504606846976 * T1014)) with (1152921504606846976 * (q * T1014) + 1152921504606846976 * T1014) by ring.
      clear - Ea Ec Ed Eu Ew EN EQ TP QR QG QB M1 E; lia. }
  unfold int_of_sf, gray_weighted. rewrite (fl_trunc _ _ V N). fold v.
  assert (Z.quot v sf_one = q) as ->.
  { pose proof sf_one_pos. rewrite Z.quot_div_nonneg by lia. symmetry. apply (Z.div_unique v sf_one q (v - q * sf_one)); [left; lia|ring]. }
  apply chk_ok. lia.
Qed.

Theorem rgb2gray_weighted : forall e s p m, env_ok e -> heap_ok s -> image s p m 1 -> sm_chan m = 3 ->
  exists p' s', sm_rgb2gray p 2 e s = Ret p' s'
    /\ new_picture s (sm_rows m) (sm_cols m) 1
         (fun i j _ => match pix s m i j 0, pix s m i j 1, pix s m i j 2 with
                       | Some a, Some b, Some c => Some ((299 * a + 578 * b + 114 * c) / 1000) | _, _, _ => None end) s' p'.
Proof.
  intros e s p m He Hs IM H3. unfold sm_rgb2gray. runs (sget_ok _ _ e _ (im_hdr _ _ _ _ IM)). rewrite bind_assert by lia.
  change (2 =? 1) with false. change (2 =? 2) with true. cbv iota.
  destruct (image_pixels s p m IM) as (q0 & n0 & f0 & P0).
  destruct (gray_fill e s p m He Hs IM H3 (fun dp q i j =>
        x0 <- ev (i * sm_cols m * 3 + j * 3)%C ;;
        r <- load8 (Some q) x0 ;;
        x1 <- ev (i * sm_cols m * 3 + j * 3 + 1)%C ;;
        g <- load8 (Some q) x1 ;;
        x2 <- ev (i * sm_cols m * 3 + j * 3 + 2)%C ;;
        b <- load8 (Some q) x2 ;;
        d <- ev (i * sm_cols m + j)%C ;;
        z <- ev (int_of_sf (gray_weighted r g b)) ;;
        store8 dp d z) (fun a b c => (299 * a + 578 * b + 114 * c) / 1000)) with (q := q0) (n := n0) (f := f0) as (p' & s' & X & Y); auto.
  - intros q n f [D I HR HC _ N Mx] dd i j Hi Hj s1 k1 I1 Hne Ik. rewrite H3 in *.
    set (R := sm_rows m) in *. set (C := sm_cols m) in *.
    assert (IX : 0 <= i * C + j < R * C) by (clear -Hi Hj; nia).
    assert (IR : 0 < R * C) by lia.
    assert (J0 : (i * C * 3 + j * 3)%C = Some ((i * C + j) * 3 + 0)).
    { pose proof (idx3 R C i j 0 Hi Hj ltac:(lia) ltac:(lia)) as J. destruct (i * C * 3 + j * 3)%C as [z|]; [|discriminate J].
      unfold cadd, cop, ci, chk in J. rewrite Z.add_0_r in J. unfold chk in J. match type of J with (if ?b then _ else _) = _ => destruct b; [congruence|discriminate J] end. }
    eapply wr_bind; [apply rdv_ev; exact J0|]. eapply wr_bind; [eapply rdv_load8; [exact Hne|exact I1|lia]|].
    eapply wr_bind; [apply rdv_ev; apply (idx3 R C); auto; lia|]. eapply wr_bind; [eapply rdv_load8; [exact Hne|exact I1|lia]|].
    eapply wr_bind; [apply rdv_ev; apply (idx3 R C); auto; lia|]. eapply wr_bind; [eapply rdv_load8; [exact Hne|exact I1|lia]|].
    eapply wr_bind; [apply rdv_ev; apply (idx2_c R C); auto; lia|].
    eapply wr_bind; [apply rdv_ev; apply weighted_value; lia|].
    eapply wr_store8; [exact Ik|lia|]. cbv beta zeta. apply Z.mod_small. lia.
  - exists p', s'. split; [|exact Y]. rewrite <- X. pose proof (px_data _ _ _ _ _ P0) as ->. reflexivity.
Qed.
