(** * Smoothing a constant image. *)
From Verif Require Import Base ModelFloat ModelDouble ModelConv ModelMatrix ModelGauss SpecBase SpecNum SpecMatrix SpecPixel SpecImage2 SpecFilter SpecGauss.
From Verif Require Import ProofMatrix ProofFold ProofFloat ProofFloat2 ProofErr ProofFilter ProofBlur.
From Coq Require Import Floats.SpecFloat Lia ZifyBool ZifyNat.
Open Scope Z_scope.

(** Sums of integers. *)
Definition total (n : Z) (f : Z -> Z) : Z := foldz n (fun a k => a + f k) 0.

Lemma total_S n f : 0 <= n -> total (n + 1) f = total n f + f n.
Proof. intros H. unfold total. now rewrite foldz_S. Qed.

Lemma total_0 f : total 0 f = 0.
Proof. reflexivity. Qed.

Lemma total_le n f g : 0 <= n -> (forall k, 0 <= k < n -> f k <= g k) -> total n f <= total n g.
Proof.
  intros Hn. pattern n. apply natlike_ind; auto; [intros; cbn; lia|]. intros m Hm IH H. unfold Z.succ. rewrite !total_S by auto.
  assert (total m f <= total m g) by (apply IH; intros; apply H; lia). specialize (H m ltac:(lia)). lia.
Qed.

Lemma total_scale n f c : 0 <= n -> total n (fun k => f k * c) = total n f * c.
Proof.
  intros Hn. pattern n. apply natlike_ind; auto. intros m Hm IH. unfold Z.succ. rewrite !total_S, IH by auto. ring.
Qed.

Lemma total_mono m n f : 0 <= m <= n -> (forall k, 0 <= k < n -> 0 <= f k) -> total m f <= total n f.
Proof.
  intros H Hf. replace n with (m + (n - m)) by lia. assert (Hd : 0 <= n - m) by lia. assert (B : m + (n - m) <= n) by lia.
  revert B. pattern (n - m). apply natlike_ind; auto; [rewrite Z.add_0_r; lia|].
  intros d Hd0 IH B. unfold Z.succ. rewrite Z.add_assoc, total_S by lia. specialize (Hf (m + d) ltac:(lia)). specialize (IH ltac:(lia)). lia.
Qed.

(** One multiplication and one addition, in units U = 2^1074. *)
Lemma step_err U t a c a' P WL m : 0 < U -> 0 <= t <= U -> 0 <= a -> 0 <= c -> 0 <= WL -> 0 <= P -> P + WL <= 256 * (U * U) -> 0 <= m <= 2048 ->
  Z.abs (a * U - P) * 2 ^ 14 <= m * (U * U) ->
  Z.abs (c * U - WL) * 2 ^ 24 <= Z.abs WL + t * U ->
  Z.abs (a' - (a + c)) * 2 ^ 24 <= Z.abs (a + c) + t ->
  Z.abs (a' * U - (P + WL)) * 2 ^ 14 <= (m + 1) * (U * U).
Proof.
  intros HU Ht Ha Hc HWL HP HB Hm H1 H2 H3.
  assert (TU : t * U <= U * U) by (apply Z.mul_le_mono_nonneg_r; lia).
  assert (UU : 0 < U * U) by (apply Z.mul_pos_pos; lia).
  assert (AC : (a + c) * U <= 300 * (U * U)).
  { rewrite Z.mul_add_distr_r. set (aU := a * U) in *. set (cU := c * U) in *. set (tU := t * U) in *. set (X := U * U) in *.
    clearbody aU cU tU X. assert (m * X <= 2048 * X) by (apply Z.mul_le_mono_nonneg_r; lia). lia. }
  assert (H4 : Z.abs (a' - (a + c)) * U * 2 ^ 24 <= 301 * (U * U)).
  { replace (Z.abs (a' - (a + c)) * U * 2 ^ 24) with (Z.abs (a' - (a + c)) * 2 ^ 24 * U) by ring.
    apply Z.le_trans with ((Z.abs (a + c) + t) * U); [apply Z.mul_le_mono_nonneg_r; lia|].
    rewrite (Z.abs_eq (a + c)) by lia. rewrite Z.mul_add_distr_r. lia. }
  rewrite <- (Z.abs_eq U) in H4 at 1 by lia. rewrite <- Z.abs_mul in H4.
  replace ((a' - (a + c)) * U) with (a' * U - (a * U + c * U)) in H4 by ring.
  rewrite (Z.abs_eq WL) in H2 by lia. rewrite Z.mul_add_distr_r.
  set (aU := a * U) in *. set (cU := c * U) in *. set (tU := t * U) in *. set (X := U * U) in *. set (bU := a' * U) in *. set (mX := m * X) in *.
  clearbody aU cU tU X bU mX. clear - H1 H2 H4 TU UU HB HP. lia.
Qed.

Definition U1 : Z := 2 ^ 1074.
Lemma U1_pos : 0 < U1. Proof. unfold U1. apply pow_pos. lia. Qed.
Lemma pow_948 : 0 <= 2 ^ 948 <= U1.
Proof. split; [apply Z.pow_nonneg; lia|]. unfold U1. apply Z.pow_le_mono_r; lia. Qed.
Lemma pow_2022 : 2 ^ 2022 = 2 ^ 948 * U1.
Proof. unfold U1. rewrite <- Z.pow_add_r by lia. reflexivity. Qed.

Lemma BU x : Z.abs x <= 300 * U1 -> Z.abs x <= 2 ^ 1190.
Proof.
  intros H. assert (E : 2 ^ 116 * U1 = 2 ^ 1190) by (unfold U1; rewrite <- Z.pow_add_r by lia; reflexivity).
  rewrite <- E. pose proof U1_pos. clear E. lia.
Qed.
Lemma BUU x : Z.abs x <= 256 * (U1 * U1) -> Z.abs x <= 2 ^ 2264.
Proof.
  intros H. assert (E : 2 ^ 116 * (U1 * U1) = 2 ^ 2264) by (unfold U1; rewrite <- !Z.pow_add_r by lia; reflexivity).
  rewrite <- E. pose proof U1_pos. clear E. assert (0 < U1 * U1) by (apply Z.mul_pos_pos; lia). lia.
Qed.

Section Line.
  Variables (n : Z) (w x : Z -> sf) (W L : Z -> Z).
  Hypothesis Hn : 0 <= n <= 2048.
  Hypothesis Hw : forall k, 0 <= k < n -> fl_ok (w k) /\ sf_num (w k) = Some (W k) /\ 0 <= W k.
  Hypothesis Hx : forall k, 0 <= k < n -> fl_ok (x k) /\ sf_num (x k) = Some (L k) /\ 0 <= L k <= 255 * U1.
  Hypothesis HS : 255 * total n W <= 256 * U1.

  Lemma products_le : total n (fun k => W k * L k) <= 256 * (U1 * U1).
  Proof.
    pose proof U1_pos as HU.
    apply Z.le_trans with (total n (fun k => W k * (255 * U1))).
    - apply total_le; [lia|]. intros k Hk. apply Z.mul_le_mono_nonneg_l; [apply Hw; auto|apply Hx; auto].
    - rewrite total_scale by lia. replace (total n W * (255 * U1)) with (255 * total n W * U1) by ring.
      replace (256 * (U1 * U1)) with (256 * U1 * U1) by ring. apply Z.mul_le_mono_nonneg_r; lia.
  Qed.

  Lemma line_err m : 0 <= m -> m <= n -> let acc := foldz m (fun a k => fl_add a (fl_mul (w k) (x k))) (fl_of_Z 0) in
    fl_ok acc /\ exists a, sf_num acc = Some a /\ 0 <= a
      /\ Z.abs (a * U1 - total m (fun k => W k * L k)) * 2 ^ 14 <= m * (U1 * U1).
  Proof.
    pose proof U1_pos as HU. pose proof products_le as PL.
    assert (NN : forall k, 0 <= k < n -> 0 <= W k * L k).
    { intros k Hk. apply Z.mul_nonneg_nonneg; [apply Hw; auto|apply Hx; auto]. }
    intros Hm. pattern m. apply natlike_ind; auto.
    - intros _. split; [now apply byte_float|]. exists 0. split; [reflexivity|]. split; [lia|]. rewrite total_0. lia.
    - clear m Hm. intros m Hm IH Hmn. unfold Z.succ in *. cbv zeta in *.
      destruct (IH ltac:(lia)) as (V & a & Na & Ha & Ea). clear IH.
      rewrite foldz_S by auto. set (acc := foldz m _ _) in *. clearbody acc.
      destruct (Hw m ltac:(lia)) as (Vw & Nw & Pw). destruct (Hx m ltac:(lia)) as (Vx & Nx & Px).
      pose proof (total_mono (m + 1) n (fun k => W k * L k) ltac:(lia) NN) as TM. rewrite total_S in TM by auto.
      assert (TP : 0 <= total m (fun k => W k * L k)).
      { rewrite <- (total_0 (fun k => W k * L k)). apply total_mono; [lia|]. intros. apply NN. lia. }
      pose proof (NN m ltac:(lia)) as NM.
      destruct (fl_mul_err (w m) (x m) (W m) (L m)) as (Vm & c & Nc & Pc & Ec); auto.
      { apply BUU. rewrite Z.abs_eq by auto. clear - TM PL TP. lia. }
      rewrite pow_2022 in Ec. fold U1 in Ec. specialize (Pc NM).
      assert (UU : 0 < U1 * U1) by (apply Z.mul_pos_pos; lia).
      assert (AC : (a + c) * U1 <= 300 * U1 * U1).
      { rewrite Z.mul_add_distr_r. replace (300 * U1 * U1) with (300 * (U1 * U1)) by ring.
        assert (TU : 2 ^ 948 * U1 <= U1 * U1) by (apply Z.mul_le_mono_nonneg_r; [lia|apply pow_948]).
        assert (mX : m * (U1 * U1) <= 2048 * (U1 * U1)) by (apply Z.mul_le_mono_nonneg_r; lia).
        rewrite (Z.abs_eq (W m * L m)) in Ec by auto.
        set (aU := a * U1) in *. set (cU := c * U1) in *. set (tU := 2 ^ 948 * U1) in *. set (X := U1 * U1) in *. set (q := m * X) in *.
        set (wl := W m * L m) in *. set (T := total m _) in *.
        clearbody aU cU tU X q wl T. clear - Ea Ec TU mX UU TM PL TP NM. lia. }
      apply Z.mul_le_mono_pos_r in AC; [|lia].
      destruct (fl_add_err acc (fl_mul (w m) (x m)) a c) as (V' & a' & Na' & Pa' & Ea'); auto.
      { apply BU. rewrite Z.abs_eq by (clear - Ha Pc; lia). exact AC. }
      split; auto. exists a'. split; auto. split; [apply Pa'; clear - Ha Pc; lia|]. rewrite total_S by auto.
      apply (step_err U1 (2 ^ 948) a c); auto; [apply pow_948|clear - TM PL; lia|clear - Hm Hmn Hn; lia].
  Qed.
End Line.

Lemma total_near n W L v E : 0 <= n -> (forall k, 0 <= k < n -> 0 <= W k /\ Z.abs (L k - v) <= E) ->
  Z.abs (total n (fun k => W k * L k) - total n W * v) <= total n W * E.
Proof.
  intros Hn. pattern n. apply natlike_ind; auto; [intros; rewrite !total_0; lia|].
  intros m Hm IH H. unfold Z.succ. rewrite !total_S by auto.
  assert (I := IH ltac:(intros; apply H; lia)). destruct (H m ltac:(lia)) as [A B].
  assert (C : Z.abs (W m * L m - W m * v) <= W m * E).
  { rewrite <- Z.mul_sub_distr_l, Z.abs_mul, (Z.abs_eq (W m)) by auto. apply Z.mul_le_mono_nonneg_l; auto. }
  rewrite !Z.mul_add_distr_r. lia.
Qed.

(** The limited value. *)
Lemma limit_num x a : fl_ok x -> sf_num x = Some a -> exists b, sf_num (limit x) = Some b /\ 0 <= b <= 255 * U1
  /\ forall v, 0 <= v <= 255 * U1 -> Z.abs (b - v) <= Z.abs (a - v).
Proof.
  intros V N. unfold limit. destruct (fl_of_Z_ok 0 ltac:(lia)) as [V0 N0]. destruct (fl_of_Z_ok 255 ltac:(lia)) as [V1 N1].
  pose proof U1_pos as HU. rewrite sf_one_eq in N0, N1. fold U1 in N0, N1.
  rewrite (fl_ltb _ _ _ _ V V0 N N0), (fl_ltb _ _ _ _ V1 V N1 N).
  destruct (Z.ltb_spec a (0 * U1)); [exists (0 * U1); split; auto; split; [lia|intros; lia]|].
  destruct (Z.ltb_spec (255 * U1) a); [exists (255 * U1); split; auto; split; [lia|intros; lia]|].
  exists a. split; auto. split; lia.
Qed.

(** Weights that are non-negative and add up to one within 1/4096. *)
Definition unit_weights (n : Z) (K : Z -> Z) : Prop :=
  exists W, (forall k, 0 <= k < n -> 0 <= K k < 4294967296 /\ sf_num (fl_of_bits (K k)) = Some (W k) /\ 0 <= W k)
    /\ Z.abs (total n W - U1) * 4096 <= U1.

Lemma smooth_near n K line p v E : 0 < n <= 2048 -> unit_weights n K -> 0 <= v <= 255 ->
  0 <= E -> 16 * E <= 3 * U1 ->
  (forall k, 0 <= k < n -> fl_ok (line (p + k - n / 2)) /\ exists l, sf_num (line (p + k - n / 2)) = Some l
      /\ 0 <= l <= 255 * U1 /\ Z.abs (l - v * U1) <= E) ->
  fl_ok (smooth n K line p) /\ exists b, sf_num (smooth n K line p) = Some b /\ 0 <= b <= 255 * U1
    /\ 4096 * Z.abs (b - v * U1) <= 768 * U1 + 4097 * E.
Proof.
  intros Hn (W & HW & HS) Hv HE HE2 HL. pose proof U1_pos as HU.
  assert (VS : fl_ok (smooth n K line p)).
  { apply smooth_ok. intros k Hk. split; [apply HW; auto|apply HL; auto]. }
  split; auto.
  set (L := fun k => match sf_num (line (p + k - n / 2)) with Some l => l | None => 0 end).
  assert (HL' : forall k, 0 <= k < n -> fl_ok (line (p + k - n / 2)) /\ sf_num (line (p + k - n / 2)) = Some (L k)
      /\ 0 <= L k <= 255 * U1 /\ Z.abs (L k - v * U1) <= E).
  { intros k Hk. destruct (HL k Hk) as (V & l & N & B). unfold L. rewrite N. auto. }
  destruct (line_err n (fun k => fl_of_bits (K k)) (fun k => line (p + k - n / 2)) W L) with (m := n)
    as (V & a & Na & Pa & Ea); try lia.
  { intros k Hk. destruct (HW k Hk) as (A & B & C). split; [now apply fl_of_bits_ok|auto]. }
  { intros k Hk. destruct (HL' k Hk) as (A & B & C & _). auto. }
  destruct (limit_num _ a V Na) as (b & Nb & Bb & Cb). exists b. unfold smooth. split; [exact Nb|]. split; auto.
  specialize (Cb (v * U1) ltac:(clear - HU Hv; nia)).
  pose proof (total_near n W L (v * U1) E ltac:(lia) ltac:(intros k Hk; split; [apply HW; auto|apply HL'; auto])) as TN.
  set (P := total n (fun k => W k * L k)) in *. set (S := total n W) in *. clearbody P S.
  assert (D : 4096 * Z.abs (a - v * U1) * U1 <= (768 * U1 + 4097 * E) * U1).
  { replace (4096 * Z.abs (a - v * U1) * U1) with (4096 * Z.abs (a * U1 - v * U1 * U1)).
    2:{ replace (a * U1 - v * U1 * U1) with ((a - v * U1) * U1) by ring. rewrite Z.abs_mul, (Z.abs_eq U1) by lia. ring. }
    assert (n * (U1 * U1) <= 2048 * (U1 * U1)) by (apply Z.mul_le_mono_nonneg_r; [apply Z.mul_nonneg_nonneg; clear - HU; lia|clear - Hn; lia]).
    assert (SV : Z.abs (S * (v * U1) - v * U1 * U1) * 4096 <= 255 * (U1 * U1)).
    { replace (S * (v * U1) - v * U1 * U1) with ((S - U1) * (v * U1)) by ring. rewrite Z.abs_mul, (Z.abs_eq (v * U1)) by (apply Z.mul_nonneg_nonneg; clear - HU Hv; lia).
      replace (Z.abs (S - U1) * (v * U1) * 4096) with (Z.abs (S - U1) * 4096 * (v * U1)) by ring.
      apply Z.le_trans with (U1 * (v * U1)); [apply Z.mul_le_mono_nonneg_r; [apply Z.mul_nonneg_nonneg; clear - HU Hv; lia|exact HS]|].
      replace (U1 * (v * U1)) with (v * (U1 * U1)) by ring. apply Z.mul_le_mono_nonneg_r; [|lia]. apply Z.mul_nonneg_nonneg; lia. }
    assert (SE : 4096 * (S * E) <= 4097 * (E * U1)).
    { replace (4096 * (S * E)) with (4096 * S * E) by ring. replace (4097 * (E * U1)) with (4097 * U1 * E) by ring.
      apply Z.mul_le_mono_nonneg_r; lia. }
    replace ((768 * U1 + 4097 * E) * U1) with (768 * (U1 * U1) + 4097 * (E * U1)) by ring.
    assert (UU : 0 < U1 * U1) by (apply Z.mul_pos_pos; lia).
    set (aU := a * U1) in *. set (X := U1 * U1) in *. set (sv := S * (v * U1)) in *. set (vu := v * U1 * U1) in *. set (se := S * E) in *.
    set (nx := n * X) in *. set (eu := E * U1) in *. clearbody aU X sv vu se nx eu. clear - Ea TN H SV SE UU. lia. }
  apply Z.mul_le_mono_pos_r in D; [|lia]. clear - D Cb. lia.
Qed.

(** A constant plane stays what it was. *)
Theorem smooth2_const kw kh KX KY ixr ixc P c i j v b : 0 < kw <= 2048 -> 0 < kh <= 2048 -> unit_weights kw KX -> unit_weights kh KY ->
  0 <= v <= 255 -> (forall h w, 0 <= h < kh -> 0 <= w < kw -> P (ixr (i + h - kh / 2)) (ixc (j + w - kw / 2)) c = v) ->
  shown_as (smooth2 kw kh KX KY ixr ixc P c i j) b -> b = v.
Proof.
  intros Hw Hh Ux Uy Hv HP Hb. pose proof U1_pos as HU.
  assert (R : forall h, 0 <= h < kh -> let x := smooth kw KX (fun b => fl_of_Z (P (ixr (i + h - kh / 2)) (ixc b) c)) j in
     fl_ok x /\ exists l, sf_num x = Some l /\ 0 <= l <= 255 * U1 /\ 4096 * Z.abs (l - v * U1) <= 768 * U1).
  { intros h Hh'. cbv zeta.
    destruct (smooth_near kw KX (fun b => fl_of_Z (P (ixr (i + h - kh / 2)) (ixc b) c)) j v 0 Hw Ux Hv ltac:(lia) ltac:(lia)) as (V & l & N & B & D).
    - intros k Hk. rewrite (HP h k Hh' Hk). destruct (fl_of_Z_ok v ltac:(clear - Hv; lia)) as [V N]. split; [exact V|].
      exists (v * sf_one). split; [exact N|]. rewrite sf_one_eq. fold U1. split; [clear - Hv HU; nia|]. clear; lia.
    - split; [exact V|]. exists l. split; [exact N|]. split; [exact B|]. clear - D; lia. }
  assert (E3 : exists E, 16 * E <= 3 * U1 /\ 3 * U1 < 16 * (E + 1)) by (exists (3 * U1 / 16); clear; Z.div_mod_to_equations; lia).
  destruct E3 as (E & E1 & E2).
  destruct (smooth_near kh KY (fun a => smooth kw KX (fun b => fl_of_Z (P (ixr a) (ixc b) c)) j) i v E Hh Uy Hv) as (V & l & N & B & D); try lia.
  { intros h Hh'. destruct (R h Hh') as (V & l & N & B & D). split; auto. exists l. split; auto. split; auto. clear - D E2 HU. lia. }
  specialize (Hb l v N). rewrite Hb; [unfold clamp; lia|]. rewrite sf_one_eq. fold U1.
  assert (2 * Z.abs (l - v * U1) < U1) by (clear - D E1 HU; lia). unfold nearest_even. split; [lia|]. intros. lia.
Qed.
