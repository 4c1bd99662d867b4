(** * The weights of a Gaussian kernel add up to one within 1/4096. *)
From Verif Require Import Base ModelFloat ModelDouble ModelConv ModelMatrix ModelGauss SpecBase SpecNum SpecMatrix SpecGauss.
From Verif Require Import ProofMatrix ProofFold ProofFloat ProofFloat2 ProofErr ProofFilter ProofBlur ProofBlur2 ProofBlur3.
From Coq Require Import Floats.SpecFloat Lia ZifyBool ZifyNat.
Open Scope Z_scope.

Lemma pow_52 : 0 <= 2 ^ 52 <= U1.
Proof. split; [apply Z.pow_nonneg; lia|]. unfold U1. apply Z.pow_le_mono_r; lia. Qed.
Lemma pow_1126 : 0 <= 2 ^ 1126 <= U1 * U1.
Proof. split; [apply Z.pow_nonneg; lia|]. unfold U1. rewrite <- Z.pow_add_r by lia. apply Z.pow_le_mono_r; lia. Qed.
Lemma small_1190 x : Z.abs x <= 4 * U1 -> Z.abs x <= 2 ^ 1190.
Proof. intros H. apply BU. pose proof U1_pos. lia. Qed.
Lemma small_2000 x : Z.abs x <= 4096 * U1 -> Z.abs x <= 2 ^ 2000.
Proof.
  intros H. assert (E : 2 ^ 926 * U1 = 2 ^ 2000) by (unfold U1; rewrite <- Z.pow_add_r by lia; reflexivity).
  rewrite <- E. pose proof U1_pos. assert (4096 <= 2 ^ 926) by (change 4096 with (2 ^ 12); apply Z.pow_le_mono_r; lia).
  assert (4096 * U1 <= 2 ^ 926 * U1) by (apply Z.mul_le_mono_nonneg_r; lia). clear E H1. lia.
Qed.
Lemma small_3170 x : Z.abs x <= 4 * (U1 * U1) -> Z.abs x <= 2 ^ 3170.
Proof.
  intros H. assert (E : 2 ^ 1022 * (U1 * U1) = 2 ^ 3170) by (unfold U1; rewrite <- !Z.pow_add_r by lia; reflexivity).
  rewrite <- E. pose proof U1_pos. assert (4 <= 2 ^ 1022) by (change 4 with (2 ^ 2); apply Z.pow_le_mono_r; lia).
  assert (4 * (U1 * U1) <= 2 ^ 1022 * (U1 * U1)) by (apply Z.mul_le_mono_nonneg_r; [apply Z.mul_nonneg_nonneg; lia|lia]). clear E H1. lia.
Qed.

Lemma total_diff n f g e : 0 <= n -> (forall k, 0 <= k < n -> Z.abs (f k - g k) <= e) -> Z.abs (total n f - total n g) <= n * e.
Proof.
  intros Hn. pattern n. apply natlike_ind; auto; [intros; rewrite !total_0; lia|].
  intros m Hm IH H. unfold Z.succ. rewrite !total_S by auto.
  assert (I := IH ltac:(intros; apply H; lia)). specialize (H m ltac:(lia)). lia.
Qed.

Lemma total_const n c : 0 <= n -> total n (fun _ => c) = n * c.
Proof. intros Hn. pattern n. apply natlike_ind; auto. intros k Hk IH. unfold Z.succ. rewrite total_S, IH by auto. ring. Qed.

Lemma total_one n f k : 0 <= k < n -> (forall i, 0 <= i < n -> 0 <= f i) -> f k <= total n f.
Proof.
  intros Hk Hf. pose proof (total_mono (k + 1) n f ltac:(lia) Hf) as H. rewrite total_S in H by lia.
  assert (0 <= total k f); [|lia]. rewrite <- (total_0 f). apply total_mono; [lia|]. intros. apply Hf. lia.
Qed.

(** The size of the reciprocal. *)
Lemma recip_bound U r s : 0 < U -> 0 <= r -> 998 * U <= 1000 * s -> Z.abs (r * s - U * U) * 2 ^ 53 <= U * U -> 1000 * r <= 1003 * U.
Proof.
  intros HU Hr Hs H. apply (Z.mul_le_mono_pos_r _ _ U HU).
  assert (A : r * (998 * U) <= r * (1000 * s)) by (apply Z.mul_le_mono_nonneg_l; lia).
  replace (r * (998 * U)) with (998 * (r * U)) in A by ring. replace (r * (1000 * s)) with (1000 * (r * s)) in A by ring.
  replace (1000 * r * U) with (1000 * (r * U)) by ring. replace (1003 * U * U) with (1003 * (U * U)) by ring.
  assert (0 < U * U) by (apply Z.mul_pos_pos; lia).
  set (rU := r * U) in *. set (rs := r * s) in *. set (X := U * U) in *. clearbody rU rs X. lia.
Qed.

(** One weight. *)
Lemma weight_err U t t2 f r d w : 0 < U -> 0 <= t <= U -> 0 <= t2 <= U * U -> 0 <= f -> 1000 * f <= 1001 * U -> 0 <= r -> 1000 * r <= 1003 * U ->
  0 <= d -> Z.abs (d * U - f * r) * 2 ^ 53 <= Z.abs (f * r) + t2 -> Z.abs (w - d) * 2 ^ 24 <= Z.abs d + t * 1 -> t * 1000 <= U ->
  100000 * (Z.abs (w * U - f * r) * 2 ^ 24) <= 101000 * (U * U).
Proof.
  intros HU Ht Ht2 Hf Hf1 Hr Hr1 Hd H1 H2 Ht3.
  assert (UU : 0 < U * U) by (apply Z.mul_pos_pos; lia).
  assert (FR : 1000000 * (f * r) <= 1004003 * (U * U)).
  { assert (1000 * f * (1000 * r) <= 1001 * U * (1003 * U)) by (apply Z.mul_le_mono_nonneg; lia).
    replace (1000 * f * (1000 * r)) with (1000000 * (f * r)) in H by ring. replace (1001 * U * (1003 * U)) with (1004003 * (U * U)) in H by ring. exact H. }
  assert (FR0 : 0 <= f * r) by (apply Z.mul_nonneg_nonneg; lia).
  rewrite (Z.abs_eq (f * r)) in H1 by lia. rewrite (Z.abs_eq d) in H2 by lia. rewrite Z.mul_1_r in H2.
  assert (H3 : Z.abs (w * U - d * U) * 2 ^ 24 <= d * U + t * U).
  { rewrite <- Z.mul_sub_distr_r, Z.abs_mul, (Z.abs_eq U) by lia.
    replace (Z.abs (w - d) * U * 2 ^ 24) with (Z.abs (w - d) * 2 ^ 24 * U) by ring. rewrite <- Z.mul_add_distr_r.
    apply Z.mul_le_mono_nonneg_r; lia. }
  assert (TU : 1000 * (t * U) <= U * U).
  { replace (1000 * (t * U)) with (t * 1000 * U) by ring. apply Z.mul_le_mono_nonneg_r; lia. }
  set (fr := f * r) in *. set (dU := d * U) in *. set (wU := w * U) in *. set (tU := t * U) in *. set (X := U * U) in *.
  clearbody fr dU wU tU X. clear - UU FR FR0 H1 H3 TU Ht2. lia.
Qed.

Section Weights.
  Variables (n : Z) (T : Z -> sf) (t : Z -> Z).
  Hypothesis Hn : 0 < n <= 2048.
  Hypothesis HT : forall i, 0 <= i < n -> db_ok (T i) /\ sf_num (T i) = Some (t i) /\ 0 <= t i <= U1.
  Hypothesis Hc : exists i, 0 <= i < n /\ t i = U1.

  Let tp := tap fl_word fl_of_bits fl_of_db db_of_fl T.

  Lemma tiny_948 : 2 ^ 948 * 1000000 <= U1.
  Proof. unfold U1. replace 1074 with (948 + 126) by lia. rewrite Z.pow_add_r by lia. apply Z.mul_le_mono_nonneg_l; [apply Z.pow_nonneg; lia|]. lia. Qed.

  Lemma tap_num : exists f : Z -> Z, forall i, 0 <= i < n ->
    db_ok (tp i) /\ sf_num (tp i) = Some (f i) /\ 0 <= f i /\ 1000 * Z.abs (f i - t i) <= U1.
  Proof.
    exists (fun i => match sf_num (tp i) with Some a => a | None => 0 end). intros i Hi.
    destruct (HT i Hi) as (V & N & B). pose proof U1_pos as HU.
    destruct (fl_of_db_err (T i) (t i) V N) as (V1 & c & N1 & P1 & E1).
    { apply small_1190. clear - B. lia. }
    assert (ET : tp i = db_of_fl (fl_of_db (T i))) by (unfold tp, tap; now rewrite fl_word_back).
    destruct (db_of_fl_ok _ V1) as [V2 N2]. rewrite ET, N2, N1. split; auto. split; auto. split; [apply P1; apply B|].
    pose proof tiny_948 as TT. rewrite (Z.abs_eq (t i)) in E1 by apply B. set (y := 2 ^ 948) in *. clearbody y.
    clear - E1 B TT HU. lia.
  Qed.

  Lemma taps_num f : (forall i, 0 <= i < n -> db_ok (tp i) /\ sf_num (tp i) = Some (f i) /\ 0 <= f i /\ 1000 * f i <= 1001 * U1) ->
    forall m, 0 <= m -> m <= n -> let acc := foldz m (fun a i => db_add a (tp i)) (db_of_Z 0) in
      db_ok acc /\ exists s, sf_num acc = Some s /\ 0 <= s /\ Z.abs (s - total m f) * 2 ^ 40 <= m * U1 /\ total m f <= 2 * m * U1.
  Proof.
    intros Hf m Hm. pose proof U1_pos as HU. pattern m. apply natlike_ind; auto.
    - intros _. destruct (db_of_Z_ok 0 ltac:(lia)) as [V N]. split; [exact V|]. exists 0. split; [exact N|]. rewrite total_0. clear; lia.
    - clear m Hm. intros m Hm IH Hmn. unfold Z.succ in *. cbv zeta in *. destruct (IH ltac:(lia)) as (V & s & N & P & E & TB). clear IH.
      rewrite foldz_S by auto. set (acc := foldz m _ _) in *. clearbody acc.
      destruct (Hf m ltac:(lia)) as (Vf & Nf & Pf & Bf).
      assert (MB : 2 * m * U1 <= 4094 * U1) by (apply Z.mul_le_mono_nonneg_r; clear - HU Hm Hmn Hn; lia).
      assert (MC : m * U1 <= 2048 * U1) by (apply Z.mul_le_mono_nonneg_r; clear - HU Hm Hmn Hn; lia).
      assert (SB : s + f m <= 4096 * U1).
      { set (mu := m * U1) in *. set (mv := 2 * m * U1) in *. set (tt := total m f) in *. clearbody mu mv tt. clear - E TB MB MC Bf HU P. lia. }
      destruct (db_add_err acc (tp m) s (f m) V Vf N Nf) as (V' & c & N' & P' & E').
      { apply small_2000. rewrite Z.abs_eq by (clear - P Pf; lia). exact SB. }
      split; auto. exists c. split; auto. split; [apply P'; clear - P Pf; lia|]. rewrite total_S by auto.
      rewrite (Z.abs_eq (s + f m)) in E' by (clear - P Pf; lia).
      assert (P52 : 2 ^ 52 * 1000 <= U1).
      { unfold U1. replace 1074 with (52 + 1022) by lia. rewrite Z.pow_add_r by lia. apply Z.mul_le_mono_nonneg_l; [apply Z.pow_nonneg; lia|].
        change (2 ^ 1022) with (2 ^ (10 + 1012)). rewrite Z.pow_add_r by lia. assert (0 < 2 ^ 1012) by (apply pow_pos; lia). clear - H. lia. }
      split.
      + replace ((m + 1) * U1) with (m * U1 + U1) by ring. set (mu := m * U1) in *. set (tt := total m f) in *. clearbody mu tt.
        clear - E E' P52 SB HU. lia.
      + replace (2 * (m + 1) * U1) with (2 * m * U1 + 2 * U1) by ring. clear - TB Bf HU. lia.
  Qed.

  Theorem weight4_unit : unit_weights n (weight4 n T).
  Proof.
    pose proof U1_pos as HU. destruct tap_num as (f & Hf).
    assert (Hf2 : forall i, 0 <= i < n -> db_ok (tp i) /\ sf_num (tp i) = Some (f i) /\ 0 <= f i /\ 1000 * f i <= 1001 * U1).
    { intros i Hi. destruct (Hf i Hi) as (A & B & C & D). destruct (HT i Hi) as (_ & _ & E). split; auto. split; auto. split; auto. clear - D E. lia. }
    destruct (taps_num f Hf2 n ltac:(lia) ltac:(lia)) as (Vs & s & Ns & Ps & Es & _).
    fold (taps n fl_word fl_of_bits fl_of_db db_of_fl T) in Vs, Ns. 
    assert (FC : 999 * U1 <= 1000 * total n f).
    { destruct Hc as (i & Hi & Ei). destruct (Hf i Hi) as (_ & _ & _ & D). rewrite Ei in D.
      assert (f i <= total n f) by (apply total_one; auto; intros; now apply Hf2). clear - D H HU. lia. }
    assert (SB : 2 ^ 29 * Z.abs (s - total n f) <= U1).
    { assert (n * U1 <= 2048 * U1) by (apply Z.mul_le_mono_nonneg_r; clear - HU Hn; lia). set (nu := n * U1) in *. clearbody nu. clear - Es H. lia. }
    assert (FM : 1000 * total n f <= 1001 * 2048 * U1).
    { assert (H : 1000 * total n f <= n * (1001 * U1)).
      { rewrite (Z.mul_comm 1000), <- (total_scale n f 1000), <- (total_const n (1001 * U1)) by lia.
        apply total_le; [lia|]. intros k Hk. destruct (Hf2 k Hk) as (_ & _ & _ & D). rewrite Z.mul_comm. exact D. }
      assert (H0 : n * (1001 * U1) <= 2048 * (1001 * U1)) by (apply Z.mul_le_mono_nonneg_r; clear - HU Hn; lia). clear - H H0. lia. }
    assert (HS : 999 * U1 <= 1001 * s) by (clear - FC SB HU; lia).
    assert (S0 : 0 < s) by (clear - HS HU; lia).
    destruct (db_of_Z_ok 1 ltac:(clear; lia)) as [Vo No]. rewrite sf_one_eq, Z.mul_1_l in No. fold U1 in No.
    destruct (db_div_err (db_of_Z 1) (taps n fl_word fl_of_bits fl_of_db db_of_fl T) U1 s Vo Vs No Ns HU S0) as (Vr & r & Nr & Pr & Er).
    { assert (P9 : 4096 <= 2 ^ 900) by (change 4096 with (2 ^ 12); apply Z.pow_le_mono_r; lia).
      apply Z.le_trans with (U1 * 4096); [|apply Z.mul_le_mono_nonneg_l; [clear - HU; lia|exact P9]]. clear - SB FM HU. lia. }
    { assert (P9 : 4096 <= 2 ^ 1000) by (change 4096 with (2 ^ 12); apply Z.pow_le_mono_r; lia).
      apply Z.le_trans with (s * 4096); [|apply Z.mul_le_mono_nonneg_l; [clear - S0; lia|exact P9]]. clear - HS HU. lia. }
    fold U1 in Er. set (inv := db_div (db_of_Z 1) (taps n fl_word fl_of_bits fl_of_db db_of_fl T)) in *.
    assert (Rb : 1000 * r <= 1003 * U1).
    { apply (recip_bound U1 r s); auto. clear - FC SB HU. lia. }
    assert (UU : 0 < U1 * U1) by (apply Z.mul_pos_pos; exact HU).
    set (W := fun i => match sf_num (fl_of_bits (weight4 n T i)) with Some a => a | None => 0 end).
    assert (HW : forall i, 0 <= i < n -> 0 <= weight4 n T i < 4294967296 /\ sf_num (fl_of_bits (weight4 n T i)) = Some (W i) /\ 0 <= W i
        /\ 100000 * (Z.abs (W i * U1 - f i * r) * 2 ^ 24) <= 101000 * (U1 * U1)).
    { intros i Hi. destruct (Hf2 i Hi) as (Vf & Nf & Pf & Bf).
      assert (FR : 1000000 * (f i * r) <= 1004003 * (U1 * U1)).
      { assert (H : 1000 * f i * (1000 * r) <= 1001 * U1 * (1003 * U1)) by (apply Z.mul_le_mono_nonneg; try assumption; clear - Pf Pr; lia).
        replace (1000 * f i * (1000 * r)) with (1000000 * (f i * r)) in H by ring. replace (1001 * U1 * (1003 * U1)) with (1004003 * (U1 * U1)) in H by ring. exact H. }
      assert (FR0 : 0 <= f i * r) by (apply Z.mul_nonneg_nonneg; assumption).
      destruct (db_mul_err (tp i) inv (f i) r Vf Vr Nf Nr) as (Vd & d & Nd & Pd & Ed).
      { apply small_3170. rewrite Z.abs_eq by exact FR0. set (fr := f i * r) in *. set (X := U1 * U1) in *. clearbody fr X. clear - FR UU. lia. }
      fold U1 in Ed. specialize (Pd FR0).
      assert (DB : d <= 4 * U1).
      { apply (Z.mul_le_mono_pos_r _ _ U1 HU). replace (4 * U1 * U1) with (4 * (U1 * U1)) by ring.
        rewrite (Z.abs_eq (f i * r)) in Ed by exact FR0. pose proof pow_1126 as Q. set (z := 2 ^ 1126) in *. set (fr := f i * r) in *. set (X := U1 * U1) in *.
        set (dU := d * U1) in *. clearbody fr X z dU. clear - FR FR0 UU Ed Q. lia. }
      destruct (fl_of_db_err (db_mul (tp i) inv) d Vd Nd) as (Vw & w & Nw & Pw & Ew).
      { apply small_1190. rewrite Z.abs_eq by exact Pd. exact DB. }
      assert (EW : fl_of_bits (weight4 n T i) = fl_of_db (db_mul (tp i) inv)).
      { unfold weight4. fold tp. fold inv. now apply fl_word_back. }
      split; [unfold weight4, fl_word; apply Z.mod_pos_bound; clear; lia|]. unfold W. rewrite EW, Nw. split; auto. split; [now apply Pw|].
      apply (weight_err U1 (2 ^ 948) (2 ^ 1126) (f i) r d w HU pow_948 pow_1126 Pf Bf Pr Rb Pd Ed); [rewrite Z.mul_1_r; exact Ew|].
      pose proof tiny_948 as Q. set (y := 2 ^ 948) in *. clearbody y. clear - Q HU. lia. }
    exists W. split; [intros k Hk; destruct (HW k Hk) as (A & B & C & _); auto|].
    assert (TW : 100000 * 2 ^ 24 * Z.abs (total n W * U1 - total n f * r) <= n * (101000 * (U1 * U1))).
    { rewrite <- !total_scale by (clear - Hn; lia). rewrite <- (Z.abs_eq (100000 * 2 ^ 24)) by (clear; lia). rewrite <- Z.abs_mul.
      rewrite Z.mul_sub_distr_l, <- !(Z.mul_comm _ (100000 * 2 ^ 24)), <- !total_scale by (clear - Hn; lia).
      apply total_diff; [clear - Hn; lia|]. intros k Hk. destruct (HW k Hk) as (_ & _ & _ & D).
      rewrite <- Z.mul_sub_distr_r, Z.abs_mul, (Z.abs_eq (100000 * 2 ^ 24)) by (clear; lia).
      set (X := U1 * U1) in *. set (err := Z.abs (W k * U1 - f k * r)) in *. clearbody X err. clear - D. lia. }
    assert (N2 : n * (101000 * (U1 * U1)) <= 2048 * (101000 * (U1 * U1))) by (apply Z.mul_le_mono_nonneg_r; clear - UU Hn; lia).
    assert (SR : 2 ^ 29 * Z.abs (s * r - total n f * r) * 1000 <= 1003 * (U1 * U1)).
    { rewrite <- Z.mul_sub_distr_r, Z.abs_mul, (Z.abs_eq r) by exact Pr.
      replace (2 ^ 29 * (Z.abs (s - total n f) * r) * 1000) with (2 ^ 29 * Z.abs (s - total n f) * (1000 * r)) by ring.
      replace (1003 * (U1 * U1)) with (U1 * (1003 * U1)) by ring.
      apply Z.mul_le_mono_nonneg; [clear; lia|exact SB|clear - Pr; lia|exact Rb]. }
    rewrite (Z.mul_comm r s) in Er.
    assert (FIN : Z.abs (total n W * U1 - U1 * U1) * 4096 <= U1 * U1).
    { set (X := U1 * U1) in *. set (tw := total n W * U1) in *. set (tf := total n f * r) in *. set (sr := s * r) in *. set (nn := n * (101000 * X)) in *.
      clearbody X tw tf sr nn. clear - TW N2 SR Er UU. lia. }
    rewrite <- Z.mul_sub_distr_r, Z.abs_mul, (Z.abs_eq U1) in FIN by (clear - HU; lia).
    apply (Z.mul_le_mono_pos_r _ _ U1 HU). rewrite <- Z.mul_assoc, (Z.mul_comm 4096), Z.mul_assoc. exact FIN.
  Qed.
End Weights.
