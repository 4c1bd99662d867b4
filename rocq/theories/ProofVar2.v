(** * How far the variance of an image of unsigned numbers is from the true one. *)
From Verif Require Import Base ModelFloat ModelDouble ModelCore ModelStat SpecBase SpecNum SpecMatrix SpecPixel SpecImage SpecStat SpecSpectral SpecVar ProofFloat ProofFloat2 ProofErr ProofValid ProofStat ProofMatrix
  ProofFold ProofFilter ProofPca2 ProofSum ProofRoot ProofRoot2 ProofVar.
From Coq Require Import Floats.SpecFloat List Lia.
Import ListNotations.
Open Scope Z_scope.

(** One multiplication is close enough. *)
Lemma product_squares : squares_closely (fun x => db_mul x x).
Proof.
  intros x a V N B. destruct (db_of_fl_ok x V) as [Vd Nd]. rewrite N in Nd. split; [now apply db_mul_ok|].
  destruct (db_mul_err (db_of_fl x) (db_of_fl x) a a Vd Vd Nd Nd) as (_ & q & Nq & Q0 & E).
  { rewrite Z.abs_eq by apply Z.square_nonneg. etransitivity; [exact B|]. apply Z.pow_le_mono_r; lia. }
  exists q. split; [exact Nq|]. split; [apply Q0, Z.square_nonneg|]. change (2 ^ 53) with 9007199254740992 in E.
  rewrite (Z.abs_eq (a * a)) in E by apply Z.square_nonneg.
  assert (PU : 0 < 2 ^ 1074) by (apply pow_pos; lia). assert (P26 : 2 ^ 1126 = 4503599627370496 * 2 ^ 1074) by (change 4503599627370496 with (2 ^ 52); apply two_pow; lia).
  assert (HA : a = 0 \/ 2 ^ 925 <= Z.abs a).
  { destruct x as [sx|sx| |sx mx ex]; try discriminate N; [left; cbn in N; congruence|right].
    cbn [sf_num] in N. injection N as <-. pose proof (fl_emin _ _ _ V) as He. rewrite Z.abs_mul. 
    assert (PX : 0 < 2 ^ (ex + 1074)) by (apply pow_pos; lia). rewrite (Z.abs_eq (2 ^ (ex + 1074))) by lia.
    apply Z.le_trans with (2 ^ (ex + 1074)); [apply Z.pow_le_mono_r; lia|]. 
    assert (1 <= Z.abs (cond_Zopp sx (Zpos mx))) by (destruct sx; cbn; lia). rewrite <- (Z.mul_1_l (2 ^ (ex + 1074))) at 1. apply Z.mul_le_mono_nonneg_r; lia. }
  destruct HA as [->|HA].
  - specialize (Q0 ltac:(lia)). rewrite P26 in E. set (u := 2 ^ 1074) in *. clearbody u.
    replace (q * u - 0 * 0) with (q * u) in * by ring. assert (0 <= q * u) by (apply Z.mul_nonneg_nonneg; lia).
    assert (q * u < 1 * u) by lia. apply Z.mul_lt_mono_pos_r in H0; [|lia]. replace q with 0 by lia. lia.
  - assert (A2 : 2 ^ 1850 <= a * a).
    { rewrite (two_pow 1850 925 925) by lia. replace (a * a) with (Z.abs a * Z.abs a) by (rewrite <- Z.abs_mul; apply Z.abs_eq, Z.square_nonneg).
      apply Z.mul_le_mono_nonneg; auto; apply Z.pow_nonneg; lia. }
    assert (2 ^ 1126 <= 2 ^ 1850) by (apply Z.pow_le_mono_r; lia).
    set (w := 2 ^ 1126) in *. set (w' := 2 ^ 1850) in *. clearbody w w'. set (qu := q * 2 ^ 1074) in *. clearbody qu. set (aa := a * a) in *. clearbody aa. clear - E A2 H. lia.
Qed.

Lemma spread_identity n z M U : 0 <= n -> sumz n (fun i => (M - z i * U) * (M - z i * U)) = n * M * M - 2 * M * U * sumz n z + U * U * sumz n (fun i => z i * z i).
Proof.
  intros H0. pattern n. apply natlike_ind; [rewrite !sumz_0; ring| |exact H0].
  intros k Hk IH. unfold Z.succ. rewrite !sumz_S by exact Hk. rewrite IH. ring.
Qed.
Lemma squares_below n z B : 0 <= n -> (forall i, 0 <= i < n -> 0 <= z i <= B) -> sumz n (fun i => z i * z i) <= B * sumz n z.
Proof.
  intros H0. pattern n. apply natlike_ind; [rewrite !sumz_0; lia| |exact H0].
  intros k Hk IH Hz. unfold Z.succ in *. rewrite !sumz_S by exact Hk. specialize (IH ltac:(intros; apply Hz; lia)). specialize (Hz k ltac:(lia)).
  assert (z k * z k <= B * z k) by (apply Z.mul_le_mono_nonneg_r; lia). lia.
Qed.
Lemma float_mean_ok R C v : 0 <= R * C -> (forall i, 0 <= i < R * C -> fl_ok (v i)) -> fl_ok (float_mean R C v).
Proof.
  intros Hn Hv. unfold float_mean. apply fl_div_ok; [apply fl_div_ok|]; try apply fl_of_Z_valid.
  remember (R * C) as n. clear Heqn. revert Hv. pattern n. apply natlike_ind; [intros _; reflexivity| |exact Hn].
  intros k Hk IH Hv. unfold Z.succ. rewrite foldz_S by exact Hk. apply fl_add_ok; [apply IH; intros; apply Hv; lia|apply Hv; lia].
Qed.

Theorem image_variance_error : forall pow2 e s p m es W n, squares_closely pow2 -> image s p m es -> sm_chan m = 1 -> In (sm_type m) [1; 12] ->
  elements_of s (sm_data m) es n W -> (forall i, 0 <= i < n -> W i <= 65535) ->
  0 < sm_rows m -> 0 < sm_cols m -> n = sm_rows m * sm_cols m -> n <= 1048576 -> sumz n W * sumz n W < n * sumz n (fun i => W i * W i) ->
  exists x c k, simple_mat_variance pow2 p e s = Ret x s /\ sf_num x = Some c /\ 0 <= k
    /\ k * (8388608 * 8388608) <= (n + 3) * sumz n W * sf_one * ((n + 3) * sumz n W * sf_one)
    /\ Z.abs (c * n * n * sf_one - ((n * sumz n (fun i => W i * W i) - sumz n W * sumz n W) * (sf_one * sf_one) + k)) * 8388608
       <= (n + 6) * ((n * sumz n (fun i => W i * W i) - sumz n W * sumz n W) * (sf_one * sf_one) + k).
Proof.
  intros pow2 e s p m es W n HP I Hc Ht E HW HR HC En Hn HQ. set (R := sm_rows m) in *. set (C := sm_cols m) in *.
  assert (Hn0 : 0 < n) by (clear - HR HC En; nia).
  assert (HW0 : forall i, 0 <= i < n -> 0 <= W i <= 65535).
  { intros i Hi. pose proof (element_range _ _ _ _ _ i E Hi) as Rg. specialize (HW i Hi). lia. }
  pose proof (squares_below n W 65535 ltac:(lia) HW0) as SB.
  assert (S0 : 0 <= sumz n W) by (apply sumz_nonneg; [lia|intros i Hi; apply HW0, Hi]).
  assert (SS0 : 0 <= sumz n (fun i => W i * W i)) by (apply sumz_nonneg; [lia|intros; apply Z.square_nonneg]).
  assert (HS : 0 < sumz n W). { destruct (Z.eq_dec (sumz n W) 0) as [Z0|]; [|lia]. rewrite Z0 in *. assert (sumz n (fun i => W i * W i) = 0) as X by lia. rewrite X in HQ. lia. }
  assert (SL : sumz n W <= n * 65535).
  { pose proof (ProofFilter.sumz_abs_le n W (fun _ => 65535) ltac:(lia) ltac:(intros i Hi; specialize (HW0 i Hi); cbv beta; lia)) as L.
    rewrite ProofStat.sumz_const in L by lia. lia. }
  set (v := fun i => unsigned_reading (sm_type m) (W i)).
  assert (Hv : forall i, 0 <= i < n -> is_int (v i) (W i) /\ 0 <= W i).
  { intros i Hi. specialize (HW0 i Hi). split; [|lia]. unfold v, unsigned_reading.
    replace (sm_type m =? 4) with false by (destruct Ht as [<-|[<-|[]]]; reflexivity). apply fl_of_Z_ok. lia. }
  destruct (mean_error R C v W HR HC ltac:(lia)) as (M & NM & BM); rewrite <- ?En; [exact Hv| |].
  { split; [exact HS|]. apply Z.le_trans with (1 * 2 ^ 59); [change (2 ^ 59) with 576460752303423488; lia|apply Z.mul_le_mono_nonneg_r; [apply Z.pow_nonneg|]; lia]. }
  rewrite <- En in BM. 
  pose proof (spread_identity n W M sf_one ltac:(lia)) as SI.
  set (S := sumz n W) in *. set (SS := sumz n (fun i => W i * W i)) in *.
  assert (ID : n * sumz n (fun i => (M - W i * sf_one) * (M - W i * sf_one)) = (n * SS - S * S) * (sf_one * sf_one) + (M * n - S * sf_one) * (M * n - S * sf_one)).
  { rewrite SI. ring. }
  set (D := sumz n (fun i => (M - W i * sf_one) * (M - W i * sf_one))) in *. clear SI.
  pose proof sf_one_pos as HU.
  set (dl := M * n - S * sf_one) in *.
  assert (HK : dl * dl = Z.abs dl * Z.abs dl) by (rewrite <- Z.abs_mul; apply eq_sym, Z.abs_eq, Z.square_nonneg).
  set (K := dl * dl) in *. assert (K0 : 0 <= K) by (unfold K; apply Z.square_nonneg).
  assert (HKB : K * (8388608 * 8388608) <= (n + 3) * S * sf_one * ((n + 3) * S * sf_one)).
  { rewrite HK. replace (Z.abs dl * Z.abs dl * (8388608 * 8388608)) with (Z.abs dl * 8388608 * (Z.abs dl * 8388608)) by ring. apply Z.mul_le_mono_nonneg; lia. }
  assert (UU : sf_one * sf_one = 2 ^ 2148) by (rewrite sf_one_eq; symmetry; apply two_pow; lia).
  assert (P0 : 0 < 2 ^ 2148) by (apply pow_pos; lia).
  assert (KL : K <= n * n * 4294967296 * (sf_one * sf_one)).
  { assert (Z.abs dl <= n * 65536 * sf_one).
    { apply Z.le_trans with (S * sf_one); [|apply Z.mul_le_mono_nonneg_r; lia].
      apply (Z.mul_le_mono_pos_r _ _ 8388608); [lia|]. etransitivity; [exact BM|]. replace (S * sf_one * 8388608) with (8388608 * (S * sf_one)) by ring. rewrite <- Z.mul_assoc.
      apply Z.mul_le_mono_nonneg_r; [apply Z.mul_nonneg_nonneg; lia|lia]. }
    rewrite HK. replace (n * n * 4294967296 * (sf_one * sf_one)) with (n * 65536 * sf_one * (n * 65536 * sf_one)) by ring. apply Z.mul_le_mono_nonneg; lia. }
  assert (QL : n * SS - S * S <= n * n * 4294967296).
  { assert (n * SS <= n * (n * 4294967296)) by (apply Z.mul_le_mono_nonneg_l; lia). assert (0 <= S * S) by apply Z.square_nonneg. lia. }
  assert (Q1 : 1 <= n * SS - S * S) by lia. set (Q := n * SS - S * S) in *. clearbody Q K.
  assert (DL : 2 ^ 2095 <= D).
  { apply (Z.mul_le_mono_pos_l _ _ n Hn0). rewrite ID. apply Z.le_trans with (1 * (sf_one * sf_one)); [|assert (1 * (sf_one * sf_one) <= Q * (sf_one * sf_one)) by (apply Z.mul_le_mono_nonneg_r; lia); lia].
    rewrite Z.mul_1_l, UU. apply Z.le_trans with (2 ^ 20 * 2 ^ 2095); [apply Z.mul_le_mono_nonneg_r; [apply Z.pow_nonneg; lia|change (2 ^ 20) with 1048576; lia]|].
    rewrite <- Z.pow_add_r by lia. apply Z.pow_le_mono_r; lia. }
  assert (DU : D <= R * 2 ^ 2206).
  { apply Z.le_trans with (1 * 2 ^ 2206); [|apply Z.mul_le_mono_nonneg_r; [apply Z.pow_nonneg|]; lia]. rewrite Z.mul_1_l.
    apply (Z.mul_le_mono_pos_l _ _ n Hn0). rewrite ID. rewrite UU in *.
    assert (Q * 2 ^ 2148 <= n * n * 4294967296 * 2 ^ 2148) by (apply Z.mul_le_mono_nonneg_r; lia).
    apply Z.le_trans with (n * (n * 8589934592 * 2 ^ 2148)); [lia|]. apply Z.mul_le_mono_nonneg_l; [lia|].
    apply Z.le_trans with (2 ^ 53 * 2 ^ 2148); [apply Z.mul_le_mono_nonneg_r; [lia|change (2 ^ 53) with 9007199254740992; lia]|].
    rewrite <- Z.pow_add_r by lia. apply Z.pow_le_mono_r; lia. }
  destruct (float_variance_err pow2 R C v (fun i => W i * sf_one) M HP HR HC) as (r & Nr & Er); rewrite <- ?En.
  - exact Hn.
  - intros i Hi. exact (proj1 (Hv i Hi)).
  - apply float_mean_ok; rewrite <- En; [lia|]. intros i Hi. apply (proj1 (Hv i Hi)).
  - exact NM.
  - fold D. split; [exact DL|exact DU].
  - rewrite <- En in Er. fold D in Er. rewrite <- sf_one_eq in Er.
    eexists _, r, K. split; [|split; [exact Nr|]; split; [exact K0|]; split; [exact HKB|]].
    + apply (variance_exact pow2 e s p m es W); auto; [|assert (E2 := E); rewrite En in E2; exact E2]. destruct Ht as [<-|[<-|[]]]; cbn; auto 6.
    + rewrite <- ID. replace (r * n * n * sf_one - n * D) with (n * (r * n * sf_one - D)) by ring. rewrite Z.abs_mul, (Z.abs_eq n) by lia.
      rewrite <- Z.mul_assoc. replace ((n + 6) * (n * D)) with (n * ((n + 6) * D)) by ring. apply Z.mul_le_mono_nonneg_l; lia.
Qed.
