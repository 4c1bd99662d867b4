(** * The sum behind the mean of signed numbers. *)
From Verif Require Import Base ModelFloat ModelDouble ModelCore SpecBase SpecNum SpecMatrix SpecStat SpecSpectral ProofFloat ProofFloat2 ProofStat ProofMatrix ProofFilter ProofPca2
  ProofSpectral ProofSpectral2 ProofSpectral3 ProofSpectral4 ProofSum ProofRoot ProofRoot2 ModelSpectral.
From Coq Require Import List Lia.
Import ListNotations.
Open Scope Z_scope.

Lemma whole_sum_err n v z : 0 < n <= 8388608 -> (forall i, 0 <= i < n -> is_int (v i) (z i) /\ Z.abs (z i) <= 65536) -> 0 < sumz n (fun i => Z.abs (z i)) ->
  exists c, sf_num (float_sum n v) = Some c /\ Z.abs (c - sumz n z * sf_one) * 8388608 <= (n + 1) * sumz n (fun i => Z.abs (z i)) * sf_one.
Proof.
  intros Hn Hv HS. pose proof sf_one_pos as HU.
  assert (EA : sumz n (fun i => Z.abs (z i * sf_one)) = sumz n (fun i => Z.abs (z i)) * sf_one).
  { rewrite <- whole_sum by lia. apply sumz_ext. intros i Hi. rewrite Z.abs_mul, (Z.abs_eq sf_one) by lia. reflexivity. }
  assert (SL : sumz n (fun i => Z.abs (z i)) <= n * 65536).
  { pose proof (sumz_abs_le n (fun i => Z.abs (z i)) (fun _ => 65536) ltac:(lia) ltac:(intros i Hi; destruct (Hv i Hi); cbv beta; lia)) as L. rewrite ProofStat.sumz_const in L by lia. lia. }
  destruct (float_sum_err n v (fun i => z i * sf_one)) as (c & V & N & E).
  - lia.
  - intros i Hi. exact (proj1 (Hv i Hi)).
  - rewrite EA, sf_one_eq. apply Z.le_trans with (2 ^ 39 * 2 ^ 1074); [apply Z.mul_le_mono_nonneg_r; [apply Z.pow_nonneg; lia|change (2 ^ 39) with 549755813888; lia]|].
    rewrite <- Z.pow_add_r by lia. apply Z.pow_le_mono_r; lia.
  - exists c. split; [exact N|]. rewrite EA in E. rewrite whole_sum in E by lia. etransitivity; [exact E|].
    assert (P : sf_one = 2 ^ 126 * 2 ^ 948) by (rewrite sf_one_eq; apply two_pow; lia).
    assert (P0 : 0 < 2 ^ 948) by (apply pow_pos; lia).
    assert (8388608 * 2 ^ 948 <= sf_one) by (rewrite P; apply Z.mul_le_mono_nonneg_r; [lia|apply Z.leb_le; reflexivity]).
    set (T := sumz n (fun i => Z.abs (z i))) in *. clearbody T. set (t := 2 ^ 948) in *. clearbody t.
    assert (n * t <= 8388608 * t) by (apply Z.mul_le_mono_nonneg_r; lia).
    assert (1 * sf_one <= T * sf_one) by (apply Z.mul_le_mono_nonneg_r; lia).
    replace ((n + 1) * T * sf_one) with (n * (T * sf_one) + T * sf_one) by ring. rewrite Z.mul_add_distr_l. lia.
Qed.

Theorem array_sum_error : forall k f e s t len W, In (k, f) [(UChar, mean_uchar); (Char, mean_char); (UShort, mean_ushort); (Short, mean_short)] ->
  0 < len <= 8388608 -> elements_of s t (kind_size k) len W -> 0 < sumz len (fun i => Z.abs (kind_value k (W i))) ->
  exists total c, f t len e s = Ret (fl_div total (fl_of_Z len)) s /\ sf_num total = Some c
    /\ Z.abs (c - sumz len (fun i => kind_value k (W i)) * sf_one) * 8388608 <= (len + 1) * sumz len (fun i => Z.abs (kind_value k (W i))) * sf_one.
Proof.
  intros k f e s t len W H Hl E HS.
  destruct (whole_sum_err len (fun i => fl_of_Z (kind_value k (W i))) (fun i => kind_value k (W i)) Hl) as (c & N & B); [|exact HS|].
  - intros i Hi. assert (Z.abs (kind_value k (W i)) <= 65536).
    { pose proof (element_range _ _ _ _ _ i E Hi) as Rg. destruct H as [H|[H|[H|[H|[]]]]]; injection H as <- <-; cbn in Rg |- *.
      - lia.
      - destruct (W i <? 128); lia.
      - lia.
      - destruct (W i <? 32768) eqn:?; lia. }
    split; [apply fl_of_Z_ok; lia|exact H0].
  - eexists _, c. split; [|split; [exact N|exact B]]. rewrite (mean_kinds k f e s t len W); [reflexivity| |lia|exact E].
    destruct H as [H|[H|[H|[H|[]]]]]; rewrite <- H; cbn; auto 8.
Qed.
