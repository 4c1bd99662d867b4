(** * How far the rounded means and distances are from the true ones, for the functions of the library. *)
From Verif Require Import Base ModelFloat ModelDouble ModelCore SpecBase SpecNum SpecMatrix SpecPixel SpecImage SpecStat SpecSpectral ProofFloat ProofFloat2 ProofStat
  ProofSpectral ProofSpectral2 ProofSpectral3 ProofSpectral4 ProofSum ProofRoot ModelStat ModelSpectral.
From Coq Require Import List Lia.
Import ListNotations.
Open Scope Z_scope.

Lemma element_range s p es n W i : elements_of s p es n W -> 0 <= i < n -> 0 <= W i < 256 ^ Z.of_nat (Z.to_nat es).
Proof. intros H Hi. exact (ProofSpectral.word_range _ _ _ _ _ (H i Hi)). Qed.

Theorem image_mean_error : forall e s p m es W, image s p m es -> sm_chan m = 1 -> In (sm_type m) [1; 12] ->
  elements_of s (sm_data m) es (sm_rows m * sm_cols m) W -> (forall i, 0 <= i < sm_rows m * sm_cols m -> W i <= 65535) ->
  0 < sm_rows m -> 0 < sm_cols m -> sm_rows m * sm_cols m <= 1048576 -> 0 < sumz (sm_rows m * sm_cols m) W ->
  exists x c, simple_mat_mean p e s = Ret x s /\ sf_num x = Some c
    /\ Z.abs (c * (sm_rows m * sm_cols m) - sumz (sm_rows m * sm_cols m) W * sf_one) * 8388608
       <= (sm_rows m * sm_cols m + 3) * sumz (sm_rows m * sm_cols m) W * sf_one.
Proof.
  intros e s p m es W I Hc Ht E HW HR HC Hn HS.
  destruct (mean_error (sm_rows m) (sm_cols m) (fun i => unsigned_reading (sm_type m) (W i)) W HR HC Hn) as (c & N & B).
  - intros i Hi. pose proof (element_range _ _ _ _ _ i E Hi) as R. specialize (HW i Hi). split; [|lia].
    unfold unsigned_reading. replace (sm_type m =? 4) with false by (destruct Ht as [<-|[<-|[]]]; reflexivity). apply fl_of_Z_ok. lia.
  - split; [exact HS|].
    pose proof (ProofFilter.sumz_abs_le (sm_rows m * sm_cols m) W (fun _ => 65535) ltac:(nia) ltac:(intros i Hi; pose proof (element_range _ _ _ _ _ i E Hi); specialize (HW i Hi); cbv beta; lia)) as L.
    rewrite ProofStat.sumz_const in L by nia.
    apply Z.le_trans with (1 * 2 ^ 59); [change (2 ^ 59) with 576460752303423488; lia|apply Z.mul_le_mono_nonneg_r; [apply Z.pow_nonneg|]; lia].
  - eexists _, c. split; [|split; [exact N|exact B]]. apply (mean_exact e s p m es W); auto. destruct Ht as [<-|[<-|[]]]; cbn; auto 6.
Qed.

Theorem array_mean_error : forall k f e s t len W, In (k, f) [(UChar, mean_uchar); (UShort, mean_ushort)] -> 0 < len <= 1048576 ->
  elements_of s t (kind_size k) len W -> 0 < sumz len W ->
  exists x c, f t len e s = Ret x s /\ sf_num x = Some c /\ Z.abs (c * len - sumz len W * sf_one) * 8388608 <= (len + 2) * sumz len W * sf_one.
Proof.
  intros k f e s t len W H Hl E HS.
  assert (HW : forall i, 0 <= i < len -> 0 <= W i <= 65535).
  { intros i Hi. pose proof (element_range _ _ _ _ _ i E Hi) as R. destruct H as [H|[H|[]]]; injection H as <- <-; cbn in R; lia. }
  destruct (average_error len (fun i => fl_of_Z (kind_value k (W i))) W Hl) as (c & N & B).
  - intros i Hi. specialize (HW i Hi). replace (kind_value k (W i)) with (W i) by (destruct H as [H|[H|[]]]; injection H as <- <-; reflexivity).
    split; [apply fl_of_Z_ok|]; lia.
  - split; [exact HS|].
    pose proof (ProofFilter.sumz_abs_le len W (fun _ => 1048576) ltac:(lia) ltac:(intros i Hi; specialize (HW i Hi); cbv beta; lia)) as L.
    rewrite (sumz_const len 1048576) in L by lia. change (2 ^ 58) with 288230376151711744. lia.
  - eexists _, c. split; [|split; [exact N|exact B]]. apply (mean_kinds k f); auto; [|lia]. destruct H as [<-|[<-|[]]]; cbn; auto 6.
Qed.

Theorem float_mean_error : forall e s t len W a, 0 < len <= 1048576 -> elements_of s t 4 len W ->
  (forall i, 0 <= i < len -> sf_num (fl_of_bits (W i)) = Some (a i) /\ 0 <= a i) -> 2 ^ 1000 <= sumz len a <= len * 2 ^ 1132 ->
  exists x c, mean_float t len e s = Ret x s /\ sf_num x = Some c /\ Z.abs (c * len - sumz len a) * 8388608 <= (len + 2) * sumz len a.
Proof.
  intros e s t len W a Hl E HW HS.
  destruct (average_err len (fun i => fl_of_bits (W i)) a Hl) as (c & _ & N & _ & B); [|exact HS|].
  - intros i Hi. destruct (HW i Hi). split; auto. apply fl_of_bits_ok. exact (element_range _ _ _ _ _ i E Hi).
  - eexists _, c. split; [|split; [exact N|exact B]]. apply mean_float_exact; auto. lia.
Qed.

Theorem distance_error : forall e s x y n Wx Wy a b, 0 < n <= 1048576 -> elements_of s x 4 n Wx -> elements_of s y 4 n Wy ->
  (forall i, 0 <= i < n -> sf_num (fl_of_bits (Wx i)) = Some (a i) /\ sf_num (fl_of_bits (Wy i)) = Some (b i)) ->
  2 ^ 2075 <= sumz n (fun i => (a i - b i) * (a i - b i)) <= 2 ^ 2250 ->
  exists r c, euclidean_distance x y n e s = Ret r s /\ sf_num r = Some c
    /\ Z.abs (c * c - sumz n (fun i => (a i - b i) * (a i - b i))) * 8388608 <= (n + 6) * sumz n (fun i => (a i - b i) * (a i - b i)).
Proof.
  intros e s x y n Wx Wy a b Hn Ex Ey HW HS.
  destruct (float_distance_err n (fun i => fl_of_bits (Wx i)) (fun i => fl_of_bits (Wy i)) a b Hn) as (c & N & B); [|exact HS|].
  - intros i Hi. destruct (HW i Hi). repeat split; auto; apply fl_of_bits_ok; [exact (element_range _ _ _ _ _ i Ex Hi)|exact (element_range _ _ _ _ _ i Ey Hi)].
  - eexists _, c. split; [|split; [exact N|exact B]]. apply distance_exact; auto. lia.
Qed.
