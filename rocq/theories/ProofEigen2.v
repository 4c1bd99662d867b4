(** * Proofs: the QR code on whole numbers. *)
From Verif Require Import Base Logic ModelFloat ModelDouble ModelEigen SpecBase SpecNum SpecMatrix SpecStat SpecSpectral SpecEigen
  ProofFloat ProofFloat2 ProofConv ProofGrad ProofStat ProofFold ProofMatrix ProofValid ProofSpectral ProofSpectral4 ProofNorm ProofRot ProofFilter ProofEigen.
From Coq Require Import Lia ZifyBool ZifyNat Floats.SpecFloat.
Open Scope Z_scope.

Lemma div_opp x y : fl_div (SFopp x) y = SFopp (fl_div x y).
Proof.
  unfold fl_div, SFdiv. destruct x as [s|s| |s m e], y as [t|t| |t n f]; cbn [SFopp xorb negb]; try reflexivity; try (destruct s, t; reflexivity).
  destruct (SFdiv_core_binary 24 128 (Z.pos m) e (Z.pos n) f) as [[mz ez] lz].
  replace (xorb (negb s) t) with (negb (xorb s t)) by (destruct s, t; reflexivity). generalize (xorb s t). clear. intros b.
  unfold binary_round_aux. destruct (shr_fexp 24 128 mz ez lz) as [r1 e1]. destruct (shr_fexp 24 128 _ e1 loc_Exact) as [r2 e2].
  destruct (shr_m r2); [reflexivity| |reflexivity]. destruct (e2 <=? 128 - 24); reflexivity.
Qed.
Lemma fint_opp x z : fint x z -> fint (SFopp x) (- z).
Proof.
  intros [V N]. split.
  - destruct x; exact V.
  - destruct x as [s| | |s m e]; cbn in N |- *; try discriminate; injection N as N; f_equal; [lia|]. destruct s; cbn [negb cond_Zopp] in *; lia.
Qed.
(** A quotient of whole numbers of either sign. *)
Lemma whole_quotient x y n m : fint x n -> fint y m -> Z.abs n < 4194304 -> 0 < m <= 16777216 ->
  exists c, fl_ok (fl_div x y) /\ sf_num (fl_div x y) = Some c /\ Z.abs (c * m - n * sf_one) * 16777216 <= Z.abs n * sf_one.
Proof.
  intros X Y Hn Hm. destruct (Z.lt_ge_cases n 0) as [L|L].
  - apply fint_opp in X. destruct (fint_div _ y (- n) m X Y ltac:(lia) Hm) as (V & c & N & C0 & E & _). rewrite div_opp in V, N. exists (- c).
    destruct (fl_div x y) as [s| | |s mm e]; cbn in N; try discriminate; injection N as N; (split; [exact V|]; split; [cbn; f_equal; destruct s; cbn [negb cond_Zopp] in *; lia|]);
    change (2 ^ 24) with 16777216 in E; replace (- c * m - n * sf_one) with (- (c * m - - n * sf_one)) by ring; rewrite Z.abs_opp; replace (Z.abs n) with (- n) by lia; exact E.
  - destruct (fint_div x y n m X Y ltac:(lia) Hm) as (V & c & N & C0 & E & _). exists c. split; [exact V|]. split; [exact N|].
    change (2 ^ 24) with 16777216 in E. rewrite (Z.abs_eq n) by lia. exact E.
Qed.

Lemma lowered_whole j t x T z : 0 <= j -> fint t T -> fint x z -> Z.abs z <= 16777216 -> Z.abs (z - j * T) <= 16777216 -> fint (lowered j t x) (z - j * T).
Proof.
  intros Hj Ht Hx Hz Hw. unfold lowered.
  assert (K : forall k, 0 <= k -> k <= j -> fint (foldz k (fun y _ => fl_sub y t) x) (z - k * T)).
  { intros k Hk. pattern k. apply natlike_ind; auto.
    - intros _. replace (z - 0 * T) with z by lia. exact Hx.
    - intros u Hu IH Hle. unfold Z.succ in *. rewrite foldz_S by auto. replace (z - (u + 1) * T) with (z - u * T - T) by ring.
      apply fint_sub; auto; [apply IH; lia|]. clear - Hz Hw Hu Hle. nia. }
  apply K; lia.
Qed.

(** Column j of an m x m matrix of whole numbers. *)
Lemma qr_whole_column m A j z S n : 0 < m -> 0 <= j -> (forall i, 0 <= i < m -> is_int (column A j i) (z i)) ->
  sumz m z = S -> sumz m (fun i => Z.abs (z i)) <= 16777216 ->
  sumz m (fun i => (z i - j * S) * (z i - j * S)) = n * n -> 0 < n <= 4096 ->
  let t := float_sum m (column A j) in let c := fun i => lowered j t (column A j i) in
  is_int t S /\ is_int (float_norm m c) n
  /\ forall i, 0 <= i < m -> exists q, sf_num (fl_div (c i) (float_norm m c)) = Some q
       /\ Z.abs (q * n - (z i - j * S) * sf_one) * 16777216 <= Z.abs (z i - j * S) * sf_one.
Proof.
  intros Hm Hj Hz HS Ha HQ Hn t c.
  assert (FT : fint t S) by (rewrite <- HS; apply float_sum_whole; auto; lia).
  assert (B : forall i, 0 <= i < m -> Z.abs (z i - j * S) <= 4096).
  { intros i Hi. pose proof (member_le m (fun i => (z i - j * S) * (z i - j * S)) i Hi ltac:(intros; apply Z.square_nonneg)). cbn beta in H. rewrite HQ in H. clear - H Hn. nia. }
  assert (Bz : forall i, 0 <= i < m -> Z.abs (z i) <= 16777216).
  { intros i Hi. pose proof (member_le m (fun i => Z.abs (z i)) i Hi ltac:(intros; lia)). cbn beta in H. lia. }
  assert (FC : forall i, 0 <= i < m -> fint (c i) (z i - j * S)).
  { intros i Hi. apply lowered_whole; auto; [apply Hz; auto|]. pose proof (B i Hi). lia. }
  assert (FN : fint (float_norm m c) n).
  { unfold float_norm. apply fl_of_db_int; [|lia]. apply sqrt_whole; [lia|]. apply db_of_fl_int. rewrite <- HQ. apply float_sum_whole; [lia| |].
    - intros i Hi. apply fint_mul; auto. pose proof (B i Hi). clear - H. nia.
    - rewrite (sumz_ext m _ (fun i => (z i - j * S) * (z i - j * S))) by (intros i Hi; apply Z.abs_eq, Z.square_nonneg). rewrite HQ. clear - Hn. nia. }
  split; [exact FT|]. split; [exact FN|]. intros i Hi. pose proof (B i Hi).
  destruct (whole_quotient (c i) (float_norm m c) (z i - j * S) n (FC i Hi) FN ltac:(lia) ltac:(lia)) as (q & _ & N & E). exists q. auto.
Qed.
