(** * Properties C88, C89: QR factors and eigenvectors. *)
From Verif Require Import Base ModelFloat ModelDouble ModelMatrix ModelEigen SpecBase SpecNum SpecMatrix SpecStat SpecSpectral SpecEigen SpecCxx
  Fixtures Fixtures2 ProofEx ProofEx6 ProofEigen ProofEigen3 ProofEigen5 ProofEx21.
From Coq Require Import List Lia Floats.SpecFloat Field_theory QArith.Qcanon.
Import ListNotations.
Open Scope Z_scope.

(** C88.  What the call stores, for every matrix: above the diagonal of r the column sums, on it the lengths of the lowered columns, which divided by these lengths are the columns of q. *)
Theorem C88_code : forall e s a q r m A, heap_ok s -> 0 < m -> m * m <= INT_MAX -> a <> q -> a <> r -> q <> r ->
  matrix s a 4 m m A -> readable s q (m * m * 4) -> readable s r (m * m * 4) ->
  exists s', matrix_QR_float a q r m e s = Ret tt s'
    /\ matrix s' a 4 m m A
    /\ (forall i j, 0 <= i < m -> 0 <= j < m -> let t := float_sum m (column A j) in
         let c := fun i => lowered j t (column A j i) in
         float_at s' q (i * m + j) (fl_div (c i) (float_norm m c))
         /\ (i < j -> float_at s' r (i * m + j) t) /\ (i = j -> float_at s' r (i * m + j) (float_norm m c))
         /\ (j < i -> word_at s' r ((i * m + j) * 4) 4 = word_at s r ((i * m + j) * 4) 4))
    /\ files s' = files s /\ unchanged_except [q; r] s s'
    /\ (forall p t, p = q \/ p = r -> ~ 0 <= t < m * m * 4 -> byte_at s' p t = byte_at s p t)
    /\ (forall k, (List.length (objs s) <= k < List.length (objs s) + 2)%nat -> readable s' (Some k) (4 * m)).
Proof. exact qr_run. Qed.
Print Assumptions C88_code.
(** Whole-number matrices: q r is a only in the first column and where column sums vanish.  Missing: the factorisation itself (refuted below). *)
Theorem C88_whole_partial : forall e s a q r m A z S n, heap_ok s -> 0 < m -> m * m <= INT_MAX -> a <> q -> a <> r -> q <> r ->
  matrix s a 4 m m A -> readable s q (m * m * 4) -> readable s r (m * m * 4) ->
  (forall i j, 0 <= i < m -> 0 <= j < m -> is_int (fl_of_bits (A i j)) (z i j)) ->
  (forall j, 0 <= j < m -> sumz m (fun i => z i j) = S j /\ sumz m (fun i => Z.abs (z i j)) <= 16777216
     /\ sumz m (fun i => (z i j - j * S j) * (z i j - j * S j)) = n j * n j /\ 0 < n j <= 4096) ->
  exists s', matrix_QR_float a q r m e s = Ret tt s'
    /\ forall i j, 0 <= i < m -> 0 <= j < m ->
       (exists x c, float_at s' q (i * m + j) x /\ sf_num x = Some c
          /\ Z.abs (c * n j - (z i j - j * S j) * sf_one) * 16777216 <= Z.abs (z i j - j * S j) * sf_one)
       /\ (i < j -> exists x, float_at s' r (i * m + j) x /\ is_int x (S j))
       /\ (i = j -> exists x, float_at s' r (i * m + j) x /\ is_int x (n j)).
Proof. exact qr_whole. Qed.
Print Assumptions C88_whole_partial.
(** The second row of q is zero for the identity, so no r makes q r the identity. *)
Theorem C88_factor_refuted : exists e s a q r s', env_ok e /\ heap_ok s /\ a <> q /\ a <> r /\ q <> r
  /\ matrix s a 4 2 2 (cells 2 (fw [1; 0; 0; 1])) /\ readable s q 16 /\ readable s r 16
  /\ matrix_QR_float a q r 2 e s = Ret tt s'
  /\ forall j, 0 <= j < 2 -> exists x, float_at s' q (1 * 2 + j) x /\ is_int x 0.
Proof. exact qr_identity. Qed.
Print Assumptions C88_factor_refuted.
(** Two blocks are never released, whatever the input. *)
Theorem C88_leak_refuted : forall e s a q r m A, heap_ok s -> 0 < m -> m * m <= INT_MAX -> a <> q -> a <> r -> q <> r ->
  matrix s a 4 m m A -> readable s q (m * m * 4) -> readable s r (m * m * 4) ->
  exists s', matrix_QR_float a q r m e s = Ret tt s' /\ ~ no_leak s s'.
Proof. exact qr_leaks. Qed.
Print Assumptions C88_leak_refuted.
(** C89.  The call stores for every value the scaled result of the algorithm in floats, changes nothing else and releases its memory. *)
Theorem C89_code : forall e s a v l m A L, heap_ok s -> 0 < m -> m * m <= INT_MAX -> v <> a -> v <> l ->
  matrix s a 4 m m A -> (forall k, 0 <= k < m -> word_at s l (k * 4) 4 = Some (L k)) -> readable s v (m * m * 4) ->
  exists s', cal_eigen_vector_float a v l m m e s = Ret tt s'
    /\ matrix s' a 4 m m A
    /\ (forall i k, 0 <= i < m -> 0 <= k < m ->
         let B := fun r c => fl_of_bits (A r c) in let lam := fl_of_bits (L k) in
         float_at s' v (i * m + k)
           (fl_div (e_vector float_earith m B lam i) (fl_of_db (db_sqrt (db_of_fl (e_length2 float_earith m B lam))))))
    /\ files s' = files s /\ unchanged_except [v] s s'
    /\ (forall t, ~ 0 <= t < m * m * 4 -> byte_at s' v t = byte_at s v t)
    /\ no_leak s s'.
Proof. exact eigen_code. Qed.
Print Assumptions C89_code.
(** In exact arithmetic: the vector is an eigenvector once its first entry is multiplied by a00 - lam,
    and as it stands exactly if that entry is zero or a00 - lam is one. *)
Theorem C89_exact : forall (F : Type) (zero one : F) (add mul sub : F -> F -> F) (opp : F -> F) (div : F -> F -> F) (inv : F -> F),
  field_theory zero one add mul sub opp div inv eq ->
  forall m A lam, 1 < m -> (forall k, 1 <= k < m -> leading_regular zero add mul k A lam) ->
  (exists u c, 0 <= c < m /\ u c <> zero /\ eigenpair zero add mul m A lam u) ->
  let v := e_vector (exact_earith zero one add mul sub opp div) m A lam in
  v (m - 1) = one
  /\ eigenpair zero add mul m A lam (fun i => if i =? 0 then mul (sub (A 0 0) lam) (v 0) else v i)
  /\ (eigenpair zero add mul m A lam v <-> mul (v 0) (sub one (sub (A 0 0) lam)) = zero).
Proof. exact @eigen_algorithm. Qed.
Print Assumptions C89_exact.
(** 3 1 / 0 1 with the eigenvalues 1 and 3: the matrix sends the first column, whose first entry is negative, to a vector with positive first entry; the second column contains NaN. *)
Theorem C89_eigenvector_refuted : exists e s a v l s' x y nx ny, env_ok e /\ heap_ok s /\ v <> a /\ v <> l
  /\ matrix s a 4 2 2 eig_A /\ (forall k, 0 <= k < 2 -> word_at s l (k * 4) 4 = Some (eig_L k)) /\ readable s v 16
  /\ cal_eigen_vector_float a v l 2 2 e s = Ret tt s'
  /\ float_at s' v 0 x /\ float_at s' v 2 y /\ sf_num x = Some nx /\ sf_num y = Some ny
  /\ nx < 0 /\ 0 < 3 * nx + ny
  /\ float_at s' v 1 S754_nan.
Proof. exact eigen_wrong. Qed.
Print Assumptions C89_eigenvector_refuted.
Example C88_hypotheses : heap_ok st_qr /\ matrix st_qr (Some 0%nat) 4 2 2 (cells 2 (fw [3; 5; 4; 12]))
  /\ readable st_qr (Some 1%nat) 16 /\ readable st_qr (Some 2%nat) 16
  /\ (forall i j, 0 <= i < 2 -> 0 <= j < 2 -> is_int (fl_of_bits (cells 2 (fw [3; 5; 4; 12]) i j)) (qr_z i j))
  /\ (forall j, 0 <= j < 2 -> sumz 2 (fun i => qr_z i j) = qr_sum j /\ sumz 2 (fun i => Z.abs (qr_z i j)) <= 16777216
     /\ sumz 2 (fun i => (qr_z i j - j * qr_sum j) * (qr_z i j - j * qr_sum j)) = qr_len j * qr_len j /\ 0 < qr_len j <= 4096).
Proof. exact st_qr_ok. Qed.
Example C89_hypotheses : heap_ok st_eig /\ matrix st_eig (Some 0%nat) 4 2 2 eig_A
  /\ (forall k, 0 <= k < 2 -> word_at st_eig (Some 3%nat) (k * 4) 4 = Some (eig_L k)) /\ readable st_eig (Some 1%nat) 16.
Proof. exact st_eig_ok. Qed.
Example C89_hypotheses_field : field_theory 0%Qc 1%Qc Qcplus Qcmult Qcminus Qcopp Qcdiv Qcinv eq.
Proof. exact Qcft. Qed.
Example C89_hypotheses_exact : (forall k, 1 <= k < 2 -> leading_regular 0%Qc Qcplus Qcmult k eig_q 1%Qc)
  /\ (exists u c, 0 <= c < 2 /\ u c <> 0%Qc /\ eigenpair 0%Qc Qcplus Qcmult 2 eig_q 1%Qc u)
  /\ let v := e_vector (exact_earith 0%Qc 1%Qc Qcplus Qcmult Qcminus Qcopp Qcdiv) 2 eig_q 1%Qc in
     v 0 = qq (-1) 4 /\ v 1 = 1%Qc /\ ~ eigenpair 0%Qc Qcplus Qcmult 2 eig_q 1%Qc v.
Proof. exact eig_q_ok. Qed.
