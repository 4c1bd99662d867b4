(** * Proofs: QR factors of whole-number matrices, and the leaked blocks. *)
From Verif Require Import Base Logic ModelFloat ModelDouble ModelMatrix ModelEigen SpecBase SpecNum SpecMatrix SpecStat SpecSpectral SpecEigen SpecCxx
  ProofCore ProofEigen ProofEigen2 ProofEigen4.
From Coq Require Import Lia ZifyBool ZifyNat Floats.SpecFloat.
Open Scope Z_scope.

Theorem qr_whole e s a q r m A z S n : heap_ok s -> 0 < m -> m * m <= INT_MAX -> a <> q -> a <> r -> q <> r ->
  matrix s a 4 m m A -> readable s q (m * m * 4) -> readable s r (m * m * 4) ->
  (forall i j, 0 <= i < m -> 0 <= j < m -> is_int (fl_of_bits (A i j)) (z i j)) ->
  (forall j, 0 <= j < m -> sumz m (fun i => z i j) = S j /\ sumz m (fun i => Z.abs (z i j)) <= 16777216
     /\ sumz m (fun i => (z i j - j * S j) * (z i j - j * S j)) = n j * n j /\ 0 < n j <= 4096) ->
  exists s', matrix_QR_float a q r m e s = Ret tt s'
    /\ forall i j, 0 <= i < m -> 0 <= j < m ->
       (exists x c, float_at s' q (i * m + j) x /\ sf_num x = Some c
          /\ Z.abs (c * n j - (z i j - j * S j) * sf_one) * 16777216 <= Z.abs (z i j - j * S j) * sf_one)
       /\ (i < j -> exists x, float_at s' r (i * m + j) x /\ is_int x (S j))
       /\ (i = j -> exists x, float_at s' r (i * m + j) x /\ is_int x (n j)).
Proof.
  intros Hs Hm B N1 N2 N3 HA HQ HR Hz HS.
  destruct (qr_run e s a q r m A Hs Hm B N1 N2 N3 HA HQ HR) as (s' & E & _ & V & _). exists s'. split; [exact E|].
  intros i j Hi Hj. destruct (HS j Hj) as (S1 & S2 & S3 & S4).
  destruct (qr_whole_column m A j (fun i => z i j) (S j) (n j) Hm (proj1 Hj) ltac:(intros; apply Hz; auto) S1 S2 S3 S4) as (T1 & T2 & T3).
  destruct (V i j Hi Hj) as (V1 & V2 & V3 & _). destruct (T3 i Hi) as (c & C1 & C2).
  split; [exists (fl_div (lowered j (float_sum m (column A j)) (column A j i)) (float_norm m (fun i => lowered j (float_sum m (column A j)) (column A j i)))), c; auto|].
  split; intros L; eexists; (split; [|eassumption]); auto.
Qed.

Theorem qr_leaks e s a q r m A : heap_ok s -> 0 < m -> m * m <= INT_MAX -> a <> q -> a <> r -> q <> r ->
  matrix s a 4 m m A -> readable s q (m * m * 4) -> readable s r (m * m * 4) ->
  exists s', matrix_QR_float a q r m e s = Ret tt s' /\ ~ no_leak s s'.
Proof.
  intros Hs Hm B N1 N2 N3 HA HQ HR. destruct (qr_run e s a q r m A Hs Hm B N1 N2 N3 HA HQ HR) as (s' & E & _ & _ & _ & _ & _ & V).
  exists s'. split; [exact E|]. intros L. specialize (V (List.length (objs s)) ltac:(lia)).
  destruct (readable_isb _ _ _ V) as (p & z & d & P & I & _). injection P as <-. apply isb_obj in I as (ad & rt & I). specialize (L _ _ (le_n _) I). discriminate.
Qed.

Theorem eigen_code e s a v l m A L : heap_ok s -> 0 < m -> m * m <= INT_MAX -> v <> a -> v <> l ->
  matrix s a 4 m m A -> (forall k, 0 <= k < m -> word_at s l (k * 4) 4 = Some (L k)) -> readable s v (m * m * 4) ->
  exists s', cal_eigen_vector_float a v l m m e s = Ret tt s'
    /\ matrix s' a 4 m m A
    /\ (forall i k, 0 <= i < m -> 0 <= k < m ->
         let B := fun r c => fl_of_bits (A r c) in let lam := fl_of_bits (L k) in
         float_at s' v (i * m + k)
           (fl_div (e_vector float_earith m B lam i) (fl_of_db (db_sqrt (db_of_fl (e_length2 float_earith m B lam))))))
    /\ files s' = files s /\ unchanged_except [v] s s'
    /\ (forall t, ~ 0 <= t < m * m * 4 -> byte_at s' v t = byte_at s v t)
    /\ no_leak s s'.
Proof. exact (ProofEigen4.eigen_run e s a v l m A L). Qed.
