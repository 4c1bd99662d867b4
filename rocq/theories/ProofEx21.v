(** * QR and eigenvectors: concrete states. *)
From Verif Require Import Base ModelFloat ModelDouble ModelMatrix ModelEigen SpecBase SpecNum SpecMatrix SpecStat SpecSpectral SpecEigen.
From Verif Require Import Fixtures Fixtures2 ProofEx ProofEx6 ProofEigen ProofEigen2 ProofEigen3 ProofEigen4 ProofEigen5.
From Coq Require Import List Lia Floats.SpecFloat ZifyBool Field_theory QArith.Qcanon.
Import ListNotations.
Open Scope Z_scope.

(** A 2x2 float matrix, two 2x2 blocks for results and two floats. *)
Definition eig_st (l l' : list Z) : st :=
  mkSt [mkObj 4096 16 0 true (CBytes (wordsn 4 (fw l))); mkObj 8192 16 1 true (CBytes (wordsn 4 [9; 9; 9; 9]));
        mkObj 12288 16 2 true (CBytes (wordsn 4 [9; 9; 9; 9])); mkObj 16384 8 3 true (CBytes (wordsn 4 (fw l')))] [].
Ltac eig_mat := let i := fresh in let j := fresh in let Hi := fresh in let Hj := fresh in
  intros i j Hi Hj; destruct (split2 i Hi) as [->| ->], (split2 j Hj) as [->| ->]; vm_compute; reflexivity.
Ltac eig_rd := do 3 eexists; split; [reflexivity|]; split; [reflexivity|cbn; lia].

Lemma qr_identity : exists e s a q r s', env_ok e /\ heap_ok s /\ a <> q /\ a <> r /\ q <> r
  /\ matrix s a 4 2 2 (cells 2 (fw [1; 0; 0; 1])) /\ readable s q 16 /\ readable s r 16
  /\ matrix_QR_float a q r 2 e s = Ret tt s'
  /\ forall j, 0 <= j < 2 -> exists x, float_at s' q (1 * 2 + j) x /\ is_int x 0.
Proof.
  destruct (qr_run ex_env (eig_st [1; 0; 0; 1] [0; 0]) (Some 0%nat) (Some 1%nat) (Some 2%nat) 2 (cells 2 (fw [1; 0; 0; 1]))) as (s' & E & _ & V & _);
    [ex_heap_tac|lia|unfold INT_MAX; lia|discriminate|discriminate|discriminate|eig_mat|eig_rd|eig_rd|].
  exists ex_env, (eig_st [1; 0; 0; 1] [0; 0]), (Some 0%nat), (Some 1%nat), (Some 2%nat), s'.
  split; [exact ex_env_ok|]. split; [ex_heap_tac|]. do 3 (split; [discriminate|]). split; [eig_mat|]. do 2 (split; [eig_rd|]). split; [exact E|].
  intros j Hj. destruct (V 1 j ltac:(lia) Hj) as (V1 & _). eexists. split; [exact V1|].
  destruct (split2 j Hj) as [->| ->]; split; vm_compute; reflexivity.
Qed.

(** 3 1 / 0 1 with the eigenvalues 1 and 3. *)
Definition eig_A : Z -> Z -> Z := cells 2 (fw [3; 1; 0; 1]).
Definition eig_L (k : Z) : Z := nth (Z.to_nat k) (fw [1; 3]) 0.
Definition st_eig : st := eig_st [3; 1; 0; 1] [1; 3].
Lemma st_eig_ok : heap_ok st_eig /\ matrix st_eig (Some 0%nat) 4 2 2 eig_A
  /\ (forall k, 0 <= k < 2 -> word_at st_eig (Some 3%nat) (k * 4) 4 = Some (eig_L k)) /\ readable st_eig (Some 1%nat) 16.
Proof. split; [ex_heap_tac|]. split; [eig_mat|]. split; [|eig_rd]. intros k Hk. destruct (split2 k Hk) as [->| ->]; vm_compute; reflexivity. Qed.

Lemma eigen_wrong : exists e s a v l s' x y nx ny, env_ok e /\ heap_ok s /\ v <> a /\ v <> l
  /\ matrix s a 4 2 2 eig_A /\ (forall k, 0 <= k < 2 -> word_at s l (k * 4) 4 = Some (eig_L k)) /\ readable s v 16
  /\ cal_eigen_vector_float a v l 2 2 e s = Ret tt s'
  /\ float_at s' v 0 x /\ float_at s' v 2 y /\ sf_num x = Some nx /\ sf_num y = Some ny
  /\ nx < 0 /\ 0 < 3 * nx + ny
  /\ float_at s' v 1 S754_nan.
Proof.
  destruct st_eig_ok as (H1 & H2 & H3 & H4).
  destruct (eigen_run ex_env st_eig (Some 0%nat) (Some 1%nat) (Some 3%nat) 2 eig_A eig_L H1) as (s' & E & _ & V & _);
    [lia|unfold INT_MAX; lia|discriminate|discriminate|exact H2|exact H3|exact H4|].
  exists ex_env, st_eig, (Some 0%nat), (Some 1%nat), (Some 3%nat), s'. do 2 eexists. exists (- (16276291 * 2 ^ 1048)), (16276291 * 2 ^ 1050).
  split; [exact ex_env_ok|]. split; [exact H1|]. do 2 (split; [discriminate|]). do 3 (split; [assumption|]). split; [exact E|].
  split; [exact (V 0 0 ltac:(lia) ltac:(lia))|]. split; [exact (V 1 0 ltac:(lia) ltac:(lia))|].
  split; [vm_compute; reflexivity|]. split; [vm_compute; reflexivity|]. split; [reflexivity|]. split; [reflexivity|].
  pose proof (V 0 1 ltac:(lia) ltac:(lia)) as X.
  match type of X with float_at _ _ _ ?y => assert (Y : y = S754_nan) by (vm_compute; reflexivity); rewrite Y in X end. exact X.
Qed.

(** The same matrix over the rationals. *)
Definition eig_q (i j : Z) : Qc := nth (Z.to_nat (i * 2 + j)) [qq 3 1; qq 1 1; qq 0 1; qq 1 1] (qq 0 1).
Lemma eig_q_ok : (forall k, 1 <= k < 2 -> leading_regular 0%Qc Qcplus Qcmult k eig_q 1%Qc)
  /\ (exists u c, 0 <= c < 2 /\ u c <> 0%Qc /\ eigenpair 0%Qc Qcplus Qcmult 2 eig_q 1%Qc u)
  /\ let v := e_vector (exact_earith 0%Qc 1%Qc Qcplus Qcmult Qcminus Qcopp Qcdiv) 2 eig_q 1%Qc in
     v 0 = qq (-1) 4 /\ v 1 = 1%Qc /\ ~ eigenpair 0%Qc Qcplus Qcmult 2 eig_q 1%Qc v.
Proof.
  split; [|split].
  - intros k Hk u Hu c Hc. assert (k = 1) by lia. subst k. assert (c = 0) by lia. subst c. specialize (Hu 0 ltac:(lia)).
    change (Z.to_nat 1) with 1%nat in Hu. cbn [fsum_to] in Hu. change (Z.of_nat 0) with 0 in Hu. change (eig_q 0 0) with (qq 3 1) in Hu.
    assert (T : (qq 2 1 * u 0%Z = 0)%Qc).
    { replace (qq 2 1) with (qq 3 1 - 1)%Qc by (apply Qc_is_canon; reflexivity). transitivity ((0 + qq 3 1 * u 0%Z) - 1 * u 0%Z)%Qc; [ring|]. rewrite Hu. ring. }
    apply Qcmult_integral in T as [T|T]; [discriminate T|exact T].
  - exists (fun i => if i =? 0 then qq (-1) 2 else 1%Qc), 1. split; [lia|]. split; [discriminate|].
    intros r Hr. destruct (split2 r Hr) as [->| ->]; apply Qc_is_canon; vm_compute; reflexivity.
  - intros v. split; [apply Qc_is_canon; vm_compute; reflexivity|]. split; [reflexivity|]. intros H. specialize (H 0 ltac:(lia)). apply (f_equal this) in H. vm_compute in H. discriminate H.
Qed.

(** A whole-number matrix: 3 5 / 4 12. *)
Definition qr_z : Z -> Z -> Z := cells 2 [3; 5; 4; 12].
Definition qr_sum (j : Z) : Z := if j =? 0 then 7 else 17.
Definition qr_len (j : Z) : Z := if j =? 0 then 5 else 13.
Definition st_qr : st := eig_st [3; 5; 4; 12] [0; 0].
Lemma st_qr_ok : heap_ok st_qr /\ matrix st_qr (Some 0%nat) 4 2 2 (cells 2 (fw [3; 5; 4; 12]))
  /\ readable st_qr (Some 1%nat) 16 /\ readable st_qr (Some 2%nat) 16
  /\ (forall i j, 0 <= i < 2 -> 0 <= j < 2 -> is_int (fl_of_bits (cells 2 (fw [3; 5; 4; 12]) i j)) (qr_z i j))
  /\ (forall j, 0 <= j < 2 -> sumz 2 (fun i => qr_z i j) = qr_sum j /\ sumz 2 (fun i => Z.abs (qr_z i j)) <= 16777216
     /\ sumz 2 (fun i => (qr_z i j - j * qr_sum j) * (qr_z i j - j * qr_sum j)) = qr_len j * qr_len j /\ 0 < qr_len j <= 4096).
Proof.
  split; [ex_heap_tac|]. split; [eig_mat|]. do 2 (split; [eig_rd|]). split.
  - intros i j Hi Hj. destruct (split2 i Hi) as [->| ->], (split2 j Hj) as [->| ->]; split; vm_compute; reflexivity.
  - intros j Hj. destruct (split2 j Hj) as [->| ->]; (split; [reflexivity|]; split; [vm_compute; discriminate|]; split; [reflexivity|]; split; [reflexivity|vm_compute; discriminate]).
Qed.
