(** * Concrete states for the matrix properties. *)
From Verif Require Import Base ModelFloat ModelDouble ModelCore ModelMatrix SpecBase SpecNum SpecMatrix Fixtures Fixtures2
  ProofEx ProofEx4 ProofArr ProofGrid ProofMatrix ProofGauss ProofInvert.
From Coq Require Import Floats.SpecFloat Lia ZifyBool ZifyNat QArith.Qcanon.
Ltac Zify.zify_post_hook ::= Z.div_mod_to_equations.
Open Scope Z_scope.

(** Little-endian words of es bytes. *)
Definition wordsn (es : Z) (l : list Z) (i : Z) : Z := nth (Z.to_nat (i / es)) l 0 / 256 ^ (i mod es) mod 256.
Definition cells (c : Z) (l : list Z) (i j : Z) : Z := nth (Z.to_nat (i * c + j)) l 0.

(** A 2x3, a 3x2 and a 2x2 array, and a 3x2 one. *)
Definition st_mats (es : Z) (x y z t : list Z) : st :=
  mkSt [mkObj 4096 (6 * es) 0 true (CBytes (wordsn es x)); mkObj 8192 (6 * es) 1 true (CBytes (wordsn es y));
        mkObj 12288 (4 * es) 2 true (CBytes (wordsn es z)); mkObj 16384 (6 * es) 3 true (CBytes (wordsn es t))] [].

Lemma split2 i : 0 <= i < 2 -> i = 0 \/ i = 1. Proof. lia. Qed.
Lemma split3 i : 0 <= i < 3 -> i = 0 \/ i = 1 \/ i = 2. Proof. lia. Qed.

Definition chars_x : list Z := [255; 2; 3; 4; 5; 6].
Definition chars_y : list Z := [1; 2; 3; 200; 5; 6].
Definition chars_z : list Z := [10; 20; 30; 40].
Definition st_chars : st := st_mats 1 chars_x chars_y chars_z [0; 0; 0; 0; 0; 0].
Lemma st_chars_ok : matrix st_chars (Some 0%nat) 1 2 3 (cells 3 chars_x)
  /\ matrix st_chars (Some 1%nat) 1 3 2 (cells 2 chars_y)
  /\ matrix st_chars (Some 2%nat) 1 2 2 (cells 2 chars_z)
  /\ matrix st_chars (Some 3%nat) 1 3 2 (fun _ _ => 0).
Proof.
  repeat split; intros i j Hi Hj;
    (destruct (split2 i) as [->| ->]; [lia|..]) || (destruct (split3 i) as [->|[->| ->]]; [lia|..]);
    ((destruct (split2 j) as [->| ->]; [lia|..]) || (destruct (split3 j) as [->|[->| ->]]; [lia|..])); vm_compute; reflexivity.
Qed.

(** Floats: 1 2 3 / 4 5 6 times 1 0 / 0 1 / -1 2. *)
Definition fw (l : list Z) : list Z := map (fun z => bits_of_fl (fl_of_Z z)) l.
Definition floats_x : list Z := [1; 2; 3; 4; 5; 6].
Definition floats_y : list Z := [1; 0; 0; 1; -1; 2].
Definition floats_z : list Z := [0; 0; 0; 7].
Definition st_fmul : st := st_mats 4 (fw floats_x) (fw floats_y) (fw floats_z) [0; 0; 0; 0; 0; 0].
Lemma st_fmul_ok : matrix st_fmul (Some 0%nat) 4 2 3 (cells 3 (fw floats_x))
  /\ matrix st_fmul (Some 1%nat) 4 3 2 (cells 2 (fw floats_y))
  /\ matrix st_fmul (Some 2%nat) 4 2 2 (cells 2 (fw floats_z))
  /\ matrix st_fmul (Some 3%nat) 4 3 2 (fun _ _ => 0).
Proof.
  repeat split; intros i j Hi Hj;
    (destruct (split2 i) as [->| ->]; [lia|..]) || (destruct (split3 i) as [->|[->| ->]]; [lia|..]);
    ((destruct (split2 j) as [->| ->]; [lia|..]) || (destruct (split3 j) as [->|[->| ->]]; [lia|..])); vm_compute; reflexivity.
Qed.
Lemma st_fmul_ints :
  (forall i t, 0 <= i < 2 -> 0 <= t < 3 -> float_int (cells 3 (fw floats_x) i t) (cells 3 floats_x i t))
  /\ (forall t j, 0 <= t < 3 -> 0 <= j < 2 -> float_int (cells 2 (fw floats_y) t j) (cells 2 floats_y t j))
  /\ (forall i j, 0 <= i < 2 -> 0 <= j < 2 -> float_int (cells 2 (fw floats_z) i j) (cells 2 floats_z i j))
  /\ (forall i j t, 0 <= i < 2 -> 0 <= j < 2 -> 0 <= t < 3 ->
       Z.abs (cells 3 floats_x i t * cells 2 floats_y t j) <= 16777216
       /\ Z.abs (cells 2 floats_z i j + sumz (t + 1) (fun t => cells 3 floats_x i t * cells 2 floats_y t j)) <= 16777216).
Proof.
  split; [|split; [|split]].
  - intros i j Hi Hj. destruct (split2 i Hi) as [->| ->], (split3 j Hj) as [->|[->| ->]]; vm_compute; reflexivity.
  - intros i j Hi Hj. destruct (split3 i Hi) as [->|[->| ->]], (split2 j Hj) as [->| ->]; vm_compute; reflexivity.
  - intros i j Hi Hj. destruct (split2 i Hi) as [->| ->], (split2 j Hj) as [->| ->]; vm_compute; reflexivity.
  - intros i j t Hi Hj Ht.
    destruct (split2 i Hi) as [->| ->], (split2 j Hj) as [->| ->], (split3 t Ht) as [->|[->| ->]]; split; vm_compute; discriminate.
Qed.

(** ushort: 65535 * 65535 does not fit into int. *)
Definition st_ush : st := st_mats 2 [65535; 0; 0; 0; 0; 0] [65535; 0; 0; 0; 0; 0] [0; 0; 0; 0] [0; 0; 0; 0; 0; 0].
Lemma ushort_refuted : exists e s x y z m k n X Y W, env_ok e /\ heap_ok s
  /\ matrix s x 2 m k X /\ matrix s y 2 k n Y /\ matrix s z 2 m n W /\ x <> z /\ y <> z
  /\ m = 1 /\ k = 1 /\ n = 1 /\ MulMatrix_ushort x y z m k n e s = UB.
Proof.
  exists ex_env, st_ush, (Some 0%nat), (Some 1%nat), (Some 2%nat), 1, 1, 1, (fun _ _ => 65535), (fun _ _ => 65535), (fun _ _ => 0).
  split; [apply ex_env_ok|]. split; [ex_heap_tac|].
  do 3 (split; [intros i j Hi Hj; replace i with 0 by lia; replace j with 0 by lia; vm_compute; reflexivity|]).
  split; [discriminate|]. split; [discriminate|]. do 3 (split; [reflexivity|]). vm_compute. reflexivity.
Qed.

(** ** Inversion *)
(** 0 2 / 4 1 over the rationals. *)
Definition qq (a : Z) (b : positive) : Qc := Q2Qc (QArith_base.Qmake a b).
Definition qmat (t : Z) : Qc := nth (Z.to_nat t) [qq 0 1; qq 2 1; qq 4 1; qq 1 1] (qq 0 1).
Definition qinv (t : Z) : Qc := nth (Z.to_nat t) [qq (-1) 8; qq 1 4; qq 1 2; qq 0 1] (qq 0 1).
Definition qisz (x : Qc) : bool := if Qc_eq_dec x 0%Qc then true else false.
Lemma qisz_ok x : qisz x = true <-> x = 0%Qc.
Proof. unfold qisz. destruct (Qc_eq_dec x 0%Qc); split; auto; discriminate. Qed.
Lemma qinv_ok : inverse_of 0%Qc 1%Qc Qcplus Qcmult 2 qinv qmat.
Proof.
  intros i j Hi Hj. destruct (split2 i Hi) as [->| ->], (split2 j Hj) as [->| ->]; apply Qc_is_canon; vm_compute; reflexivity.
Qed.
Lemma qmat_singular : forall B, ~ inverse_of 0%Qc 1%Qc Qcplus Qcmult 2 B (fun _ => 1%Qc).
Proof.
  intros B H. pose proof (H 0 0 ltac:(lia) ltac:(lia)) as H0. pose proof (H 0 1 ltac:(lia) ltac:(lia)) as H1.
  assert (E : product_at 0%Qc Qcplus Qcmult 2 B (fun _ => 1%Qc) 0 0 = product_at 0%Qc Qcplus Qcmult 2 B (fun _ => 1%Qc) 0 1) by reflexivity.
  rewrite H0, H1 in E. cbn in E. discriminate.
Qed.

(** res, a 2x2 float matrix 0 2 / 4 1, and the zero matrix. *)
Definition st_inv : st :=
  mkSt [mkObj 4096 16 0 true (CBytes (wordsn 4 [9; 9; 9; 9])); mkObj 8192 16 1 true (CBytes (wordsn 4 (fw [0; 2; 4; 1])));
        mkObj 12288 16 2 true (CBytes (wordsn 4 [0; 0; 0; 0]))] [].
Lemma st_inv_ok : heap_ok st_inv /\ matrix st_inv (Some 0%nat) 4 2 2 (fun _ _ => 9)
  /\ matrix st_inv (Some 1%nat) 4 2 2 (cells 2 (fw [0; 2; 4; 1]))
  /\ matrix st_inv (Some 2%nat) 4 2 2 (fun _ _ => 0).
Proof.
  split; [ex_heap_tac|].
  repeat split; intros i j Hi Hj; destruct (split2 i Hi) as [->| ->], (split2 j Hj) as [->| ->]; vm_compute; reflexivity.
Qed.

Lemma invert_spec e s res mat m R X : heap_ok s -> 0 < m -> m * m <= 2147483647 ->
  matrix s res 4 m m R -> matrix s mat 4 m m X -> res <> mat ->
  exists s', invert_matrix_float res mat m e s = Ret tt s'
    /\ matrix s' res 4 m m (fun i j => fst (snd (gauss_jordan float_arith m (fun t => X (t / m) (t mod m)))) (i * m + j))
    /\ matrix s' mat 4 m m (fun i j => snd (snd (gauss_jordan float_arith m (fun t => X (t / m) (t mod m)))) (i * m + j))
    /\ unchanged_except [res; mat] s s' /\ files s' = files s /\ heap_ok s'
    /\ (forall i, ~ 0 <= i < m * m * 4 -> byte_at s' res i = byte_at s res i /\ byte_at s' mat i = byte_at s mat i).
Proof.
  intros Hs Hm B HR HX Hne.
  destruct (matrix_arr s res 4 m m R ltac:(lia) Hm Hm HR) as (qr & -> & AR).
  destruct (matrix_arr s mat 4 m m X ltac:(lia) Hm Hm HX) as (qm & -> & AX).
  assert (Nq : qr <> qm) by congruence.
  destruct (invert_run e m Hm B qr qm Nq s _ _ (conj Hs (conj AR AX))) as (s' & E & (T1 & T2 & T3) & K).
  exists s'. split; [exact E|].
  assert (C : forall q g, arr s' q 0 4 (m * m) g -> matrix s' (Some q) 4 m m (fun i j => g (i * m + j))).
  { intros q g A. apply arr_matrix. eapply arr_ext; [|exact A]. intros t Ht. cbv beta. f_equal.
    apply (cell_split m m t Hm Ht). }
  split; [apply C; exact T2|]. split; [apply C; exact T3|].
  destruct K as (K1 & K2 & K3 & K4 & K5). split; [exact K3|]. split; [exact K1|]. split; [apply K5; exact Hs|].
  intros i Hi. split; apply K4; auto.
  - cbn; auto.
  - destruct AR as (N & d & I & _). eapply ProofCore.isb_lt; eauto.
  - cbn; auto.
  - destruct AX as (N & d & I & _). eapply ProofCore.isb_lt; eauto.
Qed.

Lemma invert_silent : exists e s res mat m s', heap_ok s /\ matrix s mat 4 m m (fun _ _ => 0)
  /\ invert_matrix_float res mat m e s = Ret tt s'
  /\ forall i j, 0 <= i < m -> 0 <= j < m -> exists w, word_at s' res ((i * m + j) * 4) 4 = Some w /\ float_int w (if i =? j then 1 else 0).
Proof.
  exists ex_env, st_inv, (Some 0%nat), (Some 2%nat), 2.
  destruct (invert_spec ex_env st_inv (Some 0%nat) (Some 2%nat) 2 (fun _ _ => 9) (fun _ _ => 0)) as (s' & E & R & _);
    try apply st_inv_ok; try lia; try discriminate.
  exists s'. split; [apply st_inv_ok|]. split; [apply st_inv_ok|]. split; [exact E|].
  intros i j Hi Hj. eexists. split; [apply R; auto|].
  destruct (split2 i Hi) as [->| ->], (split2 j Hj) as [->| ->]; vm_compute; reflexivity.
Qed.
