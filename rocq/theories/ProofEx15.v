(** * Fixtures for constrained energy minimisation: a float cube at 0 and a spectrum at 3. *)
From Verif Require Import Base Logic ModelFloat ModelCore ModelImage ModelMatrix ModelCem SpecBase SpecNum SpecMatrix SpecCorr SpecCxx Fixtures Fixtures2 ProofEx.
Open Scope Z_scope.

(** Every float word is 1.0. *)
Definition ones (i : Z) : Z := nth (Z.to_nat (i mod 4)) [0; 0; 128; 63] 0.
Definition ones_env : env := mkEnv (e_addr ex_env) (fun _ => ones).
(** The floats 1.0, 2.0, 3.0, 5.0. *)
Definition cem_data (i : Z) : Z := nth (Z.to_nat i) [0; 0; 128; 63; 0; 0; 0; 64; 0; 0; 64; 64; 0; 0; 160; 64] 0.
Definition cem_st (S L B : Z) (l : layout) : st :=
  mkSt (hc_objs 0 S L B 4 4 l cem_data (fun _ => 0) ++ [mkObj 1048576 (B * 4) 3 true (CBytes ones)]) [].
Definition cem_hdr (S L B : Z) (l : layout) : hmat := hc_hdr 0 S L B 4 l.

Lemma ones_env_ok : env_ok ones_env.
Proof. exact ex_env_ok. Qed.
Lemma cem_heap S L B l : heap_ok (cem_st S L B l).
Proof. ex_heap_tac. Qed.
Lemma cem_cube : cube (cem_st 2 1 2 BIL) (Some 0%nat) (cem_hdr 2 1 2 BIL) BIL 4.
Proof. unfold cem_hdr. ex_cube_tac. Qed.
Lemma cem_cube1 : cube (cem_st 1 1 1 BSQ) (Some 0%nat) (cem_hdr 1 1 1 BSQ) BSQ 4.
Proof. unfold cem_hdr. ex_cube_tac. Qed.

Lemma cem_ub : exists e s p m l,
  env_ok e /\ heap_ok s /\ cube s p m l 4 /\ hm_type m = 4 /\ hm_data m <> hm_wave m /\ hm_wave m <> None
  /\ readable s (Some 3%nat) (hm_bands m * 4) /\ hyper_mat_cem p (Some 3%nat) e s = UB.
Proof.
  exists ones_env, (cem_st 2 1 2 BIL), (Some 0%nat), (cem_hdr 2 1 2 BIL), BIL.
  split; [exact ones_env_ok|]. split; [apply cem_heap|]. split; [exact cem_cube|].
  do 3 (split; [cbn; congruence|]). split; [|vm_compute; reflexivity].
  do 3 eexists. split; [reflexivity|]. split; [reflexivity|]. cbn. lia.
Qed.
Lemma cem_spectrum : exists e s p m l q s',
  env_ok e /\ heap_ok s /\ cube s p m l 4 /\ hyper_mat_cem p (Some 3%nat) e s = Ret q s'
  /\ hm_bands m = 1 /\ word_at s (Some 3%nat) 0 4 = Some 1065353216 /\ word_at s' (Some 3%nat) 0 4 = Some 1077936128.
Proof.
  exists ones_env, (cem_st 1 1 1 BSQ), (Some 0%nat), (cem_hdr 1 1 1 BSQ), BSQ. do 2 eexists.
  split; [exact ones_env_ok|]. split; [apply cem_heap|]. split; [exact cem_cube1|].
  split; [vm_compute; reflexivity|]. repeat split; vm_compute; reflexivity.
Qed.

(** 1 x 2, 2 x 1 and 1 x 1 matrices of bytes. *)
Definition corr_st (a b c d w : Z) : st :=
  mkSt [ mkObj 4096 2 0 true (CBytes (fun i => if i =? 0 then a else b));
         mkObj 8192 2 1 true (CBytes (fun i => if i =? 0 then c else d));
         mkObj 12288 1 2 true (CBytes (fun _ => w)) ] [].
Definition two (a b : Z) (i : Z) : Z := if i =? 0 then a else b.
Ltac mats_tac := repeat split; intros i j Hi Hj;
  [ assert (i = 0) as -> by lia; assert (j = 0 \/ j = 1) as [->| ->] by lia; reflexivity
  | assert (j = 0) as -> by lia; assert (i = 0 \/ i = 1) as [->| ->] by lia; reflexivity
  | assert (i = 0) as -> by lia; assert (j = 0) as -> by lia; reflexivity ].
Lemma corr_mats1 : matrix (corr_st 16 16 16 1 0) (Some 0%nat) 1 1 2 (fun _ => two 16 16)
  /\ matrix (corr_st 16 16 16 1 0) (Some 1%nat) 1 2 1 (fun i _ => two 16 1 i) /\ matrix (corr_st 16 16 16 1 0) (Some 2%nat) 1 1 1 (fun _ _ => 0).
Proof. mats_tac. Qed.
Lemma corr_mats2 : matrix (corr_st 2 4 3 2 40) (Some 0%nat) 1 1 2 (fun _ => two 2 4)
  /\ matrix (corr_st 2 4 3 2 40) (Some 1%nat) 1 2 1 (fun i _ => two 3 2 i) /\ matrix (corr_st 2 4 3 2 40) (Some 2%nat) 1 1 1 (fun _ _ => 40).
Proof. mats_tac. Qed.
Lemma corr_wraps : exists e s s' x y z X Y,
  env_ok e /\ heap_ok s /\ matrix s x 1 1 2 X /\ matrix s y 1 2 1 Y /\ matrix s z 1 1 1 (fun _ _ => 0) /\ x <> z /\ y <> z
  /\ correlation_matrix_uchar z x y 1 2 1 e s = Ret tt s'
  /\ sumz 2 (fun t => X 0 t * Y t 0) / 2 = 136 /\ word_at s' z 0 1 = Some 8.
Proof.
  destruct corr_mats1 as (H1 & H2 & H3).
  exists ex_env, (corr_st 16 16 16 1 0). eexists. exists (Some 0%nat), (Some 1%nat), (Some 2%nat), (fun _ => two 16 16), (fun i _ => two 16 1 i).
  split; [exact ex_env_ok|]. split; [ex_heap_tac|]. split; [exact H1|]. split; [exact H2|]. split; [exact H3|].
  split; [discriminate|]. split; [discriminate|]. split; [vm_compute; reflexivity|]. split; reflexivity.
Qed.
(** What the result held before is averaged in. *)
Lemma corr_adds : exists e s s' x y z X Y w,
  env_ok e /\ heap_ok s /\ matrix s x 1 1 2 X /\ matrix s y 1 2 1 Y /\ matrix s z 1 1 1 (fun _ _ => w) /\ x <> z /\ y <> z
  /\ correlation_matrix_uchar z x y 1 2 1 e s = Ret tt s'
  /\ sumz 2 (fun t => X 0 t * Y t 0) / 2 = 7 /\ word_at s' z 0 1 = Some 27.
Proof.
  destruct corr_mats2 as (H1 & H2 & H3).
  exists ex_env, (corr_st 2 4 3 2 40). eexists. exists (Some 0%nat), (Some 1%nat), (Some 2%nat), (fun _ => two 2 4), (fun i _ => two 3 2 i), 40.
  split; [exact ex_env_ok|]. split; [ex_heap_tac|]. split; [exact H1|]. split; [exact H2|]. split; [exact H3|].
  split; [discriminate|]. split; [discriminate|]. split; [vm_compute; reflexivity|]. split; reflexivity.
Qed.
