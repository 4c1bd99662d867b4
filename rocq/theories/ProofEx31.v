(** * The variance of two shorts of different signs. *)
From Verif Require Import Base ModelFloat ModelCore ModelStat SpecBase SpecNum SpecImage SpecImage2 SpecPixel SpecMatrix SpecFilter SpecStat Fixtures Fixtures2 ProofEx ProofEx3 ProofEx6 ProofEx8
  ProofHM ProofFloat ProofFold ProofFilter ProofMatrix ProofStat ProofEx10.
From Coq Require Import List Lia.
Import ListNotations.
Open Scope Z_scope.

Definition st_signs : st := mkSt (im_objs 0 1 2 2 1 2 (wordsn 2 [40960; 24576])) [].
Lemma st_signs_ok : image st_signs (Some 0%nat) (im_hdr 0 1 2 2 1 2) 2.
Proof. ex_image_tac. Qed.
Lemma variance_two pow2 : pow2 (db_of_Z 8192) = db_of_Z 67108864 -> pow2 (db_of_Z (-8192)) = db_of_Z 67108864 ->
  sf_num (float_variance pow2 1 2 (fun i => unsigned_reading 2 (if i =? 0 then 40960 else 24576))) = Some (67108864 * sf_one).
Proof.
  intros P1 P2. unfold float_variance. set (v := fun i => unsigned_reading 2 (if i =? 0 then 40960 else 24576)).
  assert (F : forall (f : sf -> Z -> sf) a, foldz (1 * 2) f a = f (f a 0) 1) by reflexivity. rewrite F. cbv beta.
  replace (db_of_fl (fl_sub (float_mean 1 2 v) (unsigned_reading 2 (if 0 =? 0 then 40960 else 24576)))) with (db_of_Z (-8192)) by (vm_compute; reflexivity).
  replace (db_of_fl (fl_sub (float_mean 1 2 v) (unsigned_reading 2 (if 1 =? 0 then 40960 else 24576)))) with (db_of_Z 8192) by (vm_compute; reflexivity).
  rewrite P1, P2. vm_compute. reflexivity.
Qed.
Lemma variance_wrong : exists e s p m, image s p m 2 /\ sm_chan m = 1 /\ sm_type m = 2 /\ sm_rows m = 1 /\ sm_cols m = 2
  /\ option_map (sgn 16) (word_at s (sm_data m) 0 2) = Some (-24576) /\ option_map (sgn 16) (word_at s (sm_data m) 2 2) = Some 24576
  /\ forall pow2, pow2 (db_of_Z 8192) = db_of_Z 67108864 -> pow2 (db_of_Z (-8192)) = db_of_Z 67108864 ->
     exists x, simple_mat_variance pow2 p e s = Ret x s /\ sf_num x = Some (67108864 * sf_one).
Proof.
  exists ex_env, st_signs, (Some 0%nat), (im_hdr 0 1 2 2 1 2). split; [exact st_signs_ok|].
  do 4 (split; [reflexivity|]). split; [vm_compute; reflexivity|]. split; [vm_compute; reflexivity|]. intros pow2 P1 P2.
  assert (EL : elements_of st_signs (Some 1%nat) 2 (1 * 2) (fun i => if i =? 0 then 40960 else 24576)).
  { intros i Hi. assert (i = 0 \/ i = 1) as [-> | -> ] by lia; vm_compute; reflexivity. }
  eexists. split.
  - exact (variance_exact pow2 ex_env st_signs (Some 0%nat) (im_hdr 0 1 2 2 1 2) 2 _ st_signs_ok eq_refl ltac:(cbn; tauto) EL).
  - apply (variance_two pow2 P1 P2).
Qed.
