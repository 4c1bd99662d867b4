(** * Concrete cases for image pyramids and rotation. *)
From Verif Require Import Base ModelFloat ModelDouble ModelCore ModelGeom SpecBase SpecImage2 SpecPixel SpecNum SpecMatrix SpecGeom SpecFilter
  Fixtures Fixtures2 ProofEx ProofEx6.
From Coq Require Import List Floats.SpecFloat Lia ZifyBool ZifyNat.
Import ListNotations.
Open Scope Z_scope.

(** Two images of 2 x 2 pixels, the second one constant, and room for 4 x 4 and 1 x 1. *)
Definition st_pyr : st := mkSt (im_objs 0 2 2 1 1 1 (wordsn 1 [10; 20; 30; 40]) ++ im_objs 2 2 2 1 1 1 (fun _ => 7)
  ++ im_objs 4 4 4 1 1 1 (fun _ => 0) ++ im_objs 6 1 1 1 1 1 (fun _ => 0)) [].
Lemma st_pyr_heap : heap_ok st_pyr.
Proof. ex_heap_tac. Qed.
Lemma st_pyr_ok : image st_pyr (Some 0%nat) (im_hdr 0 2 2 1 1 1) 1 /\ image st_pyr (Some 2%nat) (im_hdr 2 2 2 1 1 1) 1
  /\ image st_pyr (Some 4%nat) (im_hdr 4 4 4 1 1 1) 1 /\ image st_pyr (Some 6%nat) (im_hdr 6 1 1 1 1 1) 1
  /\ colours st_pyr (im_hdr 0 2 2 1 1 1) (fun i j _ => 10 + 20 * i + 10 * j)
  /\ (forall i j c, in_image (im_hdr 2 2 2 1 1 1) i j c -> pix st_pyr (im_hdr 2 2 2 1 1 1) i j c = Some 7).
Proof.
  do 4 (split; [ex_image_tac|]). split.
  - intros i j c (Hi & Hj & Hc). cbn [im_hdr sm_rows sm_cols sm_chan] in *. assert (c = 0) as -> by lia.
    assert (i = 0 \/ i = 1) as [-> | ->] by lia; assert (j = 0 \/ j = 1) as [-> | ->] by lia; reflexivity.
  - intros i j c (Hi & Hj & Hc). cbn [im_hdr sm_rows sm_cols sm_chan] in *. assert (c = 0) as -> by lia.
    assert (i = 0 \/ i = 1) as [-> | ->] by lia; assert (j = 0 \/ j = 1) as [-> | ->] by lia; reflexivity.
Qed.

(** A BIP cube of 3 samples, one line and two bands of one byte, and one of 2 x 2 x 1. *)
Definition st_rot : st := mkSt (hc_objs 0 3 1 2 1 1 BIP (wordsn 1 [1; 2; 3; 4; 5; 6]) (wordsn 4 [8; 9])) [].
Lemma st_rot_heap : heap_ok st_rot.
Proof. ex_heap_tac. Qed.
Lemma st_rot_ok : cube st_rot (Some 0%nat) (hc_hdr 0 3 1 2 1 BIP) BIP 1
  /\ 2 * ((3 + 1) / 2) = 4 /\ 2 * ((1 + 1) / 2) = 2.
Proof. split; [ex_cube_tac|]. split; reflexivity. Qed.
Definition st_turn : st := mkSt (hc_objs 0 2 2 1 1 1 BIP (wordsn 1 [10; 20; 30; 40]) (wordsn 4 [8])) [].
Lemma st_turn_heap : heap_ok st_turn.
Proof. ex_heap_tac. Qed.
Lemma st_turn_ok : cube st_turn (Some 0%nat) (hc_hdr 0 2 2 1 1 BIP) BIP 1.
Proof. ex_cube_tac. Qed.

(** Half a turn writes outside the result. *)
Theorem rotate_180 cos_ sin_ : cos_ angle_180 = cos_180 -> sin_ angle_180 = sin_180 ->
  exists e s p m, env_ok e /\ heap_ok s /\ cube s p m BIP 1 /\ hm_samples m = 2 /\ hm_lines m = 2
    /\ hyper_mat_rotate cos_ sin_ p (db_of_Z 180) e s = UB.
Proof.
  intros C S. exists ex_env, st_turn, (Some 0%nat), (hc_hdr 0 2 2 1 1 BIP). split; [exact ex_env_ok|]. split; [exact st_turn_heap|].
  split; [exact st_turn_ok|]. do 2 (split; [reflexivity|]). unfold hyper_mat_rotate.
  assert (T : db_div (db_mul (db_of_Z 180) PI_db) (db_of_Z 180) = angle_180) by (vm_compute; reflexivity). rewrite T, C, S. vm_compute. reflexivity.
Qed.
(** A quarter turn keeps the size of a 2 x 2 image, but the pixel of value 10 is lost. *)
Definition not_10 (s : st) (m : hmat) (i j : Z) : bool :=
  match sample_byte s m BIP 1 i j 0 0 with Some v => negb (v =? 10) | None => false end.
Theorem rotate_90 cos_ sin_ : cos_ angle_90 = cos_90 -> sin_ angle_90 = sin_90 ->
  exists e s p m p' m' s', env_ok e /\ heap_ok s /\ cube s p m BIP 1 /\ hm_samples m = 2 /\ hm_lines m = 2 /\ hm_bands m = 1
    /\ hyper_mat_rotate cos_ sin_ p (db_of_Z 90) e s = Ret p' s' /\ hm_at s' p' = Some m'
    /\ hm_samples m' = 2 /\ hm_lines m' = 2 /\ sample_byte s m BIP 1 0 0 0 0 = Some 10
    /\ (forall i j, 0 <= i < 2 -> 0 <= j < 2 -> exists v, sample_byte s' m' BIP 1 i j 0 0 = Some v /\ v <> 10).
Proof.
  intros C S.
  assert (T : db_div (db_mul (db_of_Z 90) PI_db) (db_of_Z 180) = angle_90) by (vm_compute; reflexivity).
  destruct (out_test (hyper_mat_rotate cos_ sin_ (Some 0%nat) (db_of_Z 90) ex_env st_turn)
    (fun p s => match hm_at s p with Some m => (hm_samples m =? 2) && (hm_lines m =? 2)
       && not_10 s m 0 0 && not_10 s m 0 1 && not_10 s m 1 0 && not_10 s m 1 1 | None => false end)) as (p' & s' & E & X).
  { unfold hyper_mat_rotate. rewrite T, C, S. vm_compute. reflexivity. }
  destruct (hm_at s' p') as [m'|] eqn:Hm; [|discriminate].
  exists ex_env, st_turn, (Some 0%nat), (hc_hdr 0 2 2 1 1 BIP), p', m', s'. split; [exact ex_env_ok|]. split; [exact st_turn_heap|].
  split; [exact st_turn_ok|]. do 3 (split; [reflexivity|]). split; [exact E|]. split; [exact Hm|].
  rewrite !andb_true_iff in X. destruct X as (((((Y1 & Y2) & X1) & X2) & X3) & X4).
  split; [lia|]. split; [lia|]. split; [reflexivity|].
  assert (N : forall i j, not_10 s' m' i j = true -> exists v, sample_byte s' m' BIP 1 i j 0 0 = Some v /\ v <> 10).
  { intros i j. unfold not_10. destruct (sample_byte s' m' BIP 1 i j 0 0) as [v|]; [|discriminate]. intros H. exists v. split; auto. lia. }
  intros i j Hi Hj. apply N. assert (i = 0 \/ i = 1) as [-> | ->] by lia; assert (j = 0 \/ j = 1) as [-> | ->] by lia; assumption.
Qed.
