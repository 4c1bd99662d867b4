(** * Witnesses for borders, thresholds, mirroring and colours. *)
From Verif Require Import Base Logic ModelCore ModelFloat ModelBorder ModelPixel SpecBase SpecCore SpecImage SpecImage2 SpecPixel Fixtures Fixtures2 ProofEx ProofBorder ProofThresh ProofFlip ProofColor.
From Coq Require Import String ZifyBool.
Ltac Zify.zify_post_hook ::= Z.div_mod_to_equations.
Open Scope Z_scope.

Lemma border_refuted : exists e s x len p, 1 <= len <= INT_MAX /\ INT_MIN <= p <= INT_MAX
  /\ hypercv_border_Interpolate p len (mode_of x) e s = UB.
Proof.
  exists ex_env, ex_image, Wrap, 3, INT_MIN. split; [unfold INT_MAX; lia|]. split; [unfold INT_MIN, INT_MAX; lia|].
  apply wrap_low; unfold INT_MIN; lia.
Qed.

Lemma border_const_refuted : exists e s p, INT_MIN <= p <= INT_MAX
  /\ exists i, hypercv_border_Interpolate p 1 0 e s = Ret i s /\ ~ 0 <= i < 1.
Proof.
  exists ex_env, ex_image, (-1). split; [unfold INT_MIN, INT_MAX; lia|]. exists 1. split; [vm_compute; reflexivity|lia].
Qed.

(** two 2x3 one-channel images *)
Definition st_thr : st := mkSt (im_objs 0 2 3 1 1 1 (fun i => 40 * i) ++ im_objs 2 2 3 1 1 1 (fun _ => 7)) [].
Lemma st_thr_ok : heap_ok st_thr /\ image st_thr (Some 0%nat) (im_hdr 0 2 3 1 1 1) 1 /\ image st_thr (Some 2%nat) (im_hdr 2 2 3 1 1 1) 1.
Proof. split; [ex_heap_tac|split; ex_image_tac]. Qed.

Lemma otsu_refuted : exists e s p d ms md thresh maxv,
  env_ok e /\ heap_ok s /\ image s p ms 1 /\ image s d md 1
  /\ sm_rows ms = sm_rows md /\ sm_cols ms = sm_cols md /\ sm_chan ms = 1 /\ sm_chan md = 1
  /\ hypercv_threshold p d thresh maxv 8 e s = UB.
Proof.
  exists ex_env, st_thr, (Some 0%nat), (Some 2%nat), (im_hdr 0 2 3 1 1 1), (im_hdr 2 2 3 1 1 1), 0, 255.
  split; [apply ex_env_ok|]. split; [apply st_thr_ok|]. split; [apply st_thr_ok|]. split; [apply st_thr_ok|].
  do 4 (split; [reflexivity|]).
  eapply otsu_ub with (ms := im_hdr 0 2 3 1 1 1) (md := im_hdr 2 2 3 1 1 1); try reflexivity; apply st_thr_ok.
Qed.

Lemma ex_env_64 k : e_addr ex_env k mod 64 <> 48.
Proof. cbn [ex_env e_addr]. generalize (Z.of_nat k mod 1000). intros z. lia. Qed.

(** two 2x3 images of two channels *)
Definition st_flip : st := mkSt (im_objs 0 2 3 1 2 1 (fun i => i) ++ im_objs 2 2 3 1 2 1 (fun _ => 7)) [].
Lemma st_flip_ok : heap_ok st_flip /\ image st_flip (Some 0%nat) (im_hdr 0 2 3 1 2 1) 1 /\ image st_flip (Some 2%nat) (im_hdr 2 2 3 1 2 1) 1.
Proof. split; [ex_heap_tac|split; ex_image_tac]. Qed.

Lemma flip_refuted : exists e s p d ms md,
  env_ok e /\ heap_ok s /\ image s p ms 1 /\ image s d md 1
  /\ sm_rows ms = sm_rows md /\ sm_cols ms = sm_cols md /\ sm_chan ms = sm_chan md
  /\ sm_data ms <> sm_data md /\ simple_mat_flip p d (-1) e s = UB.
Proof.
  exists ex_env48, st_flip, (Some 0%nat), (Some 2%nat), (im_hdr 0 2 3 1 2 1), (im_hdr 2 2 3 1 2 1).
  split; [apply ex_env48_ok|]. split; [apply st_flip_ok|]. split; [apply st_flip_ok|]. split; [apply st_flip_ok|].
  do 3 (split; [reflexivity|]). split; [discriminate|]. vm_compute. reflexivity.
Qed.

(** a 1x2 colour image, all channels 255 *)
Definition st_white : st := mkSt (im_objs 0 1 2 1 3 1 (fun _ => 255) ++ im_objs 2 1 2 1 3 1 (fun i => 10 * i)) [].
Lemma st_white_ok : heap_ok st_white /\ image st_white (Some 0%nat) (im_hdr 0 1 2 1 3 1) 1
  /\ image st_white (Some 2%nat) (im_hdr 2 1 2 1 3 1) 1.
Proof. split; [ex_heap_tac|split; ex_image_tac]. Qed.

Lemma weighted_refuted : exists e s p m p' s' m',
  env_ok e /\ heap_ok s /\ image s p m 1 /\ sm_chan m = 3
  /\ (forall i j k, in_image m i j k -> pix s m i j k = Some 255)
  /\ sm_rgb2gray p 2 e s = Ret p' s' /\ sm_at s' p' = Some m'
  /\ forall i j, 0 <= i < 1 -> 0 <= j < 2 -> pix s' m' i j 0 = Some 252.
Proof.
  eexists ex_env, st_white, (Some 0%nat), (im_hdr 0 1 2 1 3 1), _, _, _.
  split; [apply ex_env_ok|]. split; [apply st_white_ok|]. split; [apply st_white_ok|].
  split; [reflexivity|]. split.
  { intros i j k (Hi & Hj & Hk). cbn in Hi, Hj, Hk. unfold pix, pixel_byte, byte_at. cbn.
    replace (inb _ 6) with true; [reflexivity|]. unfold inb. lia. }
  split; [vm_compute; reflexivity|]. split; [reflexivity|].
  intros i j Hi Hj. assert (i = 0) as -> by lia. assert (j = 0 \/ j = 1) as [-> | ->] by lia; vm_compute; reflexivity.
Qed.

Lemma bgr_in_place_refuted : exists e s p m s' i j k,
  env_ok e /\ heap_ok s /\ image s p m 1 /\ sm_chan m = 3
  /\ sm_bgr2rgb p p e s = Ret tt s' /\ in_image m i j k
  /\ pix s' m i j k <> pix s m i j (2 - k).
Proof.
  eexists ex_env, st_white, (Some 2%nat), (im_hdr 2 1 2 1 3 1), _, 0, 0, 2.
  split; [apply ex_env_ok|]. split; [apply st_white_ok|]. split; [apply st_white_ok|].
  split; [reflexivity|]. split; [vm_compute; reflexivity|]. split; [unfold in_image; cbn; lia|].
  vm_compute. discriminate.
Qed.

(** a 2x2 bit image *)
Definition st_bits : st := mkSt (im_objs 0 2 2 1 1 1 (fun i => i mod 2)) [].
Lemma st_bits_ok : heap_ok st_bits /\ image st_bits (Some 0%nat) (im_hdr 0 2 2 1 1 1) 1.
Proof. split; [ex_heap_tac|ex_image_tac]. Qed.
