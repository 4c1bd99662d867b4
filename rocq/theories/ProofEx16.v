(** * Concrete cases for the Gaussian smoothing property. *)
From Verif Require Import Base ModelFloat ModelDouble ModelCore ModelFilter ModelGauss SpecBase SpecImage2 SpecPixel SpecNum SpecMatrix SpecFilter SpecGauss SpecCxx
  Fixtures Fixtures2 ProofEx ProofFloat ProofFloat2 ProofBlur2 ProofBlur3 ProofBlur6.
From Coq Require Import Floats.SpecFloat Lia ZifyBool ZifyNat.
Open Scope Z_scope.

(** exp at 0 and (correctly rounded) at -2; 0 below. *)
Definition ex_exp (x : sf) : sf :=
  match x with
  | S754_nan => S754_nan
  | S754_zero _ => db_of_Z 1
  | _ => if SFeqb x (dlit (-2) 1) then dlit 1353352832366127 10000000000000000 else S754_zero false
  end.
Lemma ex_exp_like : exp_like ex_exp.
Proof.
  assert (Z : db_ok (S754_zero false) /\ exists a, sf_num (S754_zero false) = Some a /\ 0 <= a <= sf_one).
  { split; [reflexivity|]. exists 0. split; [reflexivity|]. split; apply Z.leb_le; vm_compute; reflexivity. }
  assert (O : db_ok (db_of_Z 1) /\ sf_num (db_of_Z 1) = Some sf_one) by (split; vm_compute; reflexivity).
  assert (L : db_ok (dlit 1353352832366127 10000000000000000)
     /\ exists a, sf_num (dlit 1353352832366127 10000000000000000) = Some a /\ 0 <= a <= sf_one).
  { split; [vm_compute; reflexivity|]. eexists. split; [vm_compute; reflexivity|]. split; apply Z.leb_le; vm_compute; reflexivity. }
  split; [exact O|]. intros x V N. destruct x as [b|b| |b m e]; cbn [ex_exp]; try contradiction.
  - destruct O as [O1 O2]. split; [exact O1|]. exists sf_one. split; [exact O2|]. split; apply Z.leb_le; vm_compute; reflexivity.
  - destruct (SFeqb _ _); assumption.
  - destruct (SFeqb _ _); assumption.
Qed.

(** A state with two images of R x C pixels of ch channels: all 7, and all 0. *)
Definition st_flat (R C ch : Z) : st := mkSt (im_objs 0 R C 1 ch 1 (fun _ => 7) ++ im_objs 2 R C 1 ch 1 (fun _ => 0)) [].
Lemma st_flat_heap R C ch : heap_ok (st_flat R C ch).
Proof. ex_heap_tac. Qed.
Lemma st_flat_ok : image (st_flat 2 3 3) (Some 0%nat) (im_hdr 0 2 3 1 3 1) 1 /\ image (st_flat 2 3 3) (Some 2%nat) (im_hdr 2 2 3 1 3 1) 1
  /\ (forall i j c, in_image (im_hdr 0 2 3 1 3 1) i j c -> pix (st_flat 2 3 3) (im_hdr 0 2 3 1 3 1) i j c = Some 7).
Proof.
  split; [ex_image_tac|]. split; [ex_image_tac|]. intros i j c (Hi & Hj & Hc). cbn [im_hdr sm_rows sm_cols sm_chan] in *.
  unfold pix, pixel_byte, byte_at. cbn [im_hdr sm_data sm_cols sm_chan bytes_at st_flat objs im_objs app nth_error o_live o_cont o_size Nat.add].
  unfold inb. replace (_ && _) with true by lia. reflexivity.
Qed.
Lemma half_good : good_sigma (dlit 1 2).
Proof.
  split; [vm_compute; reflexivity|]. eexists. split; [vm_compute; reflexivity|]. right. split; apply Z.leb_le; vm_compute; reflexivity.
Qed.

(** Standard deviation one half: the stored weights add up to 1 + 2^-26. *)
Theorem kernel_not_one : exists exp_ e s sigma p m s' z, exp_like exp_
  /\ exp_ (dlit (-2) 1) = dlit 1353352832366127 10000000000000000 /\ env_ok e /\ heap_ok s /\ good_sigma sigma
  /\ gaussian_kernel exp_ 3 sigma 4 e s = Ret p s' /\ sm_at s' p = Some m /\ weight_sum s' (sm_data m) 4 3 = Some z
  /\ z * 67108864 = sf_one * 67108865.
Proof.
  destruct (kernel_built ex_exp ex_env (st_flat 2 3 3) 3 (dlit 1 2) 4 4 ex_env_ok (st_flat_heap _ _ _) ltac:(lia) ltac:(auto) ltac:(lia))
    as (m & s' & E & B & D & A).
  exists ex_exp, ex_env, (st_flat 2 3 3), (dlit 1 2). eexists _, m, s', _. split; [exact ex_exp_like|]. split; [vm_compute; reflexivity|].
  split; [exact ex_env_ok|]. split; [apply st_flat_heap|]. split; [exact half_good|]. split; [exact E|]. split; [apply B|]. rewrite D. split.
  - refine (sum_arr s' _ 4 3 _ (fun k => nth (Z.to_nat k) [_; _; _] 0) ltac:(lia) ltac:(auto) A _).
    intros k Hk. assert (C : k = 0 \/ k = 1 \/ k = 2) by lia.
    destruct C as [-> |[-> | ->]]; cbn [nth Z.to_nat Pos.to_nat Pos.iter_op Nat.add]; vm_compute; reflexivity.
  - vm_compute. reflexivity.
Qed.

(** A tiny standard deviation: its square is 0, and the only weight of a kernel
    of size 1 is not a number. *)
Definition tiny : sf := dlit 1 (2 ^ 600).
Theorem blur_tiny : exists exp_ e s src dst ms md s', exp_like exp_ /\ exp_ S754_nan = S754_nan
  /\ env_ok e /\ heap_ok s /\ image s src ms 1 /\ image s dst md 1
  /\ sm_rows md = sm_rows ms /\ sm_cols md = sm_cols ms /\ sm_chan md = sm_chan ms /\ sm_chan ms = 1
  /\ sf_num tiny = Some (2 ^ 474) /\ pix s ms 0 0 0 = Some 7
  /\ hypercv_gaussian_blur exp_ src dst 1 1 tiny tiny 1 e s = Ret tt s' /\ pix s' md 0 0 0 = Some 0.
Proof.
  exists ex_exp, ex_env, (st_flat 1 1 1), (Some 0%nat), (Some 2%nat), (im_hdr 0 1 1 1 1 1), (im_hdr 2 1 1 1 1 1).
  eexists. split; [exact ex_exp_like|]. split; [reflexivity|]. split; [exact ex_env_ok|]. split; [apply st_flat_heap|].
  split; [ex_image_tac|]. split; [ex_image_tac|]. do 4 (split; [reflexivity|]). split; [vm_compute; reflexivity|]. split; [reflexivity|].
  split; [vm_compute; reflexivity|]. vm_compute. reflexivity.
Qed.
