(** * Concrete states for the statistics and calibration properties. *)
From Verif Require Import Base Logic ModelCore ModelFloat ModelStat SpecBase SpecCore SpecImage SpecImage2 SpecPixel SpecNum SpecMatrix SpecFilter
  SpecStat Fixtures Fixtures2 ProofEx ProofEx3 ProofEx6 ProofEx8 ProofFloat ProofFloat2 ProofWord ProofConv ProofStat ProofCalib.
From Coq Require Import Floats.SpecFloat Lia ZifyBool ZifyNat.
Ltac Zify.zify_post_hook ::= Z.div_mod_to_equations.
Open Scope Z_scope.

(** One line of S pixels with B bands of two bytes, and a table of floats. *)
Definition st_cal (S B : Z) (px tab : list Z) : st :=
  mkSt (hc_objs 0 S 1 B 12 2 BIP (wordsn 2 px) (fun _ => 0)
        ++ [mkObj 262144 (S * B * 4) 3 true (CBytes (wordsn 4 (fw tab)))]) [].
Definition st_cal32 : st := st_cal 3 2 [1; 1; 1; 1; 1; 1] [1; 2; 3; 4; 5; 6].
Definition st_cal22 : st := st_cal 2 2 [10; 20; 30; 65535] [1; 2; 3; 4].
Definition st_cal12 : st := st_cal 1 2 [10; 20] [1; 2].
Lemma st_cal32_ok : heap_ok st_cal32 /\ cube st_cal32 (Some 0%nat) (hc_hdr 0 3 1 2 12 BIP) BIP 2 /\ readable st_cal32 (Some 3%nat) 24.
Proof.
  split; [ex_heap_tac|]. split; [ex_cube_tac|]. do 3 eexists. split; [reflexivity|]. split; [reflexivity|cbn; lia].
Qed.
Lemma st_cal22_ok : heap_ok st_cal22 /\ cube st_cal22 (Some 0%nat) (hc_hdr 0 2 1 2 12 BIP) BIP 2 /\ readable st_cal22 (Some 3%nat) 16.
Proof.
  split; [ex_heap_tac|]. split; [ex_cube_tac|]. do 3 eexists. split; [reflexivity|]. split; [reflexivity|cbn; lia].
Qed.
Lemma st_cal12_ok : heap_ok st_cal12 /\ cube st_cal12 (Some 0%nat) (hc_hdr 0 1 1 2 12 BIP) BIP 2
  /\ bytes_at st_cal12 (Some 3%nat) = Some (3%nat, 8, wordsn 4 (fw [1; 2])).
Proof. split; [ex_heap_tac|]. split; [ex_cube_tac|reflexivity]. Qed.

(** Three columns, two bands: the sample of column 0 and band 1 is multiplied
    by the coefficient of column 2 and band 0. *)
Lemma relative_wrong : exists e s p t m p' s', env_ok e /\ heap_ok s /\ cube s p m BIP 2 /\ readable s t (hm_samples m * hm_bands m * 4)
  /\ relative_radiometric_correction p t e s = Ret p' s'
  /\ ~ calibrated s m 2 fl_of_Z t (own_coefficient (hm_samples m)) s' p'.
Proof.
  destruct st_cal32_ok as (A & B & C).
  destruct (relative_run ex_env st_cal32 (Some 0%nat) (Some 3%nat) (hc_hdr 0 3 1 2 12 BIP) 24 ex_env_ok A B) as (p' & s' & X & Y);
    [cbn; lia|exact C|cbn; lia|cbn; lia|].
  exists ex_env, st_cal32, (Some 0%nat), (Some 3%nat), (hc_hdr 0 3 1 2 12 BIP), p', s'.
  split; [exact ex_env_ok|]. split; [exact A|]. split; [exact B|]. split; [exact C|]. split; [exact X|].
  intros Z. destruct Y as (m1 & C1 & _ & _ & _ & _ & _ & _ & V1 & _). destruct Z as (m2 & C2 & _ & _ & _ & _ & _ & _ & V2 & _).
  destruct C1 as [H1 _ _ _ _ _ _ _ _ _ _]. destruct C2 as [H2 _ _ _ _ _ _ _ _ _ _]. rewrite H1 in H2. injection H2 as <-.
  assert (IN : in_cube (hc_hdr 0 3 1 2 12 BIP) 0 0 1) by (unfold in_cube; cbn; lia).
  destruct (V1 0 0 1 IN) as (x1 & c1 & W1 & T1 & R1). destruct (V2 0 0 1 IN) as (x2 & c2 & W2 & T2 & R2).
  rewrite W1 in W2. injection W2 as <-. rewrite R1 in R2. injection R2 as R2. clear V1 V2 R1 H1 X.
  vm_compute in W1. injection W1 as <-. vm_compute in T1, T2. injection T1 as <-. injection T2 as <-. vm_compute in R2. discriminate R2.
Qed.

(** A 3x3 image of bytes (ProofEx8) and squaring by one multiplication. *)
Definition sq (x : sf) : sf := db_mul x x.
Lemma sq_squares : squares sq 255.
Proof.
  intros d Hd. destruct (db_of_Z_ok d ltac:(lia)) as [V N]. apply (mul_int 53 1024 ltac:(lia) ltac:(lia) ltac:(lia)); [now split|now split|].
  change (2 ^ 53) with 9007199254740992. assert (d * d <= 255 * 255) by (clear - Hd; nia). pose proof (Z.square_nonneg d). lia.
Qed.

(** One short, minus one: the mean is 65535. *)
Definition st_minus : st := mkSt (im_objs 0 1 1 2 1 2 (wordsn 2 [65535])) [].
Lemma st_minus_ok : image st_minus (Some 0%nat) (im_hdr 0 1 1 2 1 2) 2.
Proof. ex_image_tac. Qed.
Lemma mean_wrong : exists e s p m x, image s p m 2 /\ sm_chan m = 1 /\ sm_type m = 2 /\ sm_rows m = 1 /\ sm_cols m = 1
  /\ option_map (sgn 16) (word_at s (sm_data m) 0 2) = Some (-1)
  /\ simple_mat_mean p e s = Ret x s /\ is_int x 65535.
Proof.
  exists ex_env, st_minus, (Some 0%nat), (im_hdr 0 1 1 2 1 2), (fl_of_Z 65535). split; [exact st_minus_ok|].
  do 4 (split; [reflexivity|]). split; [vm_compute; reflexivity|]. split.
  - assert (EL : elements_of st_minus (Some 1%nat) 2 (1 * 1) (fun _ => 65535)).
    { intros i Hi. replace i with 0 by lia. vm_compute. reflexivity. }
    rewrite (mean_exact ex_env st_minus (Some 0%nat) (im_hdr 0 1 1 2 1 2) 2 (fun _ => 65535) st_minus_ok eq_refl ltac:(cbn; tauto) EL).
    f_equal; vm_compute; reflexivity.
  - apply (fl_of_Z_ok 65535). lia.
Qed.

(** 2^25 bytes, all of them 1: the mean is one half. *)
Theorem mean_ones : forall e s p m, image s p m 1 -> sm_chan m = 1 -> sm_type m = 1 -> sm_rows m = 8192 -> sm_cols m = 4096 ->
  elements_of s (sm_data m) 1 (sm_rows m * sm_cols m) (fun _ => 1) ->
  simple_mat_mean p e s = Ret (fl_div (fl_of_Z 1) (fl_of_Z 2)) s.
Proof.
  intros e s p m IM H1 HT HR HC EL.
  rewrite (mean_exact e s p m 1 (fun _ => 1) IM H1) by (auto; rewrite HT; cbn; tauto). rewrite HT, HR, HC. unfold float_mean.
  change (unsigned_reading 1 1) with (fl_of_Z 1). change (8192 * 4096) with 33554432. rewrite ones_stall by lia.
  f_equal; vm_compute; reflexivity.
Qed.
Definition st_ones : st := mkSt (im_objs 0 8192 4096 1 1 1 (fun _ => 1)) [].
Lemma st_ones_ok : image st_ones (Some 0%nat) (im_hdr 0 8192 4096 1 1 1) 1
  /\ elements_of st_ones (Some 1%nat) 1 (8192 * 4096) (fun _ => 1).
Proof.
  split; [ex_image_tac|]. intros i Hi. change (8192 * 4096) with 33554432 in Hi.
  rewrite (word_at_isb st_ones 1%nat 33554432 (fun _ => 1) (Z.to_nat 1) eq_refl (i * 1)) by lia. reflexivity.
Qed.
(** Four bytes with a whole mean. *)
Definition st_four : st := mkSt (im_objs 0 2 2 1 1 1 (wordsn 1 [1; 3; 5; 7])) [].
Lemma st_four_ok : image st_four (Some 0%nat) (im_hdr 0 2 2 1 1 1) 1
  /\ elements_of st_four (Some 1%nat) 1 (2 * 2) (fun i => nth (Z.to_nat i) [1; 3; 5; 7] 0).
Proof.
  split; [ex_image_tac|]. intros i Hi. assert (H : i = 0 \/ i = 1 \/ i = 2 \/ i = 3) by lia.
  destruct H as [->|[->|[->| ->]]]; vm_compute; reflexivity.
Qed.
