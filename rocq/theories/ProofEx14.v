(** * Fixtures for k-means: an image at 0 with data at 1 and a vector of points at 2. *)
From Verif Require Import Base Logic ModelFloat ModelCluster SpecBase SpecNum SpecStat SpecCluster SpecCxx Fixtures Fixtures2
  ProofFloat ProofFloat2 ProofEx10 ProofCluster4 ProofCluster5.
Open Scope Z_scope.

Lemma sq_all : squares sq 46340.
Proof.
  intros d Hd. destruct (db_of_Z_ok d ltac:(lia)) as [V N]. apply (mul_int 53 1024 ltac:(lia) ltac:(lia) ltac:(lia)); [now split|now split|].
  change (2 ^ 53) with 9007199254740992. assert (d * d <= 46340 * 46340) by (clear - Hd; nia). pose proof (Z.square_nonneg d). lia.
Qed.

(** A vector of K points of 8 bytes: the size is in the first word. *)
Definition km_vec (K : Z) : obj := mkObj 1048576 (16 + 8 * K) 2 true (CBytes (fun i => if i =? 0 then K else if i =? 8 then K else 0)).
Definition km_st (R C ch K : Z) (f : Z -> Z) : st := mkSt (im_objs 0 R C 1 ch 1 f ++ [km_vec K]) [].
Definition km_hdr (R C ch : Z) : smat := im_hdr 0 R C 1 ch 1.

Lemma km_heap R C ch K f : heap_ok (km_st R C ch K f).
Proof. ex_heap_tac. Qed.
Lemma km_image R C ch K f : 0 < R -> 0 < C -> 0 < ch -> R * C * 1 * ch + 96 <= 2147483647 -> image (km_st R C ch K f) (Some 0%nat) (km_hdr R C ch) 1.
Proof.
  intros. constructor; cbn [km_hdr im_hdr sm_rows sm_cols sm_type sm_chan sm_data]; auto.
  exists 1%nat, (R * C * 1 * ch), f. split; [reflexivity|]. split; [reflexivity|]. apply Z.le_refl.
Qed.

(** 4 lines of 5 pixels with two groups of lit pixels. *)
Definition km_two (i : Z) : Z := if (i =? 0) || (i =? 1) || (i =? 5) || (i =? 18) || (i =? 19) || (i =? 13) then 200 else 0.
Definition km_rnd (i : nat) : Z := Z.of_nat i.

Lemma km_run : exists s', hypercv_k_means sq km_rnd 5 (Some 0%nat) (Some 2%nat) 2 0 ex_env (km_st 4 5 1 2 km_two) = Ret tt s'
  /\ points s' (Some 2%nat) 2 (fun k => if k =? 0 then (0, 0) else (3, 2)).
Proof.
  eexists. split; [vm_compute; reflexivity|].
  intros k Hk. assert (k = 0 \/ k = 1) as [->| ->] by lia; split; vm_compute; reflexivity.
Qed.
