(** * Normalisation: concrete states. *)
From Verif Require Import Base ModelFloat ModelDouble ModelCore ModelConv ModelImage ModelNorm SpecBase SpecImage SpecImage2 SpecNum SpecMatrix SpecStat SpecNorm.
From Verif Require Import Fixtures Fixtures2 ProofEx ProofEx6 ProofEx19.
From Coq Require Import List Lia Floats.SpecFloat ZifyBool.
Import ListNotations.
Open Scope Z_scope.

Definition norm_st (R C ty ch es : Z) (l l' : list Z) : st :=
  mkSt (im_objs 0 R C ty ch es (wordsn es l) ++ im_objs 2 R C ty ch es (wordsn es l')) [].
Definition fw4 (z : Z) : Z := bits_of_fl (fl_of_Z z).

(** Bytes 3 and 4, with norms 7, 5 and 4. *)
Definition st_norm : st := norm_st 1 2 1 1 1 [3; 4] [0; 0].
Definition norm_W (i : Z) : Z := if i =? 0 then 3 else 4.
Ltac norm_tac :=
  constructor; [reflexivity|reflexivity|reflexivity|reflexivity|cbn; lia|cbn; lia|vm_compute; discriminate
  | let i := fresh in let Hi := fresh in intros i Hi; cbn [im_hdr sm_rows sm_cols] in Hi;
    assert (i = 0 \/ i = 1 \/ i = 2) as [-> | [-> | ->]] by lia; try lia; vm_compute; reflexivity
  | do 3 eexists; split; [reflexivity|]; split; [reflexivity|cbn; lia] ].
Lemma st_norm_ok : heap_ok st_norm
  /\ normalizable st_norm (Some 0%nat) (Some 2%nat) (im_hdr 0 1 2 1 1 1) (im_hdr 2 1 2 1 1 1) norm_W
  /\ (forall i, 0 <= i < 2 -> denotes_int 1 (norm_W i) (norm_W i) /\ 0 <= norm_W i /\ 0 <= norm_W i * 100 < 4194304)
  /\ extremes 2 norm_W 3 4 /\ sumz 2 norm_W = 7 /\ sumz 2 (fun i => norm_W i * norm_W i) = 5 * 5
  /\ is_int (fl_of_Z 100) 100 /\ is_int (fl_of_Z 200) 200.
Proof.
  split; [ex_heap_tac|]. split; [norm_tac|]. split.
  { intros i Hi. assert (i = 0 \/ i = 1) as [-> | ->] by lia; (split; [reflexivity|cbn; lia]). }
  split. { split; [exists 0; split; [lia|reflexivity]|]. split; [exists 1; split; [lia|reflexivity]|].
    intros i Hi. assert (i = 0 \/ i = 1) as [-> | ->] by lia; cbn; lia. }
  do 2 (split; [reflexivity|]). split; split; vm_compute; reflexivity.
Qed.

(** Floats -4 and 4. *)
Definition st_normf : st := norm_st 1 2 4 1 4 [fw4 (-4); fw4 4] [0; 0].
Definition normf_z (i : Z) : Z := if i =? 0 then -4 else 4.
Lemma st_normf_ok :
  normalizable st_normf (Some 0%nat) (Some 2%nat) (im_hdr 0 1 2 4 1 4) (im_hdr 2 1 2 4 1 4) (fun i => fw4 (normf_z i))
  /\ (forall i, 0 <= i < 2 -> denotes_int 4 (fw4 (normf_z i)) (normf_z i)) /\ extremes 2 normf_z (-4) 4.
Proof.
  split; [norm_tac|]. split.
  { intros i Hi. assert (i = 0 \/ i = 1) as [-> | ->] by lia; split; vm_compute; reflexivity. }
  split; [exists 0; split; [lia|reflexivity]|]. split; [exists 1; split; [lia|reflexivity]|].
  intros i Hi. assert (i = 0 \/ i = 1) as [-> | ->] by lia; cbn; lia.
Qed.

(** Two equal bytes. *)
Definition st_normc : st := norm_st 1 2 1 1 1 [9; 9] [1; 1].
Lemma st_normc_ok :
  normalizable st_normc (Some 0%nat) (Some 2%nat) (im_hdr 0 1 2 1 1 1) (im_hdr 2 1 2 1 1 1) (fun _ => 9)
  /\ (forall i, 0 <= i < 2 -> denotes_int 1 9 9).
Proof. split; [norm_tac|reflexivity]. Qed.

Definition reads (l : list Z) (es : nat) (s : st) (d : ptr) : bool :=
  forallb (fun p => match word_at s d (Z.of_nat (fst p) * Z.of_nat es) es with Some v => v =? snd p | None => false end) (combine (seq 0 (length l)) l).

(** 0, 1/2 and 1 scaled to 0..1 give 0, 0 and 1. *)
Definition half_bits : Z := bits_of_fl (fl_div (fl_of_Z 1) (fl_of_Z 2)).
Theorem normalize_fractions : exists e s src dst ms md s',
  env_ok e /\ normalizable s src dst ms md (fun i => if i =? 0 then half_bits else fw4 (i - 1)) /\ sm_rows ms = 1 /\ sm_cols ms = 3 /\ sm_type ms = 4
  /\ hypercv_normalize src dst (fl_of_Z 0) (fl_of_Z 1) 32 e s = Ret tt s'
  /\ word_at s (sm_data ms) 0 4 = Some half_bits /\ word_at s' (sm_data md) 0 4 = Some 0.
Proof.
  destruct (out_test (hypercv_normalize (Some 0%nat) (Some 2%nat) (fl_of_Z 0) (fl_of_Z 1) 32 ex_env (norm_st 1 3 4 1 4 [half_bits; fw4 0; fw4 1] [7; 7; 7]))
    (fun _ s => reads [0] 4 s (Some 3%nat))) as ([] & s' & E & X); [vm_compute; reflexivity|].
  exists ex_env, (norm_st 1 3 4 1 4 [half_bits; fw4 0; fw4 1] [7; 7; 7]), (Some 0%nat), (Some 2%nat), (im_hdr 0 1 3 4 1 4), (im_hdr 2 1 3 4 1 4), s'.
  split; [exact ex_env_ok|]. split; [norm_tac|].
  do 3 (split; [reflexivity|]). split; [exact E|]. split; [reflexivity|].
  unfold reads in X. cbn [length seq combine forallb fst snd] in X. change (Z.of_nat 0 * Z.of_nat 4) with 0 in X.
  cbn [im_hdr sm_data Nat.add]. destruct (word_at s' (Some 3%nat) 0 4) as [v|]; [|discriminate]. f_equal. lia.
Qed.

(** The maximum norm ignores negative elements: -4 and 2 scaled to norm 100 give 0 and 100. *)
Theorem normalize_inf : exists e s src dst ms md s',
  env_ok e /\ normalizable s src dst ms md (fun i => fw4 (if i =? 0 then -4 else 2)) /\ sm_rows ms = 1 /\ sm_cols ms = 2 /\ sm_type ms = 4
  /\ hypercv_normalize src dst (fl_of_Z 100) (fl_of_Z 0) 1 e s = Ret tt s'
  /\ word_at s' (sm_data md) 0 4 = Some (fw4 0) /\ word_at s' (sm_data md) 4 4 = Some (fw4 100).
Proof.
  destruct (out_test (hypercv_normalize (Some 0%nat) (Some 2%nat) (fl_of_Z 100) (fl_of_Z 0) 1 ex_env (norm_st 1 2 4 1 4 [fw4 (-4); fw4 2] [7; 7]))
    (fun _ s => reads [fw4 0; fw4 100] 4 s (Some 3%nat))) as ([] & s' & E & X); [vm_compute; reflexivity|].
  exists ex_env, (norm_st 1 2 4 1 4 [fw4 (-4); fw4 2] [7; 7]), (Some 0%nat), (Some 2%nat), (im_hdr 0 1 2 4 1 4), (im_hdr 2 1 2 4 1 4), s'.
  split; [exact ex_env_ok|]. split; [norm_tac|].
  do 3 (split; [reflexivity|]). split; [exact E|].
  unfold reads in X. cbn [length seq combine forallb fst snd] in X. change (Z.of_nat 0 * Z.of_nat 4) with 0 in X. change (Z.of_nat 1 * Z.of_nat 4) with 4 in X.
  cbn [im_hdr sm_data Nat.add]. destruct (word_at s' (Some 3%nat) 0 4) as [v|]; [|discriminate]. destruct (word_at s' (Some 3%nat) 4 4) as [w|]; [|lia].
  split; f_equal; lia.
Qed.

(** The smallest element is sought from 1000000 downwards: 2000000 and 3000000 scaled to 0..200 give 100 and 200. *)
Theorem normalize_large : exists e s src dst ms md s',
  env_ok e /\ normalizable s src dst ms md (fun i => fw4 (if i =? 0 then 2000000 else 3000000)) /\ sm_rows ms = 1 /\ sm_cols ms = 2 /\ sm_type ms = 4
  /\ hypercv_normalize src dst (fl_of_Z 0) (fl_of_Z 200) 32 e s = Ret tt s'
  /\ word_at s' (sm_data md) 0 4 = Some (fw4 100) /\ word_at s' (sm_data md) 4 4 = Some (fw4 200).
Proof.
  destruct (out_test (hypercv_normalize (Some 0%nat) (Some 2%nat) (fl_of_Z 0) (fl_of_Z 200) 32 ex_env (norm_st 1 2 4 1 4 [fw4 2000000; fw4 3000000] [7; 7]))
    (fun _ s => reads [fw4 100; fw4 200] 4 s (Some 3%nat))) as ([] & s' & E & X); [vm_compute; reflexivity|].
  exists ex_env, (norm_st 1 2 4 1 4 [fw4 2000000; fw4 3000000] [7; 7]), (Some 0%nat), (Some 2%nat), (im_hdr 0 1 2 4 1 4), (im_hdr 2 1 2 4 1 4), s'.
  split; [exact ex_env_ok|]. split; [norm_tac|].
  do 3 (split; [reflexivity|]). split; [exact E|].
  unfold reads in X. cbn [length seq combine forallb fst snd] in X. change (Z.of_nat 0 * Z.of_nat 4) with 0 in X. change (Z.of_nat 1 * Z.of_nat 4) with 4 in X.
  cbn [im_hdr sm_data Nat.add]. destruct (word_at s' (Some 3%nat) 0 4) as [v|]; [|discriminate]. destruct (word_at s' (Some 3%nat) 4 4) as [w|]; [|lia].
  split; f_equal; lia.
Qed.

(** A float source and an 8-bit destination of the same size: writes outside the destination. *)
Definition st_narrow : st :=
  mkSt (im_objs 0 1 2 4 1 4 (wordsn 4 [fw4 1; fw4 2]) ++ im_objs 2 1 2 1 1 1 (wordsn 1 [0; 0])) [].
Theorem normalize_narrow : exists e s src dst ms md,
  env_ok e /\ heap_ok s /\ image s src ms 4 /\ image s dst md 1 /\ sm_rows ms = sm_rows md /\ sm_cols ms = sm_cols md
  /\ sm_type ms = 4 /\ sm_type md = 1 /\ hypercv_normalize src dst (fl_of_Z 0) (fl_of_Z 255) 32 e s = UB.
Proof.
  exists ex_env, st_narrow, (Some 0%nat), (Some 2%nat), (im_hdr 0 1 2 4 1 4), (im_hdr 2 1 2 1 1 1).
  split; [exact ex_env_ok|]. split; [ex_heap_tac|]. do 2 (split; [ex_image_tac|]). do 4 (split; [reflexivity|]). vm_compute. reflexivity.
Qed.

(** A three-channel pixel and a channel count the normalisation ignores. *)
Definition st_norm3 : st := norm_st 1 2 1 3 1 [1; 2; 3; 4; 5; 6] [1; 2; 3; 4; 5; 6].
Lemma st_norm3_ok : normalizable st_norm3 (Some 0%nat) (Some 2%nat) (im_hdr 0 1 2 1 3 1) (im_hdr 2 1 2 1 3 1) (fun i => i + 1)
  /\ sm_chan (im_hdr 0 1 2 1 3 1) = 3.
Proof. split; [norm_tac|reflexivity]. Qed.
