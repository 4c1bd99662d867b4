(** * The example states meet the hypotheses of the theorems. *)
From Verif Require Import Base Logic ModelCore ModelImage SpecBase SpecCore SpecImage Fixtures.
From Coq Require Import String ZifyBool ZifyNat.
Ltac Zify.zify_post_hook ::= Z.div_mod_to_equations.
Open Scope Z_scope.

(** A run whose result passes a computable test. *)
Lemma out_test {A} (r : out A) (t : A -> st -> bool) : match r with Ret a s => t a s | _ => false end = true ->
  exists a s, r = Ret a s /\ t a s = true.
Proof. destruct r as [a s| | |]; try discriminate. intros H. exists a, s. split; auto. Qed.

Lemma ex_env_ok : env_ok ex_env.
Proof. intros k. cbn [ex_env e_addr]. change (2 ^ 46) with 70368744177664. lia. Qed.
Lemma ex_env48_ok : env_ok ex_env48.
Proof. intros k. cbn [ex_env48 e_addr]. change (2 ^ 46) with 70368744177664. lia. Qed.

Lemma ex_cube_heap l : heap_ok (ex_cube l).
Proof.
  intros i o. cbn. destruct i as [|[|[|i]]]; cbn; try (intros [= <-]; cbn; lia).
  destruct i; discriminate.
Qed.

Lemma ex_cube_cube l : cube (ex_cube l) (Some 0%nat) (ex_hdr l) l 2.
Proof.
  constructor; cbn [ex_hdr hm_samples hm_lines hm_bands hm_type hm_il hm_pad hm_data hm_wave]; try reflexivity; try lia.
  - cbn. auto.
  - do 3 eexists. split; [reflexivity|]. split; [reflexivity|cbn; lia].
  - right. do 3 eexists. split; [reflexivity|]. split; [reflexivity|cbn; lia].
Qed.

Lemma ex_image_heap : heap_ok ex_image.
Proof.
  intros i o. cbn. destruct i as [|[|i]]; cbn; try (intros [= <-]; cbn; lia).
  destruct i; discriminate.
Qed.

Lemma ex_image_image : image ex_image (Some 0%nat) ex_im_hdr 1.
Proof.
  constructor; cbn [ex_im_hdr sm_rows sm_cols sm_type sm_chan sm_data]; try reflexivity; try lia.
  do 3 eexists. split; [reflexivity|]. split; [reflexivity|cbn; lia].
Qed.
