(** * Concrete cases: morphology on a 2 x 3 image. *)
From Verif Require Import Base SpecBase SpecMorph2 Fixtures Fixtures2 ProofEx9.
From Coq Require Import Lia.
Open Scope Z_scope.

Lemma wide_ones : overlapping st_wide (Some 1%nat) 2 3 (fun _ _ => 1) /\ sm_data (im_hdr 0 2 3 1 1 1) = Some 1%nat.
Proof.
  split; [|reflexivity]. intros i j Hi Hj.
  assert (i = 0 \/ i = 1) as [-> | ->] by lia; assert (j = 0 \/ j = 1 \/ j = 2) as [-> |[-> | ->]] by lia; vm_compute; reflexivity.
Qed.
