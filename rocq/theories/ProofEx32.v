(** * Fixtures: the heaps of the morphology examples. *)
From Verif Require Import Base SpecBase SpecPixel SpecMatrix SpecFilter Fixtures Fixtures2 ProofEx ProofEx3 ProofEx4 ProofEx6 ProofEx8 ProofEx9.
From Coq Require Import Lia.
Open Scope Z_scope.

Lemma morph_heaps : env_ok ex_env /\ heap_ok st_hole /\ heap_ok st_zero.
Proof. split; [exact ex_env_ok|]. split; ex_heap_tac. Qed.

(** A 2x2 image and a kernel of three weights 1/4, 1/2, 1/4. *)
Definition st_kern : st :=
  mkSt (im_objs 0 2 2 1 1 1 (fun i => 60 * i) ++ im_objs 2 1 3 4 1 4 (wordsn 4 [1048576000; 1056964608; 1048576000])) [].
Lemma st_kern_ok : heap_ok st_kern /\ image st_kern (Some 0%nat) (im_hdr 0 2 2 1 1 1) 1
  /\ colours st_kern (im_hdr 0 2 2 1 1 1) (fun i j _ => 120 * i + 60 * j)
  /\ sm_at st_kern (Some 2%nat) = Some (im_hdr 2 1 3 4 1 4)
  /\ matrix st_kern (Some 3%nat) 4 1 3 (fun _ j => if j =? 1 then 1056964608 else 1048576000).
Proof.
  split; [ex_heap_tac|]. split; [ex_image_tac|]. split.
  - intros i j c (Hi & Hj & Hc). cbn [im_hdr sm_rows sm_cols sm_chan] in *. replace c with 0 by lia.
    assert (Di : i = 0 \/ i = 1) by lia. assert (Dj : j = 0 \/ j = 1) by lia. clear Hi Hj Hc.
    destruct Di; destruct Dj; subst; vm_compute; reflexivity.
  - split; [reflexivity|]. intros i j Hi Hj. replace i with 0 by lia. destruct (split3 j Hj) as [->|[->| ->]]; vm_compute; reflexivity.
Qed.
