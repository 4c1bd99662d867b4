(** * The whole of the principal components: a concrete state. *)
From Verif Require Import Base ModelFloat ModelPca SpecBase SpecNum SpecMatrix SpecCxx SpecPca.
From Verif Require Import Fixtures Fixtures2 ProofEx ProofEx6 ProofPca ProofEx25.
From Coq Require Import List Lia Floats.SpecFloat ZifyBool.
Import ListNotations.
Ltac Zify.zify_post_hook ::= Z.div_mod_to_equations.
Open Scope Z_scope.

Lemma st_pca_whole : env_ok ex_env /\ (forall k, e_addr ex_env k mod 64 <> 48) /\ heap_ok (st_pca [0; 2; 4; 2] [1; 0; 0; 0])
  /\ cube (st_pca [0; 2; 4; 2] [1; 0; 0; 0]) (Some 0%nat) (hc_hdr 0 2 1 2 4 BIP) BIP 4
  /\ hm_at (st_pca [0; 2; 4; 2] [1; 0; 0; 0]) (Some 3%nat) = Some (hc_hdr 3 2 1 2 4 BIP)
  /\ matrix (st_pca [0; 2; 4; 2] [1; 0; 0; 0]) (Some 1%nat) 4 2 2 (table2 (fw [0; 2; 4; 2]))
  /\ matrix (st_pca [0; 2; 4; 2] [1; 0; 0; 0]) (Some 4%nat) 4 2 2 (table2 (fw [1; 0; 0; 0])).
Proof.
  destruct (st_pca_ok [0; 2; 4; 2] [1; 0; 0; 0]) as (A & B & C & D). split; [exact A|].
  split; [intros k; cbn [ex_env e_addr]; lia|]. split; [exact B|]. split; [exact C|]. split; [reflexivity|]. split; two_tac.
Qed.
