(** * Fixture for the C++ image class: 2 samples, 3 lines, 2 bands of 16 bits, by line. *)
From Verif Require Import Base ModelCxx SpecBase SpecCxx Fixtures.
Open Scope Z_scope.

Definition cx_st : st := mkSt [mkObj 4096 24 0 true (CBytes (fun i => 7 * i)); mkObj 8192 8 1 true (CBytes (fun _ => 0))] [].
Definition cx_obj : hy :=
  mkHy (Some 3) (Some 2) (Some 2) (Some 2) (Some 1) (Some [98; 105; 108]) (Some (Some 0%nat)) (Some (Some 1%nat)) (Some 2) (Some 24).

Lemma cx_heap : heap_ok cx_st.
Proof. intros [|[|i]] o H; cbn in H; try (injection H as <-; cbn; lia). destruct i; discriminate. Qed.
Lemma cx_image : hy_image cx_st cx_obj 2 3 2 2 2 BIL (Some 0%nat) (Some 1%nat).
Proof. constructor; try reflexivity; try lia. exists 0%nat, 24, (fun i => 7 * i). repeat split. reflexivity. Qed.
