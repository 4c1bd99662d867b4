(** * Fixtures for the literal properties. *)
From Verif Require Import Base Logic ModelFloat SpecBase SpecNum SpecAtof SpecHdr ModelAtof ProofFloat ProofFloat2 ProofAtof ProofAtof2 Fixtures.
From Coq Require Import Floats.SpecFloat String ZifyBool ZifyNat.
Open Scope Z_scope.

(** A heap with one block that contains a string. *)
Definition st_text (l : list Z) : st :=
  mkSt [mkObj 4096 (Z.of_nat (List.length l) + 1) 0 true (CBytes (fun i => nth (Z.to_nat i) l 0))] [].

Lemma st_text_holds l : (forall x, In x l -> 0 <= x < 256) -> c_string (st_text l) (Some 0%nat) l.
Proof.
  intros B i c H. unfold byte_at, st_text, bytes_at. cbn [nth_error objs o_live o_cont o_size].
  assert (L : (i < List.length (l ++ [0%Z]))%nat) by (apply nth_error_Some; congruence). rewrite app_length in L. cbn [List.length] in L.
  unfold inb. replace ((0 <=? 0 + Z.of_nat i) && (0 + Z.of_nat i <? Z.of_nat (List.length l) + 1)) with true by lia.
  replace (Z.to_nat (0 + Z.of_nat i)) with i by lia. f_equal.
  destruct (Nat.eq_dec i (List.length l)) as [->|N].
  - rewrite nth_overflow by lia. rewrite nth_error_app2 in H by lia. rewrite Nat.sub_diag in H. cbn in H. injection H as <-. reflexivity.
  - rewrite nth_error_app1 in H by lia. rewrite (nth_error_nth l i 0 H). apply Z.mod_small. apply B. eapply nth_error_In. exact H.
Qed.

(** An exact power function. *)
Definition pw10 (k : Z) : sf := db_of_Z (10 ^ k).
Lemma pw10_exact k : 0 <= k <= 15 -> pow_exact pw10 k.
Proof.
  intro H. apply db_of_Z_ok. assert (10 ^ k <= 10 ^ 15) by (apply Z.pow_le_mono_r; lia). assert (0 < 10 ^ k) by (apply Z.pow_pos_nonneg; lia).
  change (10 ^ 15) with 1000000000000000 in *. lia.
Qed.

Lemma exact_unique pw k : 0 <= k <= 15 -> pow_exact pw k -> pw k = pw10 k.
Proof.
  intros H [V N]. destruct (pw10_exact k H) as [V' N']. pose proof sf_one_pos. assert (0 < 10 ^ k) by (apply Z.pow_pos_nonneg; lia).
  apply (num_inj 53 1024 ltac:(lia) ltac:(lia) ltac:(lia) _ _ (10 ^ k * sf_one)); auto. nia.
Qed.

Lemma fraction_minus_exponent : forall pw, pow_exact pw 1 -> exists e s p v,
  c_string s p (text "1.5e-1") /\ hypercv_atof pw p e s = Ret v s /\ denotes v 15.
Proof.
  intros pw P1. exists ex_env, (st_text (text "1.5e-1")), (Some 0%nat), (fl_of_Z 15).
  split; [apply st_text_holds; apply Forall_forall; repeat (constructor; [cbn; lia|]); constructor|].
  apply (exact_unique pw 1) in P1; [|lia].
  split; [|split; reflexivity].
  cbv -[fl_sub fl_add fl_mul db_add db_mul db_div fl_of_Z db_of_Z fl_of_db db_of_fl].
  rewrite P1. vm_compute. reflexivity.
Qed.
