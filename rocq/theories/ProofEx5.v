(** * Concrete states for sorting and the dynamic array. *)
From Verif Require Import Base ModelFloat ModelCore ModelMath ModelVector SpecBase SpecNum SpecVector Fixtures Fixtures2
  ModelConv ProofFloat ProofConv ProofMath ProofVector ProofEx4.
From Coq Require Import Floats.SpecFloat Lia Permutation.
Open Scope Z_scope.

(** An array of five floats: -1, 3.5, 3.5, -infinity, 100; one of three: 1, NaN, 2. *)
Definition five_floats : list Z := [3212836864; 1080033280; 1080033280; 4286578688; 1120403456].
Definition three_floats : list Z := [1065353216; 2143289344; 1073741824].
Definition st_sort : st :=
  mkSt [mkObj 4096 20 0 true (CBytes (words4 five_floats)); mkObj 8192 12 1 true (CBytes (words4 three_floats))] [].

Lemma st_sort_ok : readable st_sort (Some 0%nat) (5 * 4) /\ readable st_sort (Some 1%nat) (3 * 4)
  /\ ~ has_nan (elements st_sort (Some 0%nat) 4 5).
Proof.
  split; [|split].
  - eexists _, _, _. split; [reflexivity|]. split; [reflexivity|]. discriminate.
  - eexists _, _, _. split; [reflexivity|]. split; [reflexivity|]. discriminate.
  - intros (x & Hx & Hn).
    assert (E : elements st_sort (Some 0%nat) 4 5 = map Some five_floats) by (vm_compute; reflexivity).
    rewrite E in Hx. cbn in Hx.
    destruct Hx as [[= <-]|[[= <-]|[[= <-]|[[= <-]|[[= <-]|[]]]]]]; vm_compute in Hn; discriminate.
Qed.

Lemma sort_nan_refuted : exists e s p n s', 0 <= n <= 2147483647 /\ readable s p (n * 4)
  /\ sort_array_down_float p n e s = Ret tt s' /\ ~ descending s' p n
  /\ exists x y, word_at s' p 0 4 = Some x /\ word_at s' p 8 4 = Some y
     /\ SFltb (fl_of_bits x) (fl_of_bits y) = true.
Proof.
  destruct (sort_spec ex_env st_sort (Some 1%nat) 3) as (s' & E & _); [lia|apply st_sort_ok|].
  assert (W : forall o w, match sort_array_down_float (Some 1%nat) 3 ex_env st_sort with
     | Ret _ s1 => word_at s1 (Some 1%nat) o 4 | _ => None end = Some w -> word_at s' (Some 1%nat) o 4 = Some w).
  { intros o w H. rewrite E in H. exact H. }
  exists ex_env, st_sort, (Some 1%nat), 3, s'. split; [lia|]. split; [apply st_sort_ok|].
  split; [exact E|].
  assert (W0 : word_at s' (Some 1%nat) 0 4 = Some 1065353216) by (apply W; vm_compute; reflexivity).
  assert (W2 : word_at s' (Some 1%nat) 8 4 = Some 1073741824) by (apply W; vm_compute; reflexivity).
  clear W E. split.
  - intros H. specialize (H 0 2 1065353216 1073741824 ltac:(lia) ltac:(lia) W0 W2).
    assert (E : sf_le (fl_of_bits 1073741824) (fl_of_bits 1065353216) -> False) by (vm_compute; intros H'; apply H'; reflexivity).
    auto.
  - exists 1065353216, 1073741824. split; [exact W0|]. split; [exact W2|]. vm_compute. reflexivity.
Qed.

Lemma round_in_range x n z : db_ok x -> sf_num x = Some n -> nearest_even n sf_one z ->
  -2147483648 <= z <= 2147483647 -> HYPERCV_ROUND x = z.
Proof.
  intros V N H B. rewrite (ROUND_nearest x n z V N H). unfold in_int, INT_MIN, INT_MAX.
  now replace ((-2147483648 <=? z) && (z <=? 2147483647)) with true by lia.
Qed.
