(** * Arrays whose mean and distance are not floats. *)
From Verif Require Import Base ModelFloat ModelCore SpecBase SpecNum SpecMatrix SpecStat SpecSpectral Fixtures Fixtures2 ProofEx6 ProofFloat ProofEx17.
From Coq Require Import List Lia.
Import ListNotations.
Open Scope Z_scope.

Lemma thirds_ok : elements_of (mkSt [mkObj 4096 12 0 true (CBytes (wordsn 4 (fw [1; 1; 0])))] []) (Some 0%nat) 4 3 (fun i => nth (Z.to_nat i) (fw [1; 1; 0]) 0)
  /\ (forall i, 0 <= i < 3 -> sf_num (fl_of_bits (nth (Z.to_nat i) (fw [1; 1; 0]) 0)) = Some ((if i <? 2 then 1 else 0) * sf_one) /\ 0 <= (if i <? 2 then 1 else 0) * sf_one)
  /\ 2 ^ 1000 <= sumz 3 (fun i => (if i <? 2 then 1 else 0) * sf_one) <= 3 * 2 ^ 1132.
Proof.
  split; [|split].
  - intros i Hi. assert (i = 0 \/ i = 1 \/ i = 2) as [-> | [-> | -> ] ] by lia; vm_compute; reflexivity.
  - intros i Hi. assert (i = 0 \/ i = 1 \/ i = 2) as [-> | [-> | -> ] ] by lia; (split; [vm_compute; reflexivity|apply Z.leb_le; vm_compute; reflexivity]).
  - split; apply Z.leb_le; vm_compute; reflexivity.
Qed.
Definition st_slant : st := mkSt [mkObj 4096 8 0 true (CBytes (wordsn 4 (fw [1; 2]))); mkObj 8192 8 1 true (CBytes (wordsn 4 (fw [2; 1])))] [].
Lemma slant_ok : elements_of st_slant (Some 0%nat) 4 2 (fun i => nth (Z.to_nat i) (fw [1; 2]) 0) /\ elements_of st_slant (Some 1%nat) 4 2 (fun i => nth (Z.to_nat i) (fw [2; 1]) 0)
  /\ (forall i, 0 <= i < 2 -> sf_num (fl_of_bits (nth (Z.to_nat i) (fw [1; 2]) 0)) = Some ((1 + i) * sf_one) /\ sf_num (fl_of_bits (nth (Z.to_nat i) (fw [2; 1]) 0)) = Some ((2 - i) * sf_one))
  /\ 2 ^ 2075 <= sumz 2 (fun i => ((1 + i) * sf_one - (2 - i) * sf_one) * ((1 + i) * sf_one - (2 - i) * sf_one)) <= 2 ^ 2250.
Proof.
  split; [|split; [|split]].
  - intros i Hi. assert (i = 0 \/ i = 1) as [-> | -> ] by lia; vm_compute; reflexivity.
  - intros i Hi. assert (i = 0 \/ i = 1) as [-> | -> ] by lia; vm_compute; reflexivity.
  - intros i Hi. assert (i = 0 \/ i = 1) as [-> | -> ] by lia; split; vm_compute; reflexivity.
  - split; apply Z.leb_le; vm_compute; reflexivity.
Qed.
Lemma slant_spread : elements_of st_slant (Some 0%nat) 4 2 (fun i => nth (Z.to_nat i) (fw [1; 2]) 0)
  /\ sf_num (float_average 2 (fun i => fl_of_bits (nth (Z.to_nat i) (fw [1; 2]) 0))) = Some (sf_one + sf_one / 2)
  /\ 2 ^ 1000 <= sumz 2 (fun i => (1 + i) * sf_one) <= 2 * 2 ^ 1132
  /\ 2 ^ 2095 <= sumz 2 (fun i => ((1 + i) * sf_one - (sf_one + sf_one / 2)) * ((1 + i) * sf_one - (sf_one + sf_one / 2))) <= 2 * 2 ^ 2206.
Proof.
  split; [exact (proj1 slant_ok)|]. split; [vm_compute; reflexivity|]. repeat split; apply Z.leb_le; vm_compute; reflexivity.
Qed.
Lemma down_sum : elements_of (mkSt [mkObj 4096 3 0 true (CBytes (fun i => 255 - i))] []) (Some 0%nat) (kind_size Char) 3 (fun i => 255 - i)
  /\ sumz 3 (fun i => kind_value Char (255 - i)) = -6 /\ sumz 3 (fun i => Z.abs (kind_value Char (255 - i))) = 6.
Proof.
  split; [|split; vm_compute; reflexivity].
  intros i Hi. assert (i = 0 \/ i = 1 \/ i = 2) as [-> | [-> | -> ] ] by lia; vm_compute; reflexivity.
Qed.
