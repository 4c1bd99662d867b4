(** * Filter banks: concrete states. *)
From Verif Require Import Base ModelFloat ModelWavelet SpecBase SpecNum SpecShape SpecWavelet.
From Verif Require Import Fixtures Fixtures2 ProofEx ProofEx6.
From Coq Require Import List Lia Floats.SpecFloat.
Import ListNotations.
Open Scope Z_scope.

(** A heap with one image. *)
Definition st_wave : st := mkSt (im_objs 0 2 2 1 1 1 (wordsn 1 [0; 7; 0; 0])) [].
Lemma st_wave_ok : heap_ok st_wave.
Proof. intros k o H. do 2 (destruct k as [|k]; [injection H as <-; cbn; lia|]). destruct k; discriminate H. Qed.

Definition bank_of (ty : Z) : option (Z * list (option Z)) :=
  match set_wavelet_base ty ex_env st_wave with
  | Ret (_, r) s' => Some (fb_len r, map (fun k => word_at s' (fb_HI_R r) (8 * Z.of_nat k) 8) (seq 0 7))
  | _ => None
  end.
(** The high-pass filter for reconstruction of db3, and beyond its end nothing. *)
Lemma bank_runs : bank_of 1 = Some (6, map (fun n => Some (double_word (dlit n 10000))) [-3327; 8069; -4599; -1350; 854; 352] ++ [None])
  /\ bank_of 9 = Some (0, [None; None; None; None; None; None; None])
  /\ match set_wavelet_base 2 ex_env st_wave with
     | Ret (p, r) s' => match wavelet_base_free p r ex_env s' with Ret tt s'' => map o_live (objs s'') = [true; true; false; false; false; false; false] | _ => False end
     | _ => False end
  /\ high_d bior3_7 = [0; 0; 0; 0; 0; 0; 1768; -5303; 5303; -1768; 0; 0; 0; 0; 0; 0].
Proof. split; [|split; [|split]]; vm_compute; reflexivity. Qed.
