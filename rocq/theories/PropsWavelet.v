(** * Property C94: filter banks of the wavelet transforms. *)
From Verif Require Import Base ModelFloat ModelWavelet SpecBase SpecNum SpecMatrix SpecShape SpecCxx SpecWavelet
  Fixtures Fixtures2 ProofEx ProofEx6 ProofWavelet ProofEx24.
From Coq Require Import List Lia Floats.SpecFloat.
Import ListNotations.
Open Scope Z_scope.

(** C94.  For both wavelets four filters of the same length are built, the high-pass ones being the low-pass ones with alternate signs; releasing the base releases them all. *)
Theorem C94_filters : forall w e s, heap_ok s ->
  exists p r s', set_wavelet_base (wavelet_code w) e s = Ret (p, r) s' /\ fb_len r = Z.of_nat (List.length (low_d w))
    /\ fractions_at s' (fb_LO_D r) (low_d w) /\ fractions_at s' (fb_HI_D r) (high_d w)
    /\ fractions_at s' (fb_LO_R r) (low_r w) /\ fractions_at s' (fb_HI_R r) (high_r w)
    /\ old_unchanged s s' /\ files s' = files s
    /\ exists s'', wavelet_base_free p r e s' = Ret tt s'' /\ no_leak s s'' /\ old_unchanged s s'' /\ files s'' = files s.
Proof. exact filters_ok. Qed.
Print Assumptions C94_filters.
(** The check of the type lets every number pass: an unknown one gives a base without filters. *)
Theorem C94_unknown_refuted : forall ty e s, ty <> 1 -> ty <> 2 ->
  exists p s', set_wavelet_base ty e s = Ret (Some p, WBase 0 None None None None) s' /\ old_unchanged s s'.
Proof. exact filters_unknown. Qed.
Print Assumptions C94_unknown_refuted.
(** The filters give the signal back up to 1.1 parts in 10000.  Missing: exact reconstruction, which is false for these four digits. *)
Theorem C94_reconstruct_partial : forall w, reconstructs 11000 w.
Proof. exact reconstruct_near. Qed.
Print Assumptions C94_reconstruct_partial.
(** Neither wavelet gives it back exactly. *)
Theorem C94_exact_refuted : forall w, ~ reconstructs 0 w.
Proof. exact reconstruct_not. Qed.
Print Assumptions C94_exact_refuted.
Example C94_hypotheses : heap_ok st_wave.
Proof. exact st_wave_ok. Qed.
Example C94_run : bank_of 1 = Some (6, map (fun n => Some (double_word (dlit n 10000))) [-3327; 8069; -4599; -1350; 854; 352] ++ [None])
  /\ bank_of 9 = Some (0, [None; None; None; None; None; None; None])
  /\ match set_wavelet_base 2 ex_env st_wave with
     | Ret (p, r) s' => match wavelet_base_free p r ex_env s' with Ret tt s'' => map o_live (objs s'') = [true; true; false; false; false; false; false] | _ => False end
     | _ => False end
  /\ high_d bior3_7 = [0; 0; 0; 0; 0; 0; 1768; -5303; 5303; -1768; 0; 0; 0; 0; 0; 0].
Proof. exact bank_runs. Qed.
