(** * Printed descriptions, released blocks, unfinished entry points: concrete states. *)
From Verif Require Import Base ModelFloat ModelCore ModelWavelet ModelRest SpecBase SpecCore SpecNum SpecHdr SpecPixel SpecRest.
From Verif Require Import Fixtures Fixtures2 ProofEx ProofEx6.
From Coq Require Import List Lia Floats.SpecFloat String.
Import ListNotations.
Open Scope Z_scope.

(** A cube of two bands with the wavelengths 1 and 2. *)
Definition st_info : st := mkSt (hc_objs 0 2 1 2 4 4 BIP (wordsn 4 (fw [0; 2; 4; 2])) (wordsn 4 (fw [1; 2]))) [].
Lemma st_info_ok : cube st_info (Some 0%nat) (hc_hdr 0 2 1 2 4 BIP) BIP 4 /\ hm_wave (hc_hdr 0 2 1 2 4 BIP) = Some 2%nat
  /\ hyper_mat_showinfo (Some 0%nat) ex_env st_info = Ret (numbers_text (text "2") (text "1") (text "2") (text "4") (text "bip") ++ waves_text [text "1.000000"; text "2.000000"]) st_info.
Proof. split; [ex_cube_tac|]. split; [reflexivity|]. vm_compute. reflexivity. Qed.

(** Three images of one set, one of them missing. *)
Definition st_set : st :=
  mkSt (im_objs 0 2 2 4 1 4 (fun _ => 0) ++ im_objs 2 2 2 4 1 4 (fun _ => 0) ++ im_objs 4 2 2 4 1 4 (fun _ => 0) ++ [mkObj 397312 32 6 true (CBytes (fun _ => 0))]) [].
Lemma st_set_ok : own_blocks st_set [Some 0%nat; None; Some 2%nat; Some 4%nat; Some 6%nat] /\ own_blocks st_set [Some 2%nat; None; Some 6%nat]
  /\ match wt_coefset_free (Some 6%nat) (CoefSet (Some 0%nat) None (Some 2%nat) (Some 4%nat)) ex_env st_set with
     | Ret tt s' => map o_live (objs s') = [false; false; false; false; false; false; false] | _ => False end
  /\ wt_coefset_free (Some 6%nat) (CoefSet (Some 0%nat) None (Some 0%nat) (Some 4%nat)) ex_env st_set = UB.
Proof.
  split; [|split; [|split; vm_compute; reflexivity]].
  - cbn [own_blocks]. repeat split; try (left; reflexivity); right; (split; [eexists _, _; repeat split|cbn; intuition congruence]).
  - cbn [own_blocks]. repeat split; try (left; reflexivity); right; (split; [eexists _, _; repeat split|cbn; intuition congruence]).
Qed.
Definition st_img : st := mkSt (im_objs 0 2 3 1 1 1 (fun i => i) ++ im_objs 2 4 6 1 1 1 (fun i => i)) [].
Lemma st_img_ok : env_ok ex_env /\ heap_ok st_img /\ image st_img (Some 0%nat) (im_hdr 0 2 3 1 1 1) 1 /\ image st_img (Some 2%nat) (im_hdr 2 4 6 1 1 1) 1.
Proof.
  split; [exact ex_env_ok|]. split; [intros k o H; do 4 (destruct k as [|k]; [injection H as <-; cbn; lia|]); destruct k; discriminate H|]. split; ex_image_tac.
Qed.
(** A doubled image is asked for; the destination keeps its bytes. *)
Lemma resize_run : simple_mat_resize (Some 0%nat) (Some 2%nat) 0 ex_env st_img = Ret tt st_img
  /\ simple_mat_resize (Some 0%nat) None 0 ex_env st_img = UB.
Proof. split; vm_compute; reflexivity. Qed.
