(** * Showing images: concrete states. *)
From Verif Require Import Base ModelCore ModelShow SpecBase SpecShow.
From Verif Require Import Fixtures Fixtures2 ProofEx.
From Coq Require Import List Lia.
Import ListNotations.
Open Scope Z_scope.

(** Two pixels of three channels; two of one; two of two; two floats; a large grey image. *)
Definition st_show : st :=
  mkSt (im_objs 0 1 2 1 3 1 (fun i => 10 + i) ++ im_objs 2 1 2 1 1 1 (fun i => 70 + i) ++ im_objs 4 1 2 1 2 1 (fun i => i)
        ++ im_objs 6 1 2 4 1 4 (fun i => 40 + i) ++ im_objs 8 20000 30000 1 1 1 (fun i => 0)) [].
Lemma st_show_ok : image st_show (Some 0%nat) (im_hdr 0 1 2 1 3 1) 1 /\ image st_show (Some 2%nat) (im_hdr 2 1 2 1 1 1) 1
  /\ image st_show (Some 4%nat) (im_hdr 4 1 2 1 2 1) 1 /\ image st_show (Some 6%nat) (im_hdr 6 1 2 4 1 4) 4 /\ image st_show (Some 8%nat) (im_hdr 8 20000 30000 1 1 1) 1.
Proof. repeat (split; [ex_image_tac|]). ex_image_tac. Qed.
(** The buffers of the first two and of the floats, where the second pixel is a byte of the first value. *)
Lemma show_runs : map (fun p => match x11_buffer (Some p) ex_env st_show with Ret b s' => map (byte_at s' b) [0; 1; 2; 3; 4; 5; 6; 7; 8] | _ => [] end) [0%nat; 2%nat; 6%nat]
  = [map Some [10; 11; 12; 1; 13; 14; 15; 1] ++ [None]; map Some [70; 70; 70; 1; 71; 71; 71; 1] ++ [None]; map Some [40; 40; 40; 1; 41; 41; 41; 1] ++ [None]]
  /\ x11_buffer (Some 8%nat) ex_env st_show = UB /\ smshow_x11 (Some 0%nat) ex_env st_show = UB.
Proof. repeat split; vm_compute; reflexivity. Qed.
