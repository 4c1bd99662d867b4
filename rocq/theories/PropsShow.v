(** * Property C97: showing an image. *)
From Coq Require Import List.
From Verif Require Import Base ModelCore ModelShow SpecBase SpecShow Fixtures Fixtures2 ProofEx ProofShow ProofEx28.
Import ListNotations.
Open Scope Z_scope.

(** C97.  The 32-bit picture made for the X server: a new block with every pixel of the image, for byte images of 1, 3 or 4 channels
    and at most 2^29-1 pixels; nothing else changes.  Missing: other images, and what follows (the refuted forms). *)
Theorem C97_buffer_partial : forall e s p m, image s p m 1 -> sm_rows m * sm_cols m * 4 <= 2147483647 ->
  exists b s', x11_buffer p e s = Ret b s' /\ fresh_in s b /\ old_unchanged s s' /\ files s' = files s /\ shows s m s' b.
Proof. exact show_buffer. Qed.
Print Assumptions C97_buffer_partial.
(** With the X server no image is shown: the picture passed on is a pointer without a value. *)
Theorem C97_never_refuted : forall e s p m es, image s p m es -> smshow_x11 p e s = UB.
Proof. exact show_never. Qed.
Print Assumptions C97_never_refuted.
(** Other numbers of channels leave the buffer as it was allocated. *)
Theorem C97_stale_refuted : forall e s p m es, image s p m es -> sm_rows m * sm_cols m * 4 <= 2147483647 ->
  sm_chan m <> 1 -> sm_chan m <> 3 -> sm_chan m <> 4 ->
  exists b s', x11_buffer p e s = Ret b s' /\ forall x, 0 <= x < sm_rows m * sm_cols m * 4 ->
    byte_at s' b x = Some (e_junk e (List.length (objs s)) x mod 256).
Proof. exact show_stale. Qed.
Print Assumptions C97_stale_refuted.
(** The type is not looked at: of wider pixels the first bytes of the data are shown, one for each pixel. *)
Theorem C97_types_refuted : forall e s p m es, image s p m es -> sm_rows m * sm_cols m * 4 <= 2147483647 -> sm_chan m = 1 ->
  exists b s', x11_buffer p e s = Ret b s' /\ forall i j k, 0 <= i < sm_rows m -> 0 <= j < sm_cols m -> 0 <= k < 3 ->
    byte4 s' b (sm_cols m) i j k = byte_at s (sm_data m) (i * sm_cols m + j).
Proof. exact show_wide. Qed.
Print Assumptions C97_types_refuted.
(** From 2^29 pixels on the size of the buffer overflows. *)
Theorem C97_large_refuted : forall e s p m, sm_at s p = Some m -> 0 < sm_rows m -> 0 < sm_cols m -> sm_rows m * sm_cols m <= 2147483647 ->
  2147483647 < sm_rows m * sm_cols m * 4 -> x11_buffer p e s = UB.
Proof. exact show_large. Qed.
Print Assumptions C97_large_refuted.
Example C97_hypotheses : image st_show (Some 0%nat) (im_hdr 0 1 2 1 3 1) 1 /\ image st_show (Some 2%nat) (im_hdr 2 1 2 1 1 1) 1
  /\ image st_show (Some 4%nat) (im_hdr 4 1 2 1 2 1) 1 /\ image st_show (Some 6%nat) (im_hdr 6 1 2 4 1 4) 4 /\ image st_show (Some 8%nat) (im_hdr 8 20000 30000 1 1 1) 1.
Proof. exact st_show_ok. Qed.
Example C97_run : map (fun p => match x11_buffer (Some p) ex_env st_show with Ret b s' => map (byte_at s' b) [0; 1; 2; 3; 4; 5; 6; 7; 8] | _ => [] end) [0%nat; 2%nat; 6%nat]
  = [map Some [10; 11; 12; 1; 13; 14; 15; 1] ++ [None]; map Some [70; 70; 70; 1; 71; 71; 71; 1] ++ [None]; map Some [40; 40; 40; 1; 41; 41; 41; 1] ++ [None]]
  /\ x11_buffer (Some 8%nat) ex_env st_show = UB /\ smshow_x11 (Some 0%nat) ex_env st_show = UB.
Proof. exact show_runs. Qed.
