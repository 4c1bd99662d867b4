(** * Property C96: printed descriptions, the release of wavelet results, unfinished entry points. *)
From Coq Require Import List Lia Floats.SpecFloat String.
From Verif Require Import Base ModelFloat ModelCore ModelWavelet ModelRest SpecBase SpecCore SpecNum SpecHdr SpecPixel SpecRest
  Fixtures Fixtures2 ProofEx ProofEx6 ProofRest ProofEx27.
Import ListNotations.
Open Scope Z_scope.

(** C96.  The numbers of the cube in decimal, its layout, and every wavelength rounded to six decimals; nothing is changed. *)
Theorem C96_describe : forall e s p m l es, cube s p m l es ->
  exists out, hyper_mat_showinfo p e s = Ret out s
    /\ exists a b c d, decimal a (hm_samples m) /\ decimal b (hm_lines m) /\ decimal c (hm_bands m) /\ decimal d (hm_type m)
    /\ match hm_wave m with
       | None => out = numbers_text a b c d (tag_of l)
       | Some _ => exists ws, out = numbers_text a b c d (tag_of l) ++ waves_text ws /\ List.length ws = Z.to_nat (hm_bands m)
           /\ forall k w v, nth_error ws k = Some w -> word_at s (hm_wave m) (4 * Z.of_nat k) 4 = Some v -> six_decimals w (fl_of_bits v)
       end.
Proof. exact showinfo_text. Qed.
Print Assumptions C96_describe.
(** NULL is described too. *)
Theorem C96_describe_null : forall e s, hyper_mat_showinfo None e s = Ret (text "mat is NULL" ++ [10]) s.
Proof. exact showinfo_null. Qed.
Print Assumptions C96_describe_null.
(** The images of a set and the set itself are released, nothing else. *)
Theorem C96_release_set : forall e s cs A H V D, own_blocks s [A; H; V; D; cs] -> cs <> None ->
  exists s', wt_coefset_free cs (CoefSet A H V D) e s = Ret tt s' /\ released [A; H; V; D; cs] s s'.
Proof. exact coefset_released. Qed.
Print Assumptions C96_release_set.
(** The same for the coefficients of a transform. *)
Theorem C96_release_info : forall e s wt c d, own_blocks s [c; d; wt] -> wt <> None ->
  exists s', wt_info_free wt c d e s = Ret tt s' /\ released [c; d; wt] s s'.
Proof. exact info_released. Qed.
Print Assumptions C96_release_info.
(** Resizing changes nothing, whatever the images hold. *)
Theorem C96_resize_refuted : forall e s p q ms md es flag, image s p ms es -> image s q md es -> sm_type ms = sm_type md -> simple_mat_resize p q flag e s = Ret tt s.
Proof. exact resize_nothing. Qed.
Print Assumptions C96_resize_refuted.
(** NULL is dereferenced before it is refused. *)
Theorem C96_resize_null_refuted : forall e s q flag, simple_mat_resize None q flag e s = UB.
Proof. exact resize_null. Qed.
Print Assumptions C96_resize_null_refuted.
(** The line detection stores nothing; its only computation overflows for radii beyond these. *)
Theorem C96_hough_refuted : forall e s pts n R lr lt, INT_MIN <= R <= INT_MAX ->
  (-5948709 <= R <= 5948707 -> hypercv_hough_trans pts n R lr lt e s = Ret tt s) /\ (~ -5948709 <= R <= 5948707 -> hypercv_hough_trans pts n R lr lt e s = UB).
Proof. exact hough_nothing. Qed.
Print Assumptions C96_hough_refuted.
(** The colour conversion checks its arguments and gives no image. *)
Theorem C96_color_refuted : forall e s p method, p <> None ->
  hypercv_colortransform p method e s = if (method =? 4) || (method =? 6) || (method =? 7) || (method =? 8) then Ret tt s else Exit.
Proof. exact color_nothing. Qed.
Print Assumptions C96_color_refuted.
(** The transform of a signal stores nothing. *)
Theorem C96_dwt_refuted : forall e s p q n, hypercv_dwt1D_float p q n e s = Ret tt s.
Proof. exact dwt1D_nothing. Qed.
Print Assumptions C96_dwt_refuted.
(** The decomposition gives nothing back and leaves the copy of the image and two blocks behind. *)
Theorem C96_wavedec_refuted : forall e s p m es level wave border, env_ok e -> heap_ok s -> image s p m es -> 0 <= level -> level * 8 <= 2147483647 ->
  exists s', hypercv_wavedec p level wave border e s = Ret tt s' /\ old_unchanged s s' /\ files s' = files s /\ left_behind 4 s s'.
Proof. exact wavedec_leak. Qed.
Print Assumptions C96_wavedec_refuted.
(** One level of it leaves the block of the set and the enlarged image behind. *)
Theorem C96_subdec_refuted : forall e s p m w x, env_ok e -> heap_ok s -> image s p m 1 -> 1 <= fb_len w ->
  let a := fb_len w - 1 in (sm_rows m + a + a) * (sm_cols m + a + a) * sm_chan m + 96 <= 2147483647 ->
  exists s' q m', sub_wavedec p w (mode_of x) e s = Ret tt s' /\ old_unchanged s s' /\ files s' = files s
    /\ block s' (Some (List.length (objs s))) /\ fresh_in s q /\ q <> Some (List.length (objs s)) /\ image s' q m' 1.
Proof. exact subdec_leak. Qed.
Print Assumptions C96_subdec_refuted.
Example C96_hypotheses_describe : cube st_info (Some 0%nat) (hc_hdr 0 2 1 2 4 BIP) BIP 4 /\ hm_wave (hc_hdr 0 2 1 2 4 BIP) = Some 2%nat
  /\ hyper_mat_showinfo (Some 0%nat) ex_env st_info = Ret (numbers_text (text "2") (text "1") (text "2") (text "4") (text "bip") ++ waves_text [text "1.000000"; text "2.000000"]) st_info.
Proof. exact st_info_ok. Qed.
Example C96_hypotheses_release : own_blocks st_set [Some 0%nat; None; Some 2%nat; Some 4%nat; Some 6%nat] /\ own_blocks st_set [Some 2%nat; None; Some 6%nat]
  /\ match wt_coefset_free (Some 6%nat) (CoefSet (Some 0%nat) None (Some 2%nat) (Some 4%nat)) ex_env st_set with
     | Ret tt s' => map o_live (objs s') = [false; false; false; false; false; false; false] | _ => False end
  /\ wt_coefset_free (Some 6%nat) (CoefSet (Some 0%nat) None (Some 0%nat) (Some 4%nat)) ex_env st_set = UB.
Proof. exact st_set_ok. Qed.
Example C96_hypotheses_image : env_ok ex_env /\ heap_ok st_img /\ image st_img (Some 0%nat) (im_hdr 0 2 3 1 1 1) 1 /\ image st_img (Some 2%nat) (im_hdr 2 4 6 1 1 1) 1.
Proof. exact st_img_ok. Qed.
Example C96_run : simple_mat_resize (Some 0%nat) (Some 2%nat) 0 ex_env st_img = Ret tt st_img
  /\ simple_mat_resize (Some 0%nat) None 0 ex_env st_img = UB.
Proof. exact resize_run. Qed.
