(** * Properties C24-C32: borders, thresholds, mirroring, colours. *)
From Verif Require Import Base ModelCore ModelFloat ModelBorder ModelPixel SpecBase SpecCore SpecImage SpecImage2 SpecPixel Fixtures Fixtures2
  ProofEx ProofBorder ProofPad ProofThresh ProofFlip ProofColor ProofColor2 ProofWeighted ProofEx3.
From Coq Require Import String.
Open Scope Z_scope.

(** C24: border extrapolation, for every position whose computation does not
    overflow (all but INT_MIN for reflection, all but the len lowest for wrap). *)
Theorem C24_border_partial : forall e s x len p, 1 <= len <= 2147483647 -> computable x len p ->
  hypercv_border_Interpolate p len (mode_of x) e s = Ret (source_index x len p) s.
Proof. exact border_ok. Qed.
Print Assumptions C24_border_partial.
(** The specified index is always inside, and inside positions are kept. *)
Theorem C24_inside : forall x len p, 1 <= len -> 0 <= source_index x len p < len.
Proof. exact source_range. Qed.
Print Assumptions C24_inside.
Theorem C24_wrap_overflow : forall e s p len, 1 <= len <= 2147483647 -> INT_MIN <= p < INT_MIN + len ->
  forall fuel, border_Interpolate_fuel fuel p len 3 e s = UB.
Proof. exact wrap_low. Qed.
Print Assumptions C24_wrap_overflow.
Theorem C24_reflect_overflow : forall e s len ty, 2 <= len <= 2147483647 -> ty = 2 \/ ty = 4 ->
  forall fuel, (0 < fuel)%nat -> border_Interpolate_fuel fuel INT_MIN len ty e s = UB.
Proof. exact reflect_min. Qed.
Print Assumptions C24_reflect_overflow.
Theorem C24_refuted : exists e s x len p, 1 <= len <= INT_MAX /\ INT_MIN <= p <= INT_MAX
  /\ hypercv_border_Interpolate p len (mode_of x) e s = UB.
Proof. exact border_refuted. Qed.
Print Assumptions C24_refuted.
Example C24_hypotheses : computable Reflect101 5 (-7) /\ computable Wrap 3 100.
Proof. cbn. unfold INT_MIN, INT_MAX. lia. Qed.
Example C24_patterns :
  let at_ x := map (source_index x 4) [-5; -4; -3; -2; -1; 0; 1; 2; 3; 4; 5; 6; 7; 8] in
  at_ Replicate = [0; 0; 0; 0; 0; 0; 1; 2; 3; 3; 3; 3; 3; 3]
  /\ at_ Reflect = [3; 3; 2; 1; 0; 0; 1; 2; 3; 3; 2; 1; 0; 0]
  /\ at_ Reflect101 = [1; 2; 3; 2; 1; 0; 1; 2; 3; 2; 1; 0; 1; 2]
  /\ at_ Wrap = [3; 0; 1; 2; 3; 0; 1; 2; 3; 0; 1; 2; 3; 0].
Proof. vm_compute. auto. Qed.
Example C24_run : hypercv_border_Interpolate (-7) 5 (mode_of Reflect101) ex_env ex_image = Ret 1 ex_image.
Proof. vm_compute. reflexivity. Qed.

(** C25: constant mode yields index 1 for outside positions: usable from length 2. *)
Theorem C25_constant : forall e s p len, 0 <= len <= 2147483647 -> -2147483648 <= p <= 2147483647 ->
  hypercv_border_Interpolate p len 0 e s = Ret (if inb p len then p else 1) s.
Proof. exact border_const. Qed.
Print Assumptions C25_constant.
Theorem C25_refuted : exists e s p, INT_MIN <= p <= INT_MAX
  /\ exists i, hypercv_border_Interpolate p 1 0 e s = Ret i s /\ ~ 0 <= i < 1.
Proof. exact border_const_refuted. Qed.
Print Assumptions C25_refuted.

(** C26: padding. *)
Theorem C26_extend : forall e s p m top bottom left right v, env_ok e -> heap_ok s -> image s p m 1 ->
  0 <= top -> 0 <= bottom -> 0 <= left -> 0 <= right ->
  (sm_rows m + top + bottom) * (sm_cols m + left + right) * sm_chan m + 96 <= 2147483647 ->
  forall x, exists p' s',
    hypercv_copy_make_border p top bottom left right (mode_of x) v e s = Ret p' s'
    /\ padded s m top bottom left right v (extended x m top left) s' p'.
Proof. exact pad_extend. Qed.
Print Assumptions C26_extend.
Theorem C26_constant : forall e s p m top bottom left right v, env_ok e -> heap_ok s -> image s p m 1 ->
  0 <= top -> 0 <= bottom -> 0 <= left -> 0 <= right ->
  (sm_rows m + top + bottom) * (sm_cols m + left + right) * sm_chan m + 96 <= 2147483647 ->
  exists p' s',
    hypercv_copy_make_border p top bottom left right 0 v e s = Ret p' s'
    /\ padded s m top bottom left right (v mod 256) (framed m top left) s' p'.
Proof. exact pad_constant. Qed.
Print Assumptions C26_constant.
Example C26_hypotheses : env_ok ex_env /\ heap_ok st_flip /\ image st_flip (Some 0%nat) (im_hdr 0 2 3 1 2 1) 1
  /\ (2 + 1 + 0) * (3 + 2 + 1) * 2 + 96 <= 2147483647.
Proof. split; [apply ex_env_ok|]. split; [apply st_flip_ok|]. split; [apply st_flip_ok|lia]. Qed.
Example C26_run :
  match hypercv_copy_make_border (Some 0%nat) 1 0 2 1 (mode_of Reflect) 0 ex_env st_thr with
  | Ret (Some k) s' => dump s' (Some (k + 1)%nat) 18
  | _ => [] end
  = map Some [40; 0; 0; 40; 80; 80;  40; 0; 0; 40; 80; 80;  160; 120; 120; 160; 200; 200].
Proof. vm_compute. reflexivity. Qed.
Example C26_run_constant :
  match hypercv_copy_make_border (Some 0%nat) 1 0 1 1 0 9 ex_env st_thr with
  | Ret (Some k) s' => dump s' (Some (k + 1)%nat) 15
  | _ => [] end
  = map Some [9; 9; 9; 9; 9;  9; 0; 40; 80; 9;  9; 120; 160; 200; 9].
Proof. vm_compute. reflexivity. Qed.

(** C27: the five documented pixel functions, source and destination may be
    the same image.  Two further types do nothing at all. *)
Theorem C27_threshold_partial : forall e s p ms d md thresh maxv type g,
  image s p ms 1 -> image s d md 1 ->
  sm_rows ms = sm_rows md -> sm_cols ms = sm_cols md -> sm_chan ms = sm_chan md -> sm_chan ms = 1 ->
  (forall x, thresh_fun type thresh maxv x = Some (g x)) ->
  exists s', hypercv_threshold p d thresh maxv type e s = Ret tt s'
    /\ mapped s ms md (fun x => g x mod 256) s'.
Proof.
  exact (fun e s p ms d md t v ty g a b c f h i j =>
    match threshold_run e s p ms d md t v ty g a b c f h i j with
    | ex_intro _ s' (conj x (conj y _)) => ex_intro _ s' (conj x y) end).
Qed.
Print Assumptions C27_threshold_partial.
Theorem C27_no_effect : forall e s p ms d md thresh maxv type,
  sm_at s p = Some ms -> sm_at s d = Some md -> type = 7 \/ type = 16 ->
  hypercv_threshold p d thresh maxv type e s = Ret tt s.
Proof. exact threshold_noop. Qed.
Print Assumptions C27_no_effect.
Theorem C27_one_channel_only : forall e s p ms d md thresh maxv type,
  sm_at s p = Some ms -> sm_at s d = Some md -> sm_chan ms <> 1 ->
  In type [0; 1; 2; 3; 4; 8] -> hypercv_threshold p d thresh maxv type e s = Exit.
Proof. exact threshold_channels. Qed.
Print Assumptions C27_one_channel_only.
Example C27_hypotheses : image st_thr (Some 0%nat) (im_hdr 0 2 3 1 1 1) 1 /\ image st_thr (Some 2%nat) (im_hdr 2 2 3 1 1 1) 1
  /\ (forall x, thresh_fun 3 100 0 x = Some (if x >? 100 then x else 0)).
Proof. split; [apply st_thr_ok|split; [apply st_thr_ok|reflexivity]]. Qed.
Example C27_run : map (fun ty =>
  match hypercv_threshold (Some 0%nat) (Some 2%nat) 100 255 ty ex_env st_thr with
  | Ret _ s' => dump s' (Some 3%nat) 6 | _ => [] end) [0; 1; 2; 3; 4]
  = map (map Some) [[0; 0; 0; 255; 255; 255]; [255; 255; 255; 0; 0; 0]; [0; 40; 80; 100; 100; 100];
                    [0; 0; 0; 120; 160; 200]; [0; 40; 80; 0; 0; 0]].
Proof. vm_compute. reflexivity. Qed.
Example C27_in_place : match hypercv_threshold (Some 0%nat) (Some 0%nat) 100 255 0 ex_env st_thr with
  | Ret _ s' => dump s' (Some 1%nat) 6 | _ => [] end = map Some [0; 0; 0; 255; 255; 255].
Proof. vm_compute. reflexivity. Qed.

(** C28: the Otsu mode reads three bytes per pixel of a one-channel image and
    so always leaves the array. *)
Theorem C28_always_out_of_bounds : forall e s p ms d md thresh maxv q f,
  image s p ms 1 -> image s d md 1 ->
  sm_rows ms = sm_rows md -> sm_cols ms = sm_cols md -> sm_chan ms = sm_chan md -> sm_chan ms = 1 ->
  bytes_at s (sm_data ms) = Some (q, sm_rows ms * sm_cols ms, f) ->
  hypercv_threshold p d thresh maxv 8 e s = UB.
Proof. exact otsu_ub. Qed.
Print Assumptions C28_always_out_of_bounds.
Theorem C28_refuted : exists e s p d ms md thresh maxv,
  env_ok e /\ heap_ok s /\ image s p ms 1 /\ image s d md 1
  /\ sm_rows ms = sm_rows md /\ sm_cols ms = sm_cols md /\ sm_chan ms = 1 /\ sm_chan md = 1
  /\ hypercv_threshold p d thresh maxv 8 e s = UB.
Proof. exact otsu_refuted. Qed.
Print Assumptions C28_refuted.
Example C28_hypotheses : bytes_at st_thr (sm_data (im_hdr 0 2 3 1 1 1)) = Some (1%nat, 2 * 3, fun i => 40 * i).
Proof. reflexivity. Qed.

(** C29: mirroring; the both-ways code frees its temporary image with
    delete_simple_mat, which is invalid for blocks at 48 modulo 64. *)
Theorem C29_flip_partial : forall e s p d ms md code, env_ok e -> heap_ok s -> image s p ms 1 -> image s d md 1 ->
  sm_rows ms = sm_rows md -> sm_cols ms = sm_cols md -> sm_chan ms = sm_chan md ->
  sm_data ms <> sm_data md ->
  (code = -1 -> e_addr e (List.length (objs s)) mod 64 <> 48) ->
  exists s', simple_mat_flip p d code e s = Ret tt s' /\ flipped code s ms md s'
    /\ image s' p ms 1 /\ image s' d md 1 /\ heap_ok s'.
Proof. exact flip_ok. Qed.
Print Assumptions C29_flip_partial.
(** Two passes through a middle image compose. *)
Theorem C29_compose_partial : forall e s p d q ms md mq c1 c2, env_ok e -> heap_ok s ->
  image s p ms 1 -> image s d md 1 -> image s q mq 1 ->
  sm_rows ms = sm_rows md -> sm_cols ms = sm_cols md -> sm_chan ms = sm_chan md ->
  sm_rows mq = sm_rows md -> sm_cols mq = sm_cols md -> sm_chan mq = sm_chan md ->
  sm_data ms <> sm_data md -> sm_data mq <> sm_data md ->
  (forall k, e_addr e k mod 64 <> 48) ->
  exists s', (simple_mat_flip p d c1 ;;; simple_mat_flip d q c2) e s = Ret tt s'
    /\ forall i j k, in_image ms i j k ->
         pix s' mq i j k = pix s ms (flip_row c1 (sm_rows ms) (flip_row c2 (sm_rows ms) i))
                                    (flip_col c1 (sm_cols ms) (flip_col c2 (sm_cols ms) j)) k.
Proof. exact flip_two. Qed.
Print Assumptions C29_compose_partial.
(** Twice the same restores the image. *)
Theorem C29_twice_partial : forall e s p d ms md c, env_ok e -> heap_ok s -> image s p ms 1 -> image s d md 1 ->
  sm_rows ms = sm_rows md -> sm_cols ms = sm_cols md -> sm_chan ms = sm_chan md ->
  sm_data ms <> sm_data md -> (forall k, e_addr e k mod 64 <> 48) ->
  exists s', (simple_mat_flip p d c ;;; simple_mat_flip d p c) e s = Ret tt s'
    /\ forall i j k, in_image ms i j k -> pix s' ms i j k = pix s ms i j k.
Proof. exact flip_twice. Qed.
Print Assumptions C29_twice_partial.
(** Both ways is the composition of the single flips in either order. *)
Theorem C29_both_ways_partial : forall e s p d q ms md mq a b, env_ok e -> heap_ok s ->
  image s p ms 1 -> image s d md 1 -> image s q mq 1 ->
  sm_rows ms = sm_rows md -> sm_cols ms = sm_cols md -> sm_chan ms = sm_chan md ->
  sm_rows mq = sm_rows md -> sm_cols mq = sm_cols md -> sm_chan mq = sm_chan md ->
  sm_data ms <> sm_data md -> sm_data mq <> sm_data md -> sm_data ms <> sm_data mq ->
  (forall k, e_addr e k mod 64 <> 48) -> (a, b) = (1, 0) \/ (a, b) = (0, 1) ->
  exists s1 s2, (simple_mat_flip p d a ;;; simple_mat_flip d q b) e s = Ret tt s1
    /\ simple_mat_flip p q (-1) e s = Ret tt s2
    /\ forall i j k, in_image ms i j k -> pix s1 mq i j k = pix s2 mq i j k.
Proof. exact flip_both. Qed.
Print Assumptions C29_both_ways_partial.
Theorem C29_invalid_free : forall e s p d ms md, env_ok e -> heap_ok s -> image s p ms 1 -> image s d md 1 ->
  sm_rows ms = sm_rows md -> sm_cols ms = sm_cols md -> sm_chan ms = sm_chan md ->
  sm_data ms <> sm_data md -> e_addr e (List.length (objs s)) mod 64 = 48 ->
  simple_mat_flip p d (-1) e s = UB.
Proof. exact flip_both_ub. Qed.
Print Assumptions C29_invalid_free.
Theorem C29_refuted : exists e s p d ms md,
  env_ok e /\ heap_ok s /\ image s p ms 1 /\ image s d md 1
  /\ sm_rows ms = sm_rows md /\ sm_cols ms = sm_cols md /\ sm_chan ms = sm_chan md
  /\ sm_data ms <> sm_data md /\ simple_mat_flip p d (-1) e s = UB.
Proof. exact flip_refuted. Qed.
Print Assumptions C29_refuted.
Example C29_hypotheses : env_ok ex_env /\ heap_ok st_flip /\ image st_flip (Some 0%nat) (im_hdr 0 2 3 1 2 1) 1
  /\ image st_flip (Some 2%nat) (im_hdr 2 2 3 1 2 1) 1 /\ (forall k, e_addr ex_env k mod 64 <> 48).
Proof. split; [apply ex_env_ok|]. split; [apply st_flip_ok|]. split; [apply st_flip_ok|]. split; [apply st_flip_ok|apply ex_env_64]. Qed.
Example C29_run : map (fun c =>
  match simple_mat_flip (Some 0%nat) (Some 2%nat) c ex_env st_flip with
  | Ret _ s' => dump s' (Some 3%nat) 12 | _ => [] end) [1; 0; -1]
  = map (map Some) [[4; 5; 2; 3; 0; 1; 10; 11; 8; 9; 6; 7]; [6; 7; 8; 9; 10; 11; 0; 1; 2; 3; 4; 5];
                    [10; 11; 8; 9; 6; 7; 4; 5; 2; 3; 0; 1]].
Proof. vm_compute. reflexivity. Qed.

(** C30: grey to colour. *)
Theorem C30_gray2rgb : forall e s p m, env_ok e -> heap_ok s -> image s p m 1 -> sm_chan m = 1 ->
  sm_rows m * sm_cols m * 3 + 96 <= 2147483647 ->
  exists p' s', sm_gray2rgb p e s = Ret p' s'
    /\ new_picture s (sm_rows m) (sm_cols m) 3 (fun i j k => pix s m i j 0) s' p'.
Proof. exact gray2rgb_run. Qed.
Print Assumptions C30_gray2rgb.
Theorem C30_binary2rgb : forall e s p m, env_ok e -> heap_ok s -> image s p m 1 -> sm_chan m = 1 ->
  sm_rows m * sm_cols m * 3 + 96 <= 2147483647 ->
  (forall i j, 0 <= i < sm_rows m -> 0 <= j < sm_cols m -> pix s m i j 0 = Some 0 \/ pix s m i j 0 = Some 1) ->
  exists p' s', sm_binary2rgb p e s = Ret p' s'
    /\ new_picture s (sm_rows m) (sm_cols m) 3
         (fun i j k => option_map (fun x => if x =? 0 then 0 else 255) (pix s m i j 0)) s' p'.
Proof. exact binary2rgb_bits. Qed.
Print Assumptions C30_binary2rgb.
(** For other pixel values the product is taken modulo 256. *)
Theorem C30_binary2rgb_any : forall e s p m, env_ok e -> heap_ok s -> image s p m 1 -> sm_chan m = 1 ->
  sm_rows m * sm_cols m * 3 + 96 <= 2147483647 ->
  exists p' s', sm_binary2rgb p e s = Ret p' s'
    /\ new_picture s (sm_rows m) (sm_cols m) 3
         (fun i j k => option_map (fun x => (x * 255) mod 256) (pix s m i j 0)) s' p'.
Proof. exact binary2rgb_run. Qed.
Print Assumptions C30_binary2rgb_any.
Example C30_hypotheses : env_ok ex_env /\ heap_ok st_bits /\ image st_bits (Some 0%nat) (im_hdr 0 2 2 1 1 1) 1.
Proof. split; [apply ex_env_ok|apply st_bits_ok]. Qed.
Example C30_run :
  match sm_binary2rgb (Some 0%nat) ex_env st_bits with Ret (Some k) s' => dump s' (Some (k + 1)%nat) 12 | _ => [] end
  = map Some [0; 0; 0; 255; 255; 255; 0; 0; 0; 255; 255; 255].
Proof. vm_compute. reflexivity. Qed.

(** C31: colour to grey: maximum and average are right; the weighted mean uses
    0.578 for 0.587 and truncates, so white becomes 252. *)
Theorem C31_max : forall e s p m, env_ok e -> heap_ok s -> image s p m 1 -> sm_chan m = 3 ->
  exists p' s', sm_rgb2gray p 1 e s = Ret p' s'
    /\ new_picture s (sm_rows m) (sm_cols m) 1
         (fun i j _ => match pix s m i j 0, pix s m i j 1, pix s m i j 2 with
                       | Some a, Some b, Some c => Some (Z.max a (Z.max b c)) | _, _, _ => None end) s' p'.
Proof. exact rgb2gray_max. Qed.
Print Assumptions C31_max.
Theorem C31_average : forall e s p m, env_ok e -> heap_ok s -> image s p m 1 -> sm_chan m = 3 ->
  forall method, method <> 1 -> method <> 2 ->
  exists p' s', sm_rgb2gray p method e s = Ret p' s'
    /\ new_picture s (sm_rows m) (sm_cols m) 1
         (fun i j _ => match pix s m i j 0, pix s m i j 1, pix s m i j 2 with
                       | Some a, Some b, Some c => Some (nearest (a + b + c) 3) | _, _, _ => None end) s' p'.
Proof. exact rgb2gray_average. Qed.
Print Assumptions C31_average.
Theorem C31_grey_partial : forall e s p m method, env_ok e -> heap_ok s -> image s p m 1 -> sm_chan m = 3 ->
  (forall i j, 0 <= i < sm_rows m -> 0 <= j < sm_cols m ->
     pix s m i j 1 = pix s m i j 0 /\ pix s m i j 2 = pix s m i j 0) ->
  method <> 2 ->
  exists p' s', sm_rgb2gray p method e s = Ret p' s'
    /\ new_picture s (sm_rows m) (sm_cols m) 1 (fun i j _ => pix s m i j 0) s' p'.
Proof. exact rgb2gray_grey. Qed.
Print Assumptions C31_grey_partial.
Theorem C31_weighted : forall e s p m, env_ok e -> heap_ok s -> image s p m 1 -> sm_chan m = 3 ->
  exists p' s', sm_rgb2gray p 2 e s = Ret p' s'
    /\ new_picture s (sm_rows m) (sm_cols m) 1
         (fun i j _ => match pix s m i j 0, pix s m i j 1, pix s m i j 2 with
                       | Some a, Some b, Some c => Some ((299 * a + 578 * b + 114 * c) / 1000) | _, _, _ => None end) s' p'.
Proof. exact rgb2gray_weighted. Qed.
Print Assumptions C31_weighted.
Theorem C31_refuted : exists e s p m p' s' m',
  env_ok e /\ heap_ok s /\ image s p m 1 /\ sm_chan m = 3
  /\ (forall i j k, in_image m i j k -> pix s m i j k = Some 255)
  /\ sm_rgb2gray p 2 e s = Ret p' s' /\ sm_at s' p' = Some m'
  /\ forall i j, 0 <= i < 1 -> 0 <= j < 2 -> pix s' m' i j 0 = Some 252.
Proof. exact weighted_refuted. Qed.
Print Assumptions C31_refuted.
Example C31_hypotheses : env_ok ex_env /\ heap_ok st_white /\ image st_white (Some 2%nat) (im_hdr 2 1 2 1 3 1) 1.
Proof. split; [apply ex_env_ok|split; apply st_white_ok]. Qed.
Example C31_run : map (fun c =>
  match sm_rgb2gray (Some 2%nat) c ex_env st_white with
  | Ret (Some k) s' => dump s' (Some (k + 1)%nat) 2 | _ => [] end) [1; 2; 3] = map (map Some) [[20; 50]; [8; 37]; [10; 40]].
Proof. vm_compute. reflexivity. Qed.

(** C32: exchanging the first and third channel; wrong in place. *)
Theorem C32_swap_partial : forall e s p d ms md, image s p ms 1 -> image s d md 1 ->
  sm_rows ms = sm_rows md -> sm_cols ms = sm_cols md -> sm_chan ms = 3 -> sm_chan md = 3 ->
  sm_data ms <> sm_data md ->
  exists s', sm_bgr2rgb p d e s = Ret tt s' /\ channels_swapped s ms s' md
    /\ (forall x, ~ 0 <= x < sm_rows md * sm_cols md * 3 -> byte_at s' (sm_data md) x = byte_at s (sm_data md) x)
    /\ only_written (sm_data md) s s' /\ image s' p ms 1 /\ image s' d md 1.
Proof. exact bgr2rgb_run. Qed.
Print Assumptions C32_swap_partial.
Theorem C32_twice_partial : forall e s p d ms md, image s p ms 1 -> image s d md 1 ->
  sm_rows ms = sm_rows md -> sm_cols ms = sm_cols md -> sm_chan ms = 3 -> sm_chan md = 3 ->
  sm_data ms <> sm_data md ->
  exists s', (sm_bgr2rgb p d ;;; sm_bgr2rgb d p) e s = Ret tt s'
    /\ forall i j k, in_image ms i j k -> pix s' ms i j k = pix s ms i j k.
Proof. exact bgr2rgb_twice. Qed.
Print Assumptions C32_twice_partial.
(** In place (one header or two that share their data) the third channel takes the place of the first and stays where it is. *)
Theorem C32_in_place : forall e s p d ms md, image s p ms 1 -> image s d md 1 ->
  sm_rows ms = sm_rows md -> sm_cols ms = sm_cols md -> sm_chan ms = 3 -> sm_chan md = 3 -> sm_data ms = sm_data md ->
  exists s', sm_bgr2rgb p d e s = Ret tt s'
    /\ (forall i j, 0 <= i < sm_rows md -> 0 <= j < sm_cols md ->
          pix s' md i j 0 = pix s md i j 2 /\ pix s' md i j 1 = pix s md i j 1 /\ pix s' md i j 2 = pix s md i j 2)
    /\ (forall x, ~ 0 <= x < sm_rows md * sm_cols md * 3 -> byte_at s' (sm_data md) x = byte_at s (sm_data md) x)
    /\ only_written (sm_data md) s s'.
Proof. exact bgr2rgb_in_place. Qed.
Print Assumptions C32_in_place.
Theorem C32_refuted : exists e s p m s' i j k,
  env_ok e /\ heap_ok s /\ image s p m 1 /\ sm_chan m = 3
  /\ sm_bgr2rgb p p e s = Ret tt s' /\ in_image m i j k
  /\ pix s' m i j k <> pix s m i j (2 - k).
Proof. exact bgr_in_place_refuted. Qed.
Print Assumptions C32_refuted.
Example C32_run :
  match sm_bgr2rgb (Some 2%nat) (Some 0%nat) ex_env st_white with Ret _ s' => dump s' (Some 1%nat) 6 | _ => [] end
  = map Some [20; 10; 0; 50; 40; 30].
Proof. vm_compute. reflexivity. Qed.
Example C32_in_place_run :
  (dump st_white (Some 3%nat) 6,
   match sm_bgr2rgb (Some 2%nat) (Some 2%nat) ex_env st_white with Ret _ s' => dump s' (Some 3%nat) 6 | _ => [] end)
  = (map Some [0; 10; 20; 30; 40; 50], map Some [20; 10; 20; 50; 40; 50]).
Proof. vm_compute. reflexivity. Qed.
