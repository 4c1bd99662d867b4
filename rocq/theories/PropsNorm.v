(** * Property C87: normalisation. *)
From Coq Require Import String.
From Verif Require Import Base ModelFloat ModelDouble ModelCore ModelConv ModelImage ModelNorm SpecBase SpecImage SpecImage2 SpecNum SpecMatrix SpecStat SpecNorm
  Fixtures Fixtures2 ProofEx ProofEx6 ProofNorm3 ProofEx20.
From Coq Require Import List Lia Floats.SpecFloat.
Import ListNotations.
Open Scope Z_scope.

(** C87.  Elements that are whole numbers, scaled to a range with whole limits.  Missing: elements above 1000000 (refuted below), constant matrices (refuted below), other values. *)
Theorem C87_minmax_partial : forall e s src dst ms md W z lo hi alpha beta A B, normalizable s src dst ms md W ->
  let ty := sm_type ms in let n := sm_rows ms * sm_cols ms in
  (forall i, 0 <= i < n -> denotes_int ty (W i) (z i)) -> extremes n z lo hi -> lo < hi -> hi - lo <= 4096 -> -1000000 <= lo -> hi <= 1000000 ->
  is_int alpha A -> is_int beta B -> -255 <= A <= 255 -> -255 <= B <= 255 ->
  exists s', hypercv_normalize src dst alpha beta 32 e s = Ret tt s'
    /\ rescaled s' (sm_data md) ty n (fun i => (z i - lo) * Z.abs (B - A) + Z.min A B * (hi - lo)) (hi - lo)
    /\ only_bytes s (sm_data md) 0 (n * elem_size ty) s'.
Proof. exact minmax_exact. Qed.
Print Assumptions C87_minmax_partial.
(** Sum of magnitudes.  Missing: negative elements and fractions. *)
Theorem C87_l1_partial : forall e s src dst ms md W z alpha beta A, normalizable s src dst ms md W ->
  let ty := sm_type ms in let n := sm_rows ms * sm_cols ms in
  (forall i, 0 <= i < n -> denotes_int ty (W i) (z i)) -> (forall i, 0 <= i < n -> 0 <= z i) -> 0 < sumz n z <= 16777216 ->
  is_int alpha A -> (forall i, 0 <= i < n -> 0 <= z i * A < 4194304) ->
  exists s', hypercv_normalize src dst alpha beta 2 e s = Ret tt s'
    /\ rescaled s' (sm_data md) ty n (fun i => z i * A) (sumz n z)
    /\ only_bytes s (sm_data md) 0 (n * elem_size ty) s'.
Proof. exact l1_exact. Qed.
Print Assumptions C87_l1_partial.
(** Root of the sum of squares, where it is a whole number. *)
Theorem C87_l2_partial : forall e s src dst ms md W z r alpha beta A, normalizable s src dst ms md W ->
  let ty := sm_type ms in let n := sm_rows ms * sm_cols ms in
  (forall i, 0 <= i < n -> denotes_int ty (W i) (z i)) -> sumz n (fun i => z i * z i) = r * r -> 0 < r -> r * r <= 16777216 ->
  is_int alpha A -> (forall i, 0 <= i < n -> 0 <= z i * A < 4194304) ->
  exists s', hypercv_normalize src dst alpha beta 4 e s = Ret tt s'
    /\ rescaled s' (sm_data md) ty n (fun i => z i * A) r
    /\ only_bytes s (sm_data md) 0 (n * elem_size ty) s'.
Proof. exact l2_exact. Qed.
Print Assumptions C87_l2_partial.
(** Largest magnitude.  Missing: negative elements (refuted below). *)
Theorem C87_inf_partial : forall e s src dst ms md W z lo hi alpha beta A, normalizable s src dst ms md W ->
  let ty := sm_type ms in let n := sm_rows ms * sm_cols ms in
  (forall i, 0 <= i < n -> denotes_int ty (W i) (z i)) -> extremes n z lo hi -> 0 <= lo -> 0 < hi <= 16777216 ->
  is_int alpha A -> (forall i, 0 <= i < n -> 0 <= z i * A < 4194304) ->
  exists s', hypercv_normalize src dst alpha beta 1 e s = Ret tt s'
    /\ rescaled s' (sm_data md) ty n (fun i => z i * A) hi
    /\ only_bytes s (sm_data md) 0 (n * elem_size ty) s'.
Proof. exact inf_exact. Qed.
Print Assumptions C87_inf_partial.
(** A float result consists of whole numbers from 0 to 255. *)
Theorem C87_float_whole : forall e s src dst ms md W t alpha beta, normalizable s src dst ms md W -> sm_type ms = 4 -> In t [1; 2; 4; 32] ->
  exists s' V, hypercv_normalize src dst alpha beta t e s = Ret tt s' /\ elements_of s' (sm_data md) 4 (sm_rows ms * sm_cols ms) V
    /\ forall i, 0 <= i < sm_rows ms * sm_cols ms -> exists v, 0 <= v <= 255 /\ is_int (fl_of_bits (V i)) v.
Proof. exact float_bytes. Qed.
Print Assumptions C87_float_whole.
(** Other element types are ignored. *)
Theorem C87_other_types : forall e s src dst ms md t alpha beta, sm_at s src = Some ms -> sm_at s dst = Some md ->
  sm_rows md = sm_rows ms -> sm_cols md = sm_cols ms -> sm_type ms <> 1 -> sm_type ms <> 4 ->
  hypercv_normalize src dst alpha beta t e s = Ret tt s.
Proof. exact normalize_other. Qed.
Print Assumptions C87_other_types.
(** Elements beyond rows * cols are not normalised, whatever the number of channels. *)
Theorem C87_channels_refuted : forall e s src dst ms md W t alpha beta, normalizable s src dst ms md W -> In t [1; 2; 4; 32] ->
  exists s', hypercv_normalize src dst alpha beta t e s = Ret tt s'
    /\ forall x, sm_rows ms * sm_cols ms * elem_size (sm_type ms) <= x -> byte_at s' (sm_data md) x = byte_at s (sm_data md) x.
Proof. exact normalize_channels. Qed.
Print Assumptions C87_channels_refuted.
(** A constant matrix becomes 0, whatever the range. *)
Theorem C87_constant_refuted : forall e s src dst ms md W c alpha beta A B, normalizable s src dst ms md W ->
  let ty := sm_type ms in let n := sm_rows ms * sm_cols ms in
  (forall i, 0 <= i < n -> denotes_int ty (W i) c) -> -1000000 <= c <= 1000000 ->
  is_int alpha A -> is_int beta B -> -255 <= A <= 255 -> -255 <= B <= 255 ->
  exists s', hypercv_normalize src dst alpha beta 32 e s = Ret tt s'
    /\ rescaled s' (sm_data md) ty n (fun _ => 0) 1.
Proof. exact minmax_constant. Qed.
Print Assumptions C87_constant_refuted.
(** Floats scaled to 0..1 lose their fractions. *)
Theorem C87_fractions_refuted : exists e s src dst ms md s',
  env_ok e /\ normalizable s src dst ms md (fun i => if i =? 0 then half_bits else fw4 (i - 1)) /\ sm_rows ms = 1 /\ sm_cols ms = 3 /\ sm_type ms = 4
  /\ hypercv_normalize src dst (fl_of_Z 0) (fl_of_Z 1) 32 e s = Ret tt s'
  /\ word_at s (sm_data ms) 0 4 = Some half_bits /\ word_at s' (sm_data md) 0 4 = Some 0.
Proof. exact normalize_fractions. Qed.
Print Assumptions C87_fractions_refuted.
(** The largest magnitude ignores negative elements. *)
Theorem C87_inf_refuted : exists e s src dst ms md s',
  env_ok e /\ normalizable s src dst ms md (fun i => fw4 (if i =? 0 then -4 else 2)) /\ sm_rows ms = 1 /\ sm_cols ms = 2 /\ sm_type ms = 4
  /\ hypercv_normalize src dst (fl_of_Z 100) (fl_of_Z 0) 1 e s = Ret tt s'
  /\ word_at s' (sm_data md) 0 4 = Some (fw4 0) /\ word_at s' (sm_data md) 4 4 = Some (fw4 100).
Proof. exact normalize_inf. Qed.
Print Assumptions C87_inf_refuted.
(** Elements that all exceed 1000000 are not scaled to the range. *)
Theorem C87_large_refuted : exists e s src dst ms md s',
  env_ok e /\ normalizable s src dst ms md (fun i => fw4 (if i =? 0 then 2000000 else 3000000)) /\ sm_rows ms = 1 /\ sm_cols ms = 2 /\ sm_type ms = 4
  /\ hypercv_normalize src dst (fl_of_Z 0) (fl_of_Z 200) 32 e s = Ret tt s'
  /\ word_at s' (sm_data md) 0 4 = Some (fw4 100) /\ word_at s' (sm_data md) 4 4 = Some (fw4 200).
Proof. exact normalize_large. Qed.
Print Assumptions C87_large_refuted.
(** The element type of the destination is not checked. *)
Theorem C87_narrow_refuted : exists e s src dst ms md,
  env_ok e /\ heap_ok s /\ image s src ms 4 /\ image s dst md 1 /\ sm_rows ms = sm_rows md /\ sm_cols ms = sm_cols md
  /\ sm_type ms = 4 /\ sm_type md = 1 /\ hypercv_normalize src dst (fl_of_Z 0) (fl_of_Z 255) 32 e s = UB.
Proof. exact normalize_narrow. Qed.
Print Assumptions C87_narrow_refuted.
Example C87_hypotheses : heap_ok st_norm
  /\ normalizable st_norm (Some 0%nat) (Some 2%nat) (im_hdr 0 1 2 1 1 1) (im_hdr 2 1 2 1 1 1) norm_W
  /\ (forall i, 0 <= i < 2 -> denotes_int 1 (norm_W i) (norm_W i) /\ 0 <= norm_W i /\ 0 <= norm_W i * 100 < 4194304)
  /\ extremes 2 norm_W 3 4 /\ sumz 2 norm_W = 7 /\ sumz 2 (fun i => norm_W i * norm_W i) = 5 * 5
  /\ is_int (fl_of_Z 100) 100 /\ is_int (fl_of_Z 200) 200.
Proof. exact st_norm_ok. Qed.
Example C87_float_hypotheses : normalizable st_normf (Some 0%nat) (Some 2%nat) (im_hdr 0 1 2 4 1 4) (im_hdr 2 1 2 4 1 4) (fun i => fw4 (normf_z i))
  /\ (forall i, 0 <= i < 2 -> denotes_int 4 (fw4 (normf_z i)) (normf_z i)) /\ extremes 2 normf_z (-4) 4.
Proof. exact st_normf_ok. Qed.
Example C87_constant_hypotheses : normalizable st_normc (Some 0%nat) (Some 2%nat) (im_hdr 0 1 2 1 1 1) (im_hdr 2 1 2 1 1 1) (fun _ => 9)
  /\ (forall i, 0 <= i < 2 -> denotes_int 1 9 9).
Proof. exact st_normc_ok. Qed.
Example C87_channels_hypotheses : normalizable st_norm3 (Some 0%nat) (Some 2%nat) (im_hdr 0 1 2 1 3 1) (im_hdr 2 1 2 1 3 1) (fun i => i + 1)
  /\ sm_chan (im_hdr 0 1 2 1 3 1) = 3.
Proof. exact st_norm3_ok. Qed.
