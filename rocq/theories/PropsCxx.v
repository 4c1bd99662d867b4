(** * Properties C57 and C58: the C++ image class. *)
From Verif Require Import Base ModelCore ModelCxx SpecBase SpecCxx Fixtures ProofCxx ProofEx13.
From Coq Require Import List.
Open Scope Z_scope.

(** C57.  The default constructor ends the program, whatever the storage contains ... *)
Theorem C57_default_refuted : forall e s o, hy_default o e s = Exit.
Proof. exact default_exits. Qed.
Print Assumptions C57_default_refuted.
(** ... so nothing can be copied ... *)
Theorem C57_copy_refuted : forall e s o, hy_copy o e s = Exit.
Proof. exact copy_exits. Qed.
Print Assumptions C57_copy_refuted.
(** ... or read. *)
Theorem C57_read_refuted : forall e s op, hy_read op e s = Exit.
Proof. exact read_exits. Qed.
Print Assumptions C57_read_refuted.
(** The other constructors read members without a value; only negative or zero sizes are noticed. *)
Theorem C57_construct_refuted : forall e s samples lines bands ty f data wave,   hy_create7 hy_auto samples lines bands ty f data wave e s
  = if (samples >? 0) && (lines >? 0) then UB else Exit.
Proof. exact auto_never. Qed.
Print Assumptions C57_construct_refuted.
(** In zeroed storage they always end the program, because the member bands is tested instead of the argument. *)
Theorem C57_static_refuted : forall e s samples lines bands ty f data wave,   hy_create7 hy_static samples lines bands ty f data wave e s = Exit.
Proof. exact static_exits. Qed.
Print Assumptions C57_static_refuted.
(** None of the six conversion functions returns. *)
Theorem C57_conversions_refuted : forall first from to_ body o e s, no_return (hy_conv first from to_ body o e s).
Proof. exact conv_never. Qed.
Print Assumptions C57_conversions_refuted.
(** A released object cannot be given a new image. *)
Theorem C57_release_refuted : forall e s o o' s' a b c ty f dp wp,   hy_release o e s = Ret o' s' -> hy_create7 o' a b c ty f dp wp e s' = Exit.
Proof. exact release_then_create. Qed.
Print Assumptions C57_release_refuted.
(** What holds: creation in an object without data whose members bands and dataType happen to be acceptable. *)
Theorem C57_create_partial : forall e s o b t S L B ty es l,   heap_ok s -> hy_bands o = Some b -> 0 < b -> hy_type o = Some t -> type_size t <> None -> hy_data o = Some None ->
  0 < S -> 0 < L -> 0 < B -> type_size ty = Some es -> S * L * B * es <= 2147483647 -> B * 4 <= 2147483647 ->
  exists o' s' d w, hy_create o S L B ty (format_code l) e s = Ret o' s'
    /\ hy_image s' o' S L B ty es l d w /\ readable s' w (B * 4)
    /\ (forall x, 0 <= x < S * L * B * es -> byte_at s' d x = Some 0)
    /\ (forall x, 0 <= x < B * 4 -> byte_at s' w x = Some 0)
    /\ fresh_in s d /\ fresh_in s w /\ d <> w /\ old_unchanged s s'.
Proof. exact create_ok. Qed.
Print Assumptions C57_create_partial.
Example C57_hypotheses : hy_bands (mkHy None None (Some 1) (Some 4) None None (Some None) None None None) = Some 1
  /\ type_size 4 <> None /\ type_size 2 = Some 2 /\ 2 * 3 * 2 * 2 <= 2147483647 /\ heap_ok cx_st.
Proof. split; [reflexivity|]. split; [discriminate|]. split; [reflexivity|]. split; [discriminate|]. exact cx_heap. Qed.
Example C57_release_run : exists o' s', hy_release cx_obj ex_env cx_st = Ret o' s' /\ hy_data o' = Some None.
Proof. eexists. eexists. split; reflexivity. Qed.

(** C58.  Conversion in place, every image and every pair of layouts. *)
Theorem C58_convert : forall e s o S L B ty es lin lout d w,   heap_ok s -> hy_image s o S L B ty es lin d w ->
  exists o' s', hy_convert o (format_code lout) e s = Ret o' s'
    /\ hy_image s' o' S L B ty es lout d w
    /\ (forall i j k t, 0 <= i < L -> 0 <= j < S -> 0 <= k < B -> 0 <= t < es ->
          byte_at s' d (offset lout S L B i j k * es + t) = byte_at s d (offset lin S L B i j k * es + t))
    /\ (forall x, S * L * B * es <= x -> byte_at s' d x = byte_at s d x)
    /\ unchanged_except [d] s s' /\ no_leak s s'.
Proof. exact convert_ok. Qed.
Print Assumptions C58_convert.
(** A number that stands for no layout is not rejected. *)
Theorem C58_bad_format : forall e s o S L B ty es lin d w g,   hy_image s o S L B ty es lin d w -> (forall l, g <> format_code l) -> hy_convert o g e s = UB.
Proof. exact convert_bad. Qed.
Print Assumptions C58_bad_format.
(** Sub-ranges are never returned. *)
Theorem C58_range_refuted : forall o r0 c0 b0 r1 c1 b1 e s, no_return (hy_range o r0 c0 b0 r1 c1 b1 e s).
Proof. exact range_never. Qed.
Print Assumptions C58_range_refuted.
Example C58_hypotheses : hy_image cx_st cx_obj 2 3 2 2 2 BIL (Some 0%nat) (Some 1%nat) /\ heap_ok cx_st.
Proof. split; [exact cx_image | exact cx_heap]. Qed.
Example C58_run : match hy_convert cx_obj 2 ex_env cx_st with
  | Ret o s => (hy_format o, hy_il o, map (fun i => byte_at s (Some 0%nat) i) [0; 1; 2; 3; 4; 5; 6; 7; 8])
  | _ => (None, None, []) end
  = (Some 2, Some [98; 105; 112], map Some [0; 7; 28; 35; 14; 21; 42; 49; 56]).
Proof. vm_compute. reflexivity. Qed.
