(** * Vocabulary for the C++ image class. *)
From Verif Require Import Base ModelCxx SpecBase.
Open Scope Z_scope.

(** The number that stands for a layout (type.h 38-43). *)
Definition format_code (l : layout) : Z := match l with BSQ => 0 | BIL => 1 | BIP => 2 end.

(** An object all of whose members have values and that holds an image of S
    samples, L lines and B bands in layout l. *)
Record hy_image (s : st) (o : hy) (S L B ty es : Z) (l : layout) (d w : ptr) : Prop := {
  hi_samples : hy_samples o = Some S; hi_lines : hy_lines o = Some L; hi_bands : hy_bands o = Some B;
  hi_type : hy_type o = Some ty; hi_format : hy_format o = Some (format_code l); hi_tag : hy_il o = Some (tag_of l);
  hi_data : hy_data o = Some d; hi_wave : hy_wave o = Some w;
  hi_elem : hy_elem o = Some es; hi_size : hy_size o = Some (S * L * B * es);
  hi_es : type_size ty = Some es;
  hi_pos : 0 < S /\ 0 < L /\ 0 < B; hi_int : S * L * B * es <= 2147483647;
  hi_room : readable s d (S * L * B * es) }.

(** Everything allocated since s has been freed again. *)
Definition no_leak (s s' : st) : Prop :=
  forall k o, (List.length (objs s) <= k)%nat -> nth_error (objs s') k = Some o -> o_live o = false.

(** A run that does not come back with a value. *)
Definition no_return {A} (r : out A) : Prop := match r with Ret _ _ => False | _ => True end.
