(** * Properties C92, C93: shape moments and their comparison. *)
From Coq Require Import Reals.
From Verif Require Import Base ModelFloat ModelDouble ModelCore ModelShape SpecBase SpecNum SpecMatrix SpecShape
  Fixtures Fixtures2 ProofEx ProofEx6 ProofShape3 ProofShape5 ProofEx23.
From Coq Require Import List Lia Floats.SpecFloat.
Import ListNotations.
Open Scope Z_scope.

(** C92.  The call stores the seven values of the moments as the machine computes them, over the first C bytes of each row whatever the type, and nothing else. *)
Theorem C92_code : forall pow_ e s hu mat m R C es P cx cy, byte_rows s mat m R C es P -> readable s hu 56 -> sm_data m <> hu ->
  255 * R <= 2147483647 -> 255 * C <= 2147483647 ->
  int_of_sf (db_add (db_div (mass_x doubles R C P) (mass doubles R C P)) (dlit 1 2)) = Some cx ->
  int_of_sf (db_add (db_div (mass_y doubles R C P) (mass doubles R C P)) (dlit 1 2)) = Some cy -> 0 <= cx <= C -> 0 <= cy <= R ->
  exists s', calc_hu_moment pow_ hu mat e s = Ret tt s'
    /\ seven s' hu (shape_values pow_ (mass doubles R C P) (fun p q => moment doubles p q R C cx cy P)) /\ only_bytes s hu 0 56 s'.
Proof. exact hu_code. Qed.
Print Assumptions C92_code.
(** The centre it uses is the whole pixel nearest to the centre of the weights. *)
Theorem C92_centre : forall R C P, 0 < R -> 0 < C -> (forall j i, 0 <= j < R -> 0 <= i < C -> 0 <= P j i < 256) -> middling_image R C -> 0 < weight_of R C P ->
  int_of_sf (db_add (db_div (mass_x doubles R C P) (mass doubles R C P)) (dlit 1 2)) = Some (centre_x R C P)
  /\ int_of_sf (db_add (db_div (mass_y doubles R C P) (mass doubles R C P)) (dlit 1 2)) = Some (centre_y R C P)
  /\ 0 <= centre_x R C P < C /\ 0 <= centre_y R C P < R.
Proof. exact hu_centre. Qed.
Print Assumptions C92_centre.
(** Images of at most 2^53/255 in size times the cube of a side: all moments are exact.  Missing: rounded moments of larger images. *)
Theorem C92_exact_partial : forall pow_ e s hu mat m R C es P, byte_rows s mat m R C es P -> readable s hu 56 -> sm_data m <> hu ->
  small_image R C -> 0 < weight_of R C P ->
  exists s', calc_hu_moment pow_ hu mat e s = Ret tt s' /\ seven s' hu (shape_of pow_ R C P) /\ only_bytes s hu 0 56 s'.
Proof. exact hu_exact. Qed.
Print Assumptions C92_exact_partial.
(** Moving the shape inside the image, or into an image of another size, changes nothing. *)
Theorem C92_moved : forall pow_ e s hu mat m R C es P R' C' Q dy dx, byte_rows s mat m R' C' es Q -> readable s hu 56 -> sm_data m <> hu ->
  0 < R -> 0 < C -> moved P Q R C R' C' dy dx -> small_image R' C' -> 0 < weight_of R C P ->
  exists s', calc_hu_moment pow_ hu mat e s = Ret tt s' /\ seven s' hu (shape_of pow_ R C P).
Proof. exact hu_moved. Qed.
Print Assumptions C92_moved.
(** With real numbers in place of doubles: turning the shape changes nothing (k gives the factors by which the moments of each order are divided). *)
Theorem C92_turned : forall c s k l, (c * c + s * s)%R = 1%R ->
  hu_values real_numbers (fun p q => (k (p + q)%nat * cloud_moment (map (turn_point c s) l) p q)%R)
  = hu_values real_numbers (fun p q => (k (p + q)%nat * cloud_moment l p q)%R).
Proof. exact shape_turned. Qed.
Print Assumptions C92_turned.
(** The moments are not taken about the true centre: for two equal pixels side by side the first value is 1/4, not 1/8. *)
Theorem C92_rounded_centre_refuted : forall pow_, pow_ (db_of_Z 2) (db_of_Z 2) = db_of_Z 4 ->
  exists R C P, nth_error (shape_of pow_ R C P) 0 = Some (dlit 1 4) /\ 8 * first_num R C P = first_den R C P /\ 0 < first_den R C P.
Proof. exact hu_half. Qed.
Print Assumptions C92_rounded_centre_refuted.
(** Only the first C bytes of a row matter, so half of every 16-bit image is ignored. *)
Theorem C92_wide_refuted : forall R C P Q, (forall j i, 0 <= j < R -> 0 <= i < C -> P j i = Q j i) -> forall pow_, shape_of pow_ R C P = shape_of pow_ R C Q.
Proof. exact hu_wide. Qed.
Print Assumptions C92_wide_refuted.
(** A black image: 0/0 is converted to int, which is undefined. *)
Theorem C92_black_refuted : forall pow_ e s hu mat m R C es P, byte_rows s mat m R C es P -> nonnull hu = true ->
  255 * R <= 2147483647 -> 255 * C <= 2147483647 -> (forall j i, 0 <= j < R -> 0 <= i < C -> P j i = 0) ->
  calc_hu_moment pow_ hu mat e s = UB.
Proof. exact hu_black. Qed.
Print Assumptions C92_black_refuted.
(** With NULL for the result the values are left in a block that nobody knows of. *)
Theorem C92_null_refuted : forall pow_ e s mat m R C es P, byte_rows s mat m R C es P -> small_image R C -> 0 < weight_of R C P ->
  exists s', calc_hu_moment pow_ None mat e s = Ret tt s' /\ one_more s s' 56 /\ seven s' (Some (List.length (objs s))) (shape_of pow_ R C P).
Proof. exact hu_null. Qed.
Print Assumptions C92_null_refuted.
(** C93.  The comparison is that of the two lists; two blocks of 56 bytes stay allocated. *)
Theorem C93_code_leak_refuted : forall pow_ e s p1 p2 m1 m2 R1 C1 es1 P R2 C2 es2 Q, (forall x y, db_ok x -> db_ok y -> db_ok (pow_ x y)) ->
  byte_rows s p1 m1 R1 C1 es1 P -> byte_rows s p2 m2 R2 C2 es2 Q -> small_image R1 C1 -> small_image R2 C2 ->
  0 < weight_of R1 C1 P -> 0 < weight_of R2 C2 Q ->
  exists s', hypercv_match_shapes pow_ p1 p2 e s = Ret (similarity (shape_of pow_ R1 C1 P) (shape_of pow_ R2 C2 Q)) s'
    /\ files s' = files s /\ old_unchanged s s' /\ List.length (objs s') = (List.length (objs s) + 2)%nat
    /\ readable s' (Some (List.length (objs s))) 56 /\ readable s' (Some (S (List.length (objs s)))) 56.
Proof. exact match_leak. Qed.
Print Assumptions C93_code_leak_refuted.
(** A shape and a moved copy of it: 1, unless a value is not finite or all of them are zero. *)
Theorem C93_moved : forall pow_ e s p1 p2 m1 m2 R1 C1 es1 P R2 C2 es2 Q dy dx, (forall x y, db_ok x -> db_ok y -> db_ok (pow_ x y)) ->
  byte_rows s p1 m1 R1 C1 es1 P -> byte_rows s p2 m2 R2 C2 es2 Q -> small_image R1 C1 -> small_image R2 C2 ->
  0 < weight_of R1 C1 P -> moved P Q R1 C1 R2 C2 dy dx ->
  exists s', hypercv_match_shapes pow_ p1 p2 e s
    = Ret (if forallb is_fin (shape_of pow_ R1 C1 P) && existsb is_nonzero (shape_of pow_ R1 C1 P) then db_of_Z 1 else S754_nan) s'.
Proof. exact match_moved. Qed.
Print Assumptions C93_moved.
(** A shape of one lit pixel compared with itself: not a number. *)
Theorem C93_point_refuted : forall pow_ e s p m R C es P j0 i0, (forall x y, db_ok x -> db_ok y -> db_ok (pow_ x y)) ->
  byte_rows s p m R C es P -> small_image R C -> 0 < weight_of R C P ->
  (forall j i, 0 <= j < R -> 0 <= i < C -> j <> j0 \/ i <> i0 -> P j i = 0) ->
  exists s', hypercv_match_shapes pow_ p p e s = Ret S754_nan s'.
Proof. exact match_point. Qed.
Print Assumptions C93_point_refuted.
Example C92_hypotheses : byte_rows st_shape (Some 0%nat) (im_hdr 0 2 3 1 1 1) 2 3 1 (grid 3 [1; 2; 0; 3; 9; 0])
  /\ byte_rows st_shape (Some 2%nat) (im_hdr 2 3 3 1 1 1) 3 3 1 (grid 3 [0; 0; 0; 0; 1; 2; 0; 3; 9])
  /\ byte_rows st_shape (Some 4%nat) (im_hdr 4 2 2 1 1 1) 2 2 1 (grid 2 [0; 7; 0; 0])
  /\ byte_rows st_shape (Some 6%nat) (im_hdr 6 2 2 1 1 1) 2 2 1 (grid 2 [0; 0; 0; 0])
  /\ byte_rows st_shape (Some 8%nat) (im_hdr 8 1 2 2 1 2) 1 2 2 (grid 4 [1; 2; 3; 4])
  /\ readable st_shape (Some 10%nat) 56 /\ small_image 2 3 /\ small_image 3 3 /\ small_image 2 2 /\ small_image 1 2
  /\ weight_of 2 3 (grid 3 [1; 2; 0; 3; 9; 0]) = 15 /\ weight_of 2 2 (grid 2 [0; 7; 0; 0]) = 7 /\ weight_of 1 2 (grid 4 [1; 2; 3; 4]) = 3
  /\ moved (grid 3 [1; 2; 0; 3; 9; 0]) (grid 3 [0; 0; 0; 0; 1; 2; 0; 3; 9]) 2 3 3 3 1 1
  /\ (forall j i, 0 <= j < 2 -> 0 <= i < 2 -> j <> 0 \/ i <> 1 -> grid 2 [0; 7; 0; 0] j i = 0)
  /\ (forall j i, 0 <= j < 2 -> 0 <= i < 2 -> grid 2 [0; 0; 0; 0] j i = 0).
Proof. exact st_shape_ok. Qed.
Example C92_hypotheses_pow : (forall x y, db_ok x -> db_ok y -> db_ok (ex_pow x y)) /\ ex_pow (db_of_Z 2) (db_of_Z 2) = db_of_Z 4.
Proof. exact ex_pow_ok. Qed.
Example C92_hypotheses_turn : (0 * 0 + 1 * 1 = 1)%R /\ (3 / 5 * (3 / 5) + 4 / 5 * (4 / 5) = 1)%R.
Proof. exact turn_angles. Qed.
Example C93_finite : forallb is_fin (shape_of ex_pow 2 3 (grid 3 [1; 2; 0; 3; 9; 0])) && existsb is_nonzero (shape_of ex_pow 2 3 (grid 3 [1; 2; 0; 3; 9; 0])) = true.
Proof. exact shape_finite. Qed.
Example C93_run : compared 0 2 = Some (db_of_Z 1) /\ compared 4 4 = Some S754_nan /\ compared 6 6 = None
  /\ match compared 0 8 with Some v => SFltb v (db_of_Z 1) | None => false end = true.
Proof. exact shape_runs. Qed.
