(** * Concrete states for the transform and drawing properties. *)
From Verif Require Import Base ModelFloat ModelCore ModelDft ModelDraw SpecBase SpecNum SpecMatrix SpecDft SpecDraw Fixtures Fixtures2
  ProofEx ProofEx3 ProofEx4 ProofEx6 ProofDft ProofDraw.
From Coq Require Import Floats.SpecFloat Lia ZifyBool ZifyNat.
Ltac Zify.zify_post_hook ::= Z.div_mod_to_equations.
Open Scope Z_scope.

(** Squares and square roots in double precision. *)
Definition sq (x : sf) : sf := db_mul x x.
Definition root (x : sf) : sf := SFsqrt 53 1024 x.

(** Real part, imaginary part and result, R x C floats. *)
Definition st_mag (R C : Z) (x y : list Z) : st :=
  mkSt (im_objs 0 R C 4 1 4 (wordsn 4 (fw x)) ++ im_objs 2 R C 4 1 4 (wordsn 4 (fw y))
        ++ im_objs 4 R C 4 1 4 (fun _ => 9)) [].
Definition mag12 : st := st_mag 1 2 [0; 0] [3; 4].
Ltac mag_tac := unfold float_image; do 4 (split; [reflexivity|]); do 3 (split; [lia|]);
  intros i j Hi Hj; try replace i with 0 by lia.
Lemma mag12_ok : float_image mag12 (Some 0%nat) (im_hdr 0 1 2 4 1 4) 1 2 (cells 2 (fw [0; 0]))
  /\ float_image mag12 (Some 2%nat) (im_hdr 2 1 2 4 1 4) 1 2 (cells 2 (fw [3; 4]))
  /\ float_image mag12 (Some 4%nat) (im_hdr 4 1 2 4 1 4) 1 2 (fun _ _ => 151587081).
Proof.
  split; [|split]; mag_tac; destruct (split2 j Hj) as [->| ->]; vm_compute; reflexivity.
Qed.
Lemma mag_refuted : exists e s p1 p2 p3 mr mi md X Y W s',
  float_image s p1 mr 1 2 X /\ float_image s p2 mi 1 2 Y /\ float_image s p3 md 1 2 W
  /\ hypercv_magnitude sq root p1 p2 p3 e s = Ret tt s'
  /\ float_int (X 0 1) 0 /\ float_int (Y 0 1) 4
  /\ exists w, word_at s' (sm_data md) 4 4 = Some w /\ float_int w 3.
Proof.
  destruct mag12_ok as (A1 & A2 & A3).
  destruct (magnitude_run sq root ex_env mag12 _ _ _ _ _ _ 1 2 _ _ _ A1 A2 A3) as (s' & E & R & _); try discriminate; try lia.
  exists ex_env, mag12, (Some 0%nat), (Some 2%nat), (Some 4%nat). do 6 eexists. exists s'.
  do 3 (split; [eassumption|]). split; [exact E|].
  split; [vm_compute; reflexivity|]. split; [vm_compute; reflexivity|].
  eexists. split; [apply (R 0 1); lia|]. vm_compute. reflexivity.
Qed.
(** 3 x 3: the last element reads behind the imaginary part. *)
Definition mag33 : st := st_mag 3 3 [1; 2; 3; 4; 5; 6; 7; 8; 9] [1; 2; 3; 4; 5; 6; 7; 8; 9].
Lemma mag33_ok : float_image mag33 (Some 0%nat) (im_hdr 0 3 3 4 1 4) 3 3 (cells 3 (fw [1; 2; 3; 4; 5; 6; 7; 8; 9]))
  /\ float_image mag33 (Some 2%nat) (im_hdr 2 3 3 4 1 4) 3 3 (cells 3 (fw [1; 2; 3; 4; 5; 6; 7; 8; 9]))
  /\ float_image mag33 (Some 4%nat) (im_hdr 4 3 3 4 1 4) 3 3 (fun _ _ => 151587081).
Proof.
  split; [|split]; mag_tac; destruct (split3 i Hi) as [->|[->| ->]], (split3 j Hj) as [->|[->| ->]]; vm_compute; reflexivity.
Qed.

(** Source and destination of 3 x 3 pixels, and two points (1,2) and (-1,0). *)
Definition st_draw (ch : Z) : st :=
  mkSt (im_objs 0 3 3 1 ch 1 (fun i => i) ++ im_objs 2 3 3 1 ch 1 (fun _ => 99)
        ++ [mkObj 262144 16 4 true (CBytes (words4 [1; 2; 4294967295; 0]))]) [].
Lemma st_draw3_ok : heap_ok (st_draw 3) /\ image (st_draw 3) (Some 0%nat) (im_hdr 0 3 3 1 3 1) 1
  /\ image (st_draw 3) (Some 2%nat) (im_hdr 2 3 3 1 3 1) 1.
Proof. split; [ex_heap_tac|split; ex_image_tac]. Qed.
Lemma st_draw1_ok : heap_ok (st_draw 1) /\ image (st_draw 1) (Some 0%nat) (im_hdr 0 3 3 1 1 1) 1
  /\ image (st_draw 1) (Some 2%nat) (im_hdr 2 3 3 1 1 1) 1.
Proof. split; [ex_heap_tac|split; ex_image_tac]. Qed.
Lemma st_draw_points : points_at (st_draw 1) (Some 4%nat) [(1, 2); (-1, 0)]
  /\ (forall x y, In (x, y) [(1, 2); (-1, 0)] -> int_range (x - Z.abs (Z.quot 2 2)) /\ int_range (x + Z.abs (Z.quot 2 2))
        /\ int_range (y - Z.abs (Z.quot 2 2)) /\ int_range (y + Z.abs (Z.quot 2 2))).
Proof.
  split.
  - intros [|[|n]] x y; cbn [nth_error]; [intros [= <- <-]|intros [= <- <-]|destruct n; discriminate];
      (split; [split; discriminate|split; [split; discriminate|split; vm_compute; reflexivity]]).
  - intros x y [[= <- <-]|[[= <- <-]|[]]]; vm_compute; intuition discriminate.
Qed.
Definition col1 : rgb := mkRGB 200 150 100.
Lemma st_draw3_vertical : exists s', draw_line (Some 0%nat) (Some 2%nat) 1 0 1 2 col1 1 ex_env (st_draw 3) = Ret tt s'
  /\ drawn (st_draw 3) (im_hdr 0 3 3 1 3 1) (im_hdr 2 3 3 1 3 1) (fun i j => i = 0) (rgb_order 200 150 100) s'.
Proof.
  destruct st_draw3_ok as (_ & I1 & I2).
  apply (vertical_run ex_env _ _ _ _ _ I1 I2 eq_refl eq_refl eq_refl eq_refl) with (color := col1);
    unfold small_coords; cbn [im_hdr sm_cols sm_chan sm_data c_r c_g c_b col1]; try lia; discriminate || reflexivity || auto.
Qed.
Lemma st_draw3_diagonal : exists s', draw_line (Some 0%nat) (Some 2%nat) 0 0 1 1 col1 1 ex_env (st_draw 3) = Ret tt s'
  /\ drawn (st_draw 3) (im_hdr 0 3 3 1 3 1) (im_hdr 2 3 3 1 3 1)
       (fun i j => exists j', 0 <= j' < 3 /\ Z.abs (j - j') <= Z.quot 1 2 /\ i = Z.quot (2 * (0 + 1 * (j' - 0)) + 1) 2)
       (rgb_order 200 150 100) s'.
Proof.
  destruct st_draw3_ok as (_ & I1 & I2).
  apply (steep_run ex_env _ _ _ _ _ I1 I2 eq_refl eq_refl eq_refl eq_refl) with (color := col1) (k := 1);
    unfold small_coords; cbn [im_hdr sm_cols sm_chan sm_data c_r c_g c_b col1]; try lia; discriminate || reflexivity || auto.
Qed.
(** The vertical segment from (1,0) to (1,2) leaves its last pixel uncoloured. *)
Lemma vertical_refuted : exists e s p dst ms md x1 y1 x2 y2 col s' i j,
  image s p ms 1 /\ image s dst md 1 /\ sm_chan md = 3
  /\ draw_line p dst x1 y1 x2 y2 col 1 e s = Ret tt s' /\ in_image md i j 0
  /\ on_segment x1 y1 x2 y2 i j /\ pix s' md i j 0 = pix s ms i j 0 /\ pix s ms i j 0 = Some 21 /\ c_r col = 200 /\ c_b col = 100.
Proof.
  destruct st_draw3_ok as (_ & I1 & I2). destruct st_draw3_vertical as (s' & E & D & O).
  exists ex_env, (st_draw 3), (Some 0%nat), (Some 2%nat), (im_hdr 0 3 3 1 3 1), (im_hdr 2 3 3 1 3 1), 1, 0, 1, 2, col1, s', 2, 1.
  assert (Hin : in_image (im_hdr 2 3 3 1 3 1) 2 1 0) by (unfold in_image; cbn; lia).
  split; [exact I1|]. split; [exact I2|]. split; [reflexivity|]. split; [exact E|]. split; [exact Hin|].
  split; [unfold on_segment; cbn; lia|]. split; [apply (D 2 1 0 Hin); lia|]. split; [vm_compute; reflexivity|]. split; reflexivity.
Qed.
(** The diagonal from (0,0) to (1,1) goes on to (2,2). *)
Lemma overrun_refuted : exists e s p dst ms md x1 y1 x2 y2 col s' i j,
  image s p ms 1 /\ image s dst md 1 /\ sm_chan md = 3
  /\ draw_line p dst x1 y1 x2 y2 col 1 e s = Ret tt s' /\ in_image md i j 0
  /\ ~ on_segment x1 y1 x2 y2 i j /\ pix s ms i j 0 = Some 24 /\ pix s' md i j 0 = Some 200 /\ c_r col = 200.
Proof.
  destruct st_draw3_ok as (_ & I1 & I2). destruct st_draw3_diagonal as (s' & E & D & O).
  exists ex_env, (st_draw 3), (Some 0%nat), (Some 2%nat), (im_hdr 0 3 3 1 3 1), (im_hdr 2 3 3 1 3 1), 0, 0, 1, 1, col1, s', 2, 2.
  assert (Hin : in_image (im_hdr 2 3 3 1 3 1) 2 2 0) by (unfold in_image; cbn; lia).
  split; [exact I1|]. split; [exact I2|]. split; [reflexivity|]. split; [exact E|]. split; [exact Hin|].
  split; [unfold on_segment; cbn; lia|]. split; [vm_compute; reflexivity|].
  split; [|reflexivity]. apply (D 2 2 0 Hin). exists 2. cbn. lia.
Qed.
