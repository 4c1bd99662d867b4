(** * Concrete states for the morphology and histogram properties. *)
From Verif Require Import Base Logic ModelCore ModelMorph SpecBase SpecImage SpecImage2 SpecPixel SpecMatrix SpecFilter SpecMorph
  Fixtures Fixtures2 ProofEx ProofEx3 ProofEx6 ProofEx8 ProofPixel ProofMorph ProofHist.
From Coq Require Import Lia ZifyBool ZifyNat.
Ltac Zify.zify_post_hook ::= Z.div_mod_to_equations.
Open Scope Z_scope.

(** Source and destination of R x C bytes and an element of w x h bytes. *)
Definition st_morph (R C : Z) (px : list Z) (w h : Z) (el : list Z) : st :=
  mkSt (im_objs 0 R C 1 1 1 (fun i => nth (Z.to_nat i) px 0) ++ im_objs 2 R C 1 1 1 (fun _ => 99)
        ++ [mkObj 262144 16 4 true (CS2 (mkS2 w h (Some 5%nat)));
            mkObj 266240 (w * h) 5 true (CBytes (fun i => nth (Z.to_nat i) el 0))]) [].
Definition hole : list Z := [1; 1; 1; 1; 0; 1; 1; 1; 1].
Definition zero9 : list Z := [0; 0; 0; 0; 0; 0; 0; 0; 0].
Definition st_hole : st := st_morph 3 3 hole 3 1 [1; 0; 1].
Definition st_zero : st := st_morph 3 3 zero9 1 1 [1].
Lemma st_hole_ok : image st_hole (Some 0%nat) (im_hdr 0 3 3 1 1 1) 1 /\ image st_hole (Some 2%nat) (im_hdr 2 3 3 1 1 1) 1
  /\ grey st_hole (im_hdr 0 3 3 1 1 1) (cells 3 hole) /\ element st_hole (Some 4%nat) 3 1 (Some 5%nat) (cells 3 [1; 0; 1]).
Proof.
  split; [ex_image_tac|]. split; [ex_image_tac|]. split; [cells33|]. split; [reflexivity|]. split; [lia|]. split; [lia|].
  intros m n Hm Hn. replace m with 0 by lia. destruct (split3 n Hn) as [->|[->| ->]]; vm_compute; reflexivity.
Qed.
Lemma st_zero_ok : image st_zero (Some 0%nat) (im_hdr 0 3 3 1 1 1) 1 /\ image st_zero (Some 2%nat) (im_hdr 2 3 3 1 1 1) 1
  /\ grey st_zero (im_hdr 0 3 3 1 1 1) (cells 3 zero9) /\ element st_zero (Some 4%nat) 1 1 (Some 5%nat) (cells 1 [1]).
Proof.
  split; [ex_image_tac|]. split; [ex_image_tac|]. split; [cells33|]. split; [reflexivity|]. split; [lia|]. split; [lia|].
  intros m n Hm Hn. replace m with 0 by lia. replace n with 0 by lia. vm_compute. reflexivity.
Qed.

(** The centre of [hole] is surrounded by set pixels, but stays cleared: no erosion. *)
Lemma corrosion_wrong : exists e s src dst k d ms md w h E P s' V,
  image s src ms 1 /\ image s dst md 1 /\ sm_chan ms = 1 /\ sm_chan md = 1 /\ sm_rows ms = sm_cols ms
  /\ grey s ms P /\ element s k w h d E /\ hypercv_corrosion src dst k e s = Ret tt s' /\ painted s md V s'
  /\ ~ erosion (sm_rows ms) (sm_cols ms) w h E P V.
Proof.
  destruct st_hole_ok as (A & B & C & D).
  destruct (corrosion_exact ex_env st_hole (Some 0%nat) (Some 2%nat) (Some 4%nat) (Some 5%nat) (im_hdr 0 3 3 1 1 1) (im_hdr 2 3 3 1 1 1)
    3 1 (cells 3 [1; 0; 1]) (cells 3 hole) A B eq_refl eq_refl eq_refl eq_refl eq_refl C D) as (s' & V & R & PA & L);
    [cbn; lia|cbn; lia|discriminate|discriminate|].
  exists ex_env, st_hole, (Some 0%nat), (Some 2%nat), (Some 4%nat), (Some 5%nat), (im_hdr 0 3 3 1 1 1), (im_hdr 2 3 3 1 1 1), 3, 1.
  exists (cells 3 [1; 0; 1]), (cells 3 hole), s', V.
  split; [exact A|]. split; [exact B|]. do 3 (split; [reflexivity|]). split; [exact C|]. split; [exact D|]. split; [exact R|].
  split; [exact PA|]. intros Er. cbn [im_hdr sm_rows sm_cols] in *.
  destruct (L 1 1) as (L1 & _); [lia|lia|]. destruct (Er 1 1) as (E1 & _); [lia|lia|].
  assert (F : fits 3 3 3 1 1 1) by (vm_compute; intuition discriminate).
  assert (X : V 1 1 <> 0).
  { apply (proj2 (E1 F)). intros m n Hm Hn. replace m with 0 by lia.
    destruct (split3 n Hn) as [->|[->| ->]]; vm_compute; discriminate. }
  apply (L1 F) in X. destruct X as [X _]. apply X. reflexivity.
Qed.
(** Every pixel of a cleared image becomes 1. *)
Lemma expend_wrong : exists e s src dst k d ms md w h E P s' V,
  image s src ms 1 /\ image s dst md 1 /\ sm_chan ms = 1 /\ sm_chan md = 1 /\ sm_rows ms = sm_cols ms
  /\ grey s ms P /\ element s k w h d E /\ hypercv_expend src dst k e s = Ret tt s' /\ painted s md V s'
  /\ ~ dilation (sm_rows ms) (sm_cols ms) w h E P V.
Proof.
  destruct st_zero_ok as (A & B & C & D).
  destruct (expend_exact ex_env st_zero (Some 0%nat) (Some 2%nat) (Some 4%nat) (Some 5%nat) (im_hdr 0 3 3 1 1 1) (im_hdr 2 3 3 1 1 1)
    1 1 (cells 1 [1]) (cells 3 zero9) A B eq_refl eq_refl eq_refl eq_refl eq_refl C D) as (s' & V & R & PA & L);
    [cbn; lia|cbn; lia|discriminate|discriminate|].
  exists ex_env, st_zero, (Some 0%nat), (Some 2%nat), (Some 4%nat), (Some 5%nat), (im_hdr 0 3 3 1 1 1), (im_hdr 2 3 3 1 1 1), 1, 1.
  exists (cells 1 [1]), (cells 3 zero9), s', V.
  split; [exact A|]. split; [exact B|]. do 3 (split; [reflexivity|]). split; [exact C|]. split; [exact D|]. split; [exact R|].
  split; [exact PA|]. intros Di. cbn [im_hdr sm_rows sm_cols] in *.
  assert (F : fits 3 3 1 1 1 1) by (vm_compute; intuition discriminate).
  pose proof (dilation_centre 3 3 1 1 _ _ V 1 1 ltac:(lia) ltac:(lia) eq_refl L ltac:(lia) ltac:(lia) F) as X.
  destruct (Di 1 1) as (D1 & _); [lia|lia|]. apply (D1 F) in X. destruct X as (m & n & Hm & Hn & _ & Y).
  apply Y. replace m with 0 by lia. replace n with 0 by lia. reflexivity.
Qed.
(** 2 x 3 pixels: the last one is not written at all. *)
Definition st_wide : st := st_morph 2 3 [1; 1; 1; 1; 1; 1] 1 1 [1].
Lemma wide_wrong : image st_wide (Some 0%nat) (im_hdr 0 2 3 1 1 1) 1 /\ image st_wide (Some 2%nat) (im_hdr 2 2 3 1 1 1) 1
  /\ element st_wide (Some 4%nat) 1 1 (Some 5%nat) (cells 1 [1])
  /\ match hypercv_corrosion (Some 0%nat) (Some 2%nat) (Some 4%nat) ex_env st_wide with
     | Ret _ s' => (pix s' (im_hdr 2 2 3 1 1 1) 1 1 0, pix s' (im_hdr 2 2 3 1 1 1) 1 2 0) = (Some 1, Some 99)
     | _ => False end.
Proof.
  split; [ex_image_tac|]. split; [ex_image_tac|]. split; [|vm_compute; reflexivity].
  split; [reflexivity|]. split; [lia|]. split; [lia|].
  intros m n Hm Hn. replace m with 0 by lia. replace n with 0 by lia. vm_compute. reflexivity.
Qed.
Definition st_tall : st := st_morph 2 1 [1; 1] 1 1 [1].
Lemma tall_wrong : image st_tall (Some 0%nat) (im_hdr 0 2 1 1 1 1) 1 /\ image st_tall (Some 2%nat) (im_hdr 2 2 1 1 1 1) 1
  /\ hypercv_corrosion (Some 0%nat) (Some 2%nat) (Some 4%nat) ex_env st_tall = UB
  /\ hypercv_expend (Some 0%nat) (Some 2%nat) (Some 4%nat) ex_env st_tall = UB.
Proof.
  assert (A : image st_tall (Some 0%nat) (im_hdr 0 2 1 1 1 1) 1) by ex_image_tac.
  assert (B : image st_tall (Some 2%nat) (im_hdr 2 2 1 1 1 1) 1) by ex_image_tac.
  split; [exact A|]. split; [exact B|].
  eapply tall_undefined; [exact A|exact B|reflexivity|reflexivity|cbn; lia|cbn; lia|discriminate|reflexivity|cbn; lia].
Qed.

(** Opening the cleared image sets its pixels, closing [hole] does not close it. *)
Lemma open_wrong : exists e s src dst k d ms md w h E P s' V,
  image s src ms 1 /\ image s dst md 1 /\ sm_chan ms = 1 /\ sm_chan md = 1 /\ sm_rows ms = sm_cols ms
  /\ grey s ms P /\ element s k w h d E /\ hypercv_open src dst k 1 e s = Ret tt s' /\ painted s md V s'
  /\ ~ exists T, erosion (sm_rows ms) (sm_cols ms) w h E P T /\ dilation (sm_rows ms) (sm_cols ms) w h E T V.
Proof.
  destruct st_zero_ok as (A & B & C & D).
  destruct (open_exact ex_env st_zero (Some 0%nat) (Some 2%nat) (Some 4%nat) (Some 5%nat) (im_hdr 0 3 3 1 1 1) (im_hdr 2 3 3 1 1 1)
    1 1 (cells 1 [1]) (cells 3 zero9) 1 A B eq_refl eq_refl eq_refl eq_refl eq_refl C D) as (s' & V & R & PA & L);
    [cbn; lia|cbn; lia|discriminate|discriminate|lia|].
  exists ex_env, st_zero, (Some 0%nat), (Some 2%nat), (Some 4%nat), (Some 5%nat), (im_hdr 0 3 3 1 1 1), (im_hdr 2 3 3 1 1 1), 1, 1.
  exists (cells 1 [1]), (cells 3 zero9), s', V.
  split; [exact A|]. split; [exact B|]. do 3 (split; [reflexivity|]). split; [exact C|]. split; [exact D|]. split; [exact R|].
  split; [exact PA|]. intros (T & Er & Di). cbn [im_hdr sm_rows sm_cols] in *.
  assert (F : fits 3 3 1 1 1 1) by (vm_compute; intuition discriminate).
  pose proof (dilation_centre 3 3 1 1 _ _ V 1 1 ltac:(lia) ltac:(lia) eq_refl L ltac:(lia) ltac:(lia) F) as X.
  destruct (Di 1 1) as (D1 & _); [lia|lia|]. apply (D1 F) in X. destruct X as (m & n & Hm & Hn & _ & Y).
  replace m with 0 in Y by lia. replace n with 0 in Y by lia. change (1 - 1 / 2 + 0) with 1 in Y.
  destruct (Er 1 1) as (E1 & _); [lia|lia|]. apply (E1 F) in Y.
  apply (Y 0 0); [lia|lia|reflexivity|reflexivity].
Qed.
Lemma close_wrong : exists e s src dst k d ms md w h E P s' V,
  image s src ms 1 /\ image s dst md 1 /\ sm_chan ms = 1 /\ sm_chan md = 1 /\ sm_rows ms = sm_cols ms
  /\ grey s ms P /\ element s k w h d E /\ hypercv_close src dst k 1 e s = Ret tt s' /\ painted s md V s'
  /\ ~ exists T, dilation (sm_rows ms) (sm_cols ms) w h E P T /\ erosion (sm_rows ms) (sm_cols ms) w h E T V.
Proof.
  destruct st_hole_ok as (A & B & C & D).
  destruct (close_exact ex_env st_hole (Some 0%nat) (Some 2%nat) (Some 4%nat) (Some 5%nat) (im_hdr 0 3 3 1 1 1) (im_hdr 2 3 3 1 1 1)
    3 1 (cells 3 [1; 0; 1]) (cells 3 hole) 1 A B eq_refl eq_refl eq_refl eq_refl eq_refl C D) as (s' & V & R & PA & L);
    [cbn; lia|cbn; lia|discriminate|discriminate|lia|].
  exists ex_env, st_hole, (Some 0%nat), (Some 2%nat), (Some 4%nat), (Some 5%nat), (im_hdr 0 3 3 1 1 1), (im_hdr 2 3 3 1 1 1), 3, 1.
  exists (cells 3 [1; 0; 1]), (cells 3 hole), s', V.
  split; [exact A|]. split; [exact B|]. do 3 (split; [reflexivity|]). split; [exact C|]. split; [exact D|]. split; [exact R|].
  split; [exact PA|]. intros (T & Di & Er). cbn [im_hdr sm_rows sm_cols] in *.
  assert (F : fits 3 3 3 1 1 1) by (vm_compute; intuition discriminate).
  assert (NF : forall j, j = 0 \/ j = 2 -> ~ fits 3 3 3 1 1 j).
  { intros j [-> | ->]; unfold fits; change (3 / 2) with 1; lia. }
  assert (X : V 1 1 <> 0).
  { destruct (Er 1 1) as (E1 & _); [lia|lia|]. apply (proj2 (E1 F)). intros m n Hm Hn. replace m with 0 by lia.
    change (1 - 1 / 2 + 0) with 1. destruct (split3 n Hn) as [->|[->| ->]]; intros En.
    - change (1 - 3 / 2 + 0) with 0. destruct (Di 1 0) as (_ & D1); [lia|lia|]. rewrite D1 by (apply NF; auto). vm_compute. discriminate.
    - discriminate En.
    - change (1 - 3 / 2 + 2) with 2. destruct (Di 1 2) as (_ & D1); [lia|lia|]. rewrite D1 by (apply NF; auto). vm_compute. discriminate. }
  destruct (L 1 1) as (L1 & _); [lia|lia|]. apply (L1 F) in X. destruct X as [X _]. apply X. reflexivity.
Qed.

(** ** Histograms: 16 x 16 pixels given by a function of the position. *)
Definition st_hist (R C : Z) (g : Z -> Z) : st := mkSt (im_objs 0 R C 1 1 1 g ++ im_objs 2 R C 1 1 1 (fun _ => 99)) [].
Lemma st_hist_ok R C g : 0 < R -> 0 < C -> R * C <= 1000000 -> (forall x, 0 <= g x < 256) ->
  image (st_hist R C g) (Some 0%nat) (im_hdr 0 R C 1 1 1) 1 /\ image (st_hist R C g) (Some 2%nat) (im_hdr 2 R C 1 1 1) 1
  /\ grey (st_hist R C g) (im_hdr 0 R C 1 1 1) (fun i j => g (i * C + j)).
Proof.
  intros HR HC HN Hg. split; [|split].
  - constructor; cbn [im_hdr sm_rows sm_cols sm_type sm_chan sm_data]; try reflexivity; try lia.
    do 3 eexists; split; [reflexivity|]; split; [reflexivity|cbn; lia].
  - constructor; cbn [im_hdr sm_rows sm_cols sm_type sm_chan sm_data]; try reflexivity; try lia.
    do 3 eexists; split; [reflexivity|]; split; [reflexivity|cbn; lia].
  - intros i j Hi Hj. cbn [im_hdr sm_rows sm_cols] in *. unfold pix, pixel_byte. cbn [im_hdr sm_cols sm_chan sm_data].
    replace (((i * C + j) * 1 + 0) * 1 + 0) with (i * C + j) by lia.
    unfold byte_at. change (bytes_at (st_hist R C g) (Some (0 + 1)%nat)) with (Some (1%nat, R * C * 1 * 1, g)). cbv iota beta.
    assert (0 <= i * C + j < R * C) by (clear - Hi Hj; nia).
    rewrite inb_true by lia. f_equal. apply Z.mod_small. apply Hg.
Qed.
Definition three_levels (x : Z) : Z := if x <? 150 then 0 else if x <? 151 then 10 else 20.
Lemma three_levels_range x : 0 <= three_levels x < 256.
Proof. unfold three_levels. destruct (x <? 150), (x <? 151); lia. Qed.

(** A dark pixel becomes brighter than a brighter one; its value is not the equalised one. *)
Lemma his_wrong : exists e s src dst ms md P s' a b,
  image s src ms 1 /\ image s dst md 1 /\ sm_chan ms = 1 /\ sm_chan md = 1 /\ grey s ms P
  /\ sm_rows md = sm_rows ms /\ sm_cols md = sm_cols ms
  /\ HisEqualization src dst e s = Ret tt s'
  /\ P 0 0 < P 9 6 /\ pix s' md 0 0 0 = Some a /\ pix s' md 9 6 0 = Some b /\ b < a
  /\ a <> equalised (sm_rows ms) (sm_cols ms) P (P 0 0).
Proof.
  destruct (st_hist_ok 16 16 three_levels) as (A & B & C); try lia; [apply three_levels_range|].
  destruct (his_exact ex_env (st_hist 16 16 three_levels) (Some 0%nat) (Some 2%nat) (im_hdr 0 16 16 1 1 1) (im_hdr 2 16 16 1 1 1)
     (fun i j => three_levels (i * 16 + j)) A B eq_refl eq_refl eq_refl eq_refl) as (s' & R & PA & _); [discriminate|exact C| |].
  { intros v Hv. apply his_sizes; try (cbn; lia). intros. apply three_levels_range. }
  exists ex_env, (st_hist 16 16 three_levels), (Some 0%nat), (Some 2%nat), (im_hdr 0 16 16 1 1 1), (im_hdr 2 16 16 1 1 1),
    (fun i j => three_levels (i * 16 + j)), s'. do 2 eexists.
  split; [exact A|]. split; [exact B|]. do 2 (split; [reflexivity|]). split; [exact C|]. do 2 (split; [reflexivity|]).
  split; [exact R|]. split; [vm_compute; reflexivity|].
  split; [apply (PA 0 0); cbn; lia|]. split; [apply (PA 9 6); cbn; lia|].
  cbn [im_hdr sm_rows sm_cols]. split; [vm_compute; reflexivity|vm_compute; discriminate].
Qed.
Lemma his_one_pixel : exists e s src dst ms md P, image s src ms 1 /\ image s dst md 1 /\ sm_chan ms = 1 /\ sm_chan md = 1
  /\ grey s ms P /\ sm_rows md = sm_rows ms /\ sm_cols md = sm_cols ms /\ HisEqualization src dst e s = UB.
Proof.
  destruct (st_hist_ok 1 1 (fun _ => 0)) as (A & B & C); try lia.
  exists ex_env, (st_hist 1 1 (fun _ => 0)), (Some 0%nat), (Some 2%nat), (im_hdr 0 1 1 1 1 1), (im_hdr 2 1 1 1 1 1), (fun _ _ => 0).
  split; [exact A|]. split; [exact B|]. do 2 (split; [reflexivity|]). split; [exact C|]. do 2 (split; [reflexivity|]).
  eapply (his_overflow ex_env _ _ _ _ _ (fun _ _ => 0) 3); [exact A|exact B|reflexivity|reflexivity|reflexivity|reflexivity|discriminate|exact C|lia|].
  vm_compute. reflexivity.
Qed.
