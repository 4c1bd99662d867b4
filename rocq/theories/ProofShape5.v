(** * Proofs: the moment code and the comparison of two shapes. *)
From Verif Require Import Base Logic ModelFloat ModelDouble ModelCore ModelShape SpecBase SpecNum SpecMatrix SpecShape
  ProofCore ProofLayout ProofHM ProofWord ProofArr ProofGrid ProofMatrix ProofFold ProofFloat ProofFloat2 ProofInvert ProofStat ProofCopy ProofBlur2 ProofFourier ProofSpectral5 ProofValid
  ProofFourier3 ProofShape ProofShape2 ProofShape3 ProofShape4.
From Coq Require Import Floats.SpecFloat ZifyBool ZifyNat.
Ltac Zify.zify_post_hook ::= Z.div_mod_to_equations.
Open Scope Z_scope.

Lemma arr_seven s h l : List.length l = 7%nat -> arr s h 0 8 7 (words l) -> seven s (Some h) l.
Proof.
  intros L A. split; [exact L|]. split.
  - destruct A as (N & d & H & _ & _ & B & _). exists h, N, d. split; [reflexivity|]. split; [exact H|lia].
  - intros k x Hk. assert (K : (k < 7)%nat) by (rewrite <- L; apply nth_error_Some; congruence).
    pose proof (arr_word _ _ _ _ _ _ (Z.of_nat k) A ltac:(lia)) as W. replace (8 * Z.of_nat k) with (0 + Z.of_nat k * 8) by lia.
    change 8%nat with (Z.to_nat 8). rewrite W. unfold words. rewrite Nat2Z.id. now rewrite (nth_error_nth l k S754_nan Hk).
Qed.

Lemma bytes_range s p m R C es P : byte_rows s p m R C es P -> forall j i, 0 <= j < R -> 0 <= i < C -> 0 <= P j i < 256.
Proof.
  intros (_ & _ & _ & T & HR & HC & _ & M) j i Hj Hi. destruct (elem_size _ _ T) as [_ E].
  refine (matrix_range s _ 1 R (C * es) P j i ltac:(lia) M Hj _). nia.
Qed.

Theorem hu_code : forall pow_ e s hu mat m R C es P cx cy, byte_rows s mat m R C es P -> readable s hu 56 -> sm_data m <> hu ->
  255 * R <= 2147483647 -> 255 * C <= 2147483647 ->
  int_of_sf (db_add (db_div (mass_x doubles R C P) (mass doubles R C P)) (dlit 1 2)) = Some cx ->
  int_of_sf (db_add (db_div (mass_y doubles R C P) (mass doubles R C P)) (dlit 1 2)) = Some cy -> 0 <= cx <= C -> 0 <= cy <= R ->
  exists s', calc_hu_moment pow_ hu mat e s = Ret tt s'
    /\ seven s' hu (shape_values pow_ (mass doubles R C P) (fun p q => moment doubles p q R C cx cy P)) /\ only_bytes s hu 0 56 s'.
Proof.
  intros pow_ e s hu mat m R C es P cx cy B H ND BR BC E1 E2 Hx Hy. destruct (readable_isb _ _ _ H) as (h & n & d & -> & I & L).
  destruct (hu_run pow_ e s h n d mat m R C es P cx cy B I L ND BR BC E1 E2 Hx Hy) as (s' & E & A & IN).
  exists s'. split; [exact E|]. split; [apply arr_seven; [reflexivity|exact A]|apply inside_only; exact IN].
Qed.

Lemma middling_bounds R C : 0 < R -> 0 < C -> middling_image R C -> 255 * R <= 2147483647 /\ 255 * C <= 2147483647.
Proof.
  intros HR HC H. unfold middling_image in H. change (2 ^ 49) with 562949953421312 in H.
  assert (forall a b, 0 < a -> 0 < b -> 255 * (a * b) * Z.max a b <= 562949953421312 -> 255 * b <= 2147483647) as G.
  { clear. intros a b Ha Hb H. destruct (Z.le_gt_cases b 8421504) as [|L]; [lia|].
    assert (8421504 * 8421504 <= b * b) by (apply Z.mul_le_mono_nonneg; lia).
    assert (b * b <= a * b * Z.max a b) by (rewrite <- Z.mul_assoc; apply Z.le_trans with (1 * (b * Z.max a b)); [rewrite Z.mul_1_l; apply Z.mul_le_mono_nonneg_l; lia|apply Z.mul_le_mono_nonneg_r; nia]). lia. }
  split; [|exact (G R C HR HC H)]. apply (G C R HC HR). rewrite Z.max_comm, (Z.mul_comm C R). exact H.
Qed.

(** The arr form of the exact result. *)
Lemma hu_small pow_ e s h n d mat m R C es P : byte_rows s mat m R C es P -> isb s h n d -> 56 <= n -> sm_data m <> Some h ->
  small_image R C -> 0 < weight_of R C P ->
  exists s', calc_hu_moment pow_ (Some h) mat e s = Ret tt s' /\ arr s' h 0 8 7 (words (shape_of pow_ R C P)) /\ inside s h 0 56 s'.
Proof.
  intros B I L ND S W. pose proof (bytes_range _ _ _ _ _ _ _ B) as HP. pose proof B as (_ & _ & _ & _ & HR & HC & _).
  pose proof (small_middling R C HR HC S) as M. destruct (middling_bounds R C HR HC M) as [B1 B2].
  destruct (centres_exact R C P HR HC HP M W) as (E1 & E2 & Hx & Hy).
  destruct (hu_run pow_ e s h n d mat m R C es P _ _ B I L ND B1 B2 E1 E2 ltac:(lia) ltac:(lia)) as (s' & E & A & IN).
  rewrite (shape_exact pow_ R C P _ _ HR HC HP S W eq_refl eq_refl) in A. exists s'. auto.
Qed.

Theorem hu_centre : forall R C P, 0 < R -> 0 < C -> (forall j i, 0 <= j < R -> 0 <= i < C -> 0 <= P j i < 256) -> middling_image R C -> 0 < weight_of R C P ->
  int_of_sf (db_add (db_div (mass_x doubles R C P) (mass doubles R C P)) (dlit 1 2)) = Some (centre_x R C P)
  /\ int_of_sf (db_add (db_div (mass_y doubles R C P) (mass doubles R C P)) (dlit 1 2)) = Some (centre_y R C P)
  /\ 0 <= centre_x R C P < C /\ 0 <= centre_y R C P < R.
Proof. intros R C P HR HC HP M W. exact (centres_exact R C P HR HC HP M W). Qed.

Theorem hu_exact : forall pow_ e s hu mat m R C es P, byte_rows s mat m R C es P -> readable s hu 56 -> sm_data m <> hu ->
  small_image R C -> 0 < weight_of R C P ->
  exists s', calc_hu_moment pow_ hu mat e s = Ret tt s' /\ seven s' hu (shape_of pow_ R C P) /\ only_bytes s hu 0 56 s'.
Proof.
  intros pow_ e s hu mat m R C es P B H ND S W. destruct (readable_isb _ _ _ H) as (h & n & d & -> & I & L).
  destruct (hu_small pow_ e s h n d mat m R C es P B I L ND S W) as (s' & E & A & IN).
  exists s'. split; [exact E|]. split; [apply arr_seven; [reflexivity|exact A]|apply inside_only; exact IN].
Qed.

Theorem hu_moved : forall pow_ e s hu mat m R C es P R' C' Q dy dx, byte_rows s mat m R' C' es Q -> readable s hu 56 -> sm_data m <> hu ->
  0 < R -> 0 < C -> moved P Q R C R' C' dy dx -> small_image R' C' -> 0 < weight_of R C P ->
  exists s', calc_hu_moment pow_ hu mat e s = Ret tt s' /\ seven s' hu (shape_of pow_ R C P).
Proof.
  intros pow_ e s hu mat m R C es P R' C' Q dy dx B H ND HR HC MV S W. pose proof B as (_ & _ & _ & _ & HR' & HC' & _).
  destruct (shape_moved pow_ P Q R C R' C' dy dx HR HC HR' HC' MV W) as (EW & _ & _ & ES).
  destruct (hu_exact pow_ e s hu mat m R' C' es Q B H ND S ltac:(lia)) as (s' & E & SV & _). exists s'. rewrite <- ES. auto.
Qed.

(** ** A NULL result *)
Lemma malloc56 e s : let k := List.length (objs s) in
  malloc (u64 (7 * 8)) e s = Ret (Some k) (mkSt (objs s ++ [mkObj (e_addr e k) 56 k true (CBytes (e_junk e k))]) (files s)).
Proof. reflexivity. Qed.
Definition grown (e : env) (s : st) : st := let k := List.length (objs s) in mkSt (objs s ++ [mkObj (e_addr e k) 56 k true (CBytes (e_junk e k))]) (files s).
Lemma grown_length e s : List.length (objs (grown e s)) = S (List.length (objs s)).
Proof. unfold grown. cbn [objs]. rewrite app_length. cbn. lia. Qed.
Lemma grown_old e s : old_unchanged s (grown e s).
Proof. intros k Hk. unfold grown. cbn [objs]. now rewrite nth_error_app1. Qed.
Lemma grown_isb e s : isb (grown e s) (List.length (objs s)) 56 (e_junk e (List.length (objs s))).
Proof. eapply obj_isb. unfold grown. cbn [objs]. rewrite nth_error_app2, Nat.sub_diag by auto. reflexivity. Qed.
Lemma rows_old s s' p m R C es P : old_unchanged s s' -> byte_rows s p m R C es P -> byte_rows s' p m R C es P.
Proof.
  intros O (S1 & A1 & A2 & A3 & A4 & A5 & A6 & M). repeat split; auto.
  - destruct p as [k|]; [|discriminate S1]. destruct (sm_at_obj _ _ _ S1) as (a & n & r & E). rewrite (nth_sm_at s s'); [exact S1|]. apply O. eapply nth_error_lt; eauto.
  - intros i j Hi Hj. change (Z.to_nat 1) with 1%nat. apply (word_old s s'); [exact O|]. exact (M i j Hi Hj).
Qed.
Lemma inside_fresh s0 s h lo hi s' : (List.length (objs s0) <= h)%nat -> old_unchanged s0 s -> inside s h lo hi s' -> old_unchanged s0 s'.
Proof.
  intros L O I k Hk. rewrite <- (O k Hk). destruct I as (N & d & d' & H & -> & _). apply objs_putd_ne. lia.
Qed.
Lemma data_lt s p m R C es P : byte_rows s p m R C es P -> exists q, sm_data m = Some q /\ (q < List.length (objs s))%nat.
Proof.
  intros (_ & _ & _ & T & HR & HC & _ & M). destruct (elem_size _ _ T) as [_ E].
  destruct (matrix_arr s _ 1 R (C * es) P ltac:(lia) HR ltac:(nia) M) as (q & Eq & A). exists q. split; [exact Eq|].
  destruct (arr_isb _ _ _ _ _ _ A) as (n & d & I). eapply isb_lt; eauto.
Qed.

Theorem hu_null : forall pow_ e s mat m R C es P, byte_rows s mat m R C es P -> small_image R C -> 0 < weight_of R C P ->
  exists s', calc_hu_moment pow_ None mat e s = Ret tt s' /\ one_more s s' 56 /\ seven s' (Some (List.length (objs s))) (shape_of pow_ R C P).
Proof.
  intros pow_ e s mat m R C es P B S W. set (k := List.length (objs s)).
  assert (EQ : calc_hu_moment pow_ None mat e s = calc_hu_moment pow_ (Some k) mat e (grown e s)) by reflexivity.
  destruct (data_lt _ _ _ _ _ _ _ B) as (q & Eq & Lq).
  destruct (hu_small pow_ e (grown e s) k 56 _ mat m R C es P (rows_old _ _ _ _ _ _ _ _ (grown_old e s) B) (grown_isb e s) ltac:(lia)) as (s' & E & A & IN); auto.
  { rewrite Eq. intros [= ->]. fold k in Lq. lia. }
  exists s'. rewrite EQ. split; [exact E|]. pose proof (inside_only _ _ _ _ _ IN) as (F1 & F2 & _ & F4 & _). split.
  - split; [rewrite F1; reflexivity|]. split; [rewrite F2; apply grown_length|]. split; [|apply F4].
    + apply (inside_fresh s (grown e s) k 0 56); [apply Nat.le_refl|apply grown_old|exact IN].
    + exists k, 56, (e_junk e k). split; [reflexivity|]. split; [apply grown_isb|lia].
  - apply arr_seven; [reflexivity|exact A].
Qed.

(** ** Valid doubles *)
Lemma db_sub_ok x y : db_ok x -> db_ok y -> db_ok (db_sub x y).
Proof.
  intros Vx Vy. destruct (sf_num x) as [a|] eqn:Na; [destruct (sf_num y) as [b|] eqn:Nb|].
  - eapply rounded_ok. apply (SFsub_num 53 1024); eauto; lia.
  - destruct x as [sx|sx| |sx mx ex]; try discriminate Na; destruct y as [sy|sy| |sy my ey]; try discriminate Nb; reflexivity.
  - destruct x as [sx|sx| |sx mx ex]; try discriminate Na; destruct y as [sy|sy| |sy my ey]; try reflexivity.
    cbn. destruct (Bool.eqb sx (negb sy)); reflexivity.
Qed.
Lemma small_int z : Z.abs z <= 9007199254740992 -> db_ok (db_of_Z z). Proof. intros H. exact (proj1 (db_of_Z_ok z H)). Qed.
Lemma image_ok R C g : 0 <= R -> 0 <= C -> (forall j i, 0 <= j < R -> 0 <= i < C -> db_ok (g j i)) -> db_ok (image_sum doubles R C g).
Proof.
  intros HR HC H. unfold image_sum. cbn [doubles a_add a_int].
  assert (ROW : forall n a h, 0 <= n -> db_ok a -> (forall b t, 0 <= t < n -> db_ok b -> db_ok (h b t)) -> db_ok (foldz n h a)).
  { clear. intros n a h Hn Ha. pattern n. apply natlike_ind; [|intros k Hk IH Hf|exact Hn]; [now rewrite foldz_0|].
    unfold Z.succ. rewrite foldz_S by lia. apply Hf; [lia|]. apply IH. intros; apply Hf; auto; lia. }
  apply ROW; [exact HR|reflexivity|]. intros b j Hj Vb. apply ROW; [exact HC|exact Vb|]. intros b' i Hi Vb'. apply db_add_ok; auto.
Qed.

Section Valid.
  Variable pow_ : sf -> sf -> sf.
  Hypothesis HP : forall x y, db_ok x -> db_ok y -> db_ok (pow_ x y).

  Lemma shape_ok weight m : db_ok weight -> (forall p q, third p q = true -> db_ok (m p q)) -> Forall db_ok (shape_values pow_ weight m).
  Proof.
    intros W M. unfold shape_values.
    assert (U : forall p q, third p q = true -> db_ok (scaled pow_ weight m p q)).
    { intros p q T. unfold scaled. apply db_div_ok; [auto|]. apply HP; [exact W|]. destruct (p + q =? 2)%nat; reflexivity. }
    generalize dependent (scaled pow_ weight m). clear. intros u U.
    unfold hu_values. cbn [doubles a_add a_sub a_mul a_int]. cbv zeta.
    repeat constructor; repeat (first [apply db_add_ok | apply db_sub_ok | apply db_mul_ok | (apply U; reflexivity) | reflexivity]).
  Qed.

  Lemma shape_of_ok R C P : 0 < R -> 0 < C -> (forall j i, 0 <= j < R -> 0 <= i < C -> 0 <= P j i < 256) -> small_image R C -> 0 < weight_of R C P ->
    Forall db_ok (shape_of pow_ R C P).
  Proof.
    intros HR HC B S W. pose proof (small_middling R C HR HC S) as M. destruct (middling_bounds R C HR HC M) as [B1 B2].
    destruct (centres_exact R C P HR HC B M W) as (_ & _ & Hx & Hy).
    rewrite <- (shape_exact pow_ R C P _ _ HR HC B S W eq_refl eq_refl). apply shape_ok.
    - apply image_ok; [lia|lia|]. intros j i Hj Hi. specialize (B j i Hj Hi). apply small_int. lia.
    - intros p q T. apply image_ok; [lia|lia|]. intros j i Hj Hi. specialize (B j i Hj Hi). cbn [doubles a_mul a_int]. apply db_mul_ok; [|apply small_int; lia].
      assert (X : db_ok (db_of_Z (i - centre_x R C P))) by (apply small_int; lia). assert (Y : db_ok (db_of_Z (j - centre_y R C P))) by (apply small_int; lia).
      generalize dependent (db_of_Z (i - centre_x R C P)). generalize dependent (db_of_Z (j - centre_y R C P)). intros y Y x X.
      destruct p as [|[|[|[|]]]]; destruct q as [|[|[|[|]]]]; try discriminate T; unfold monomial; cbn [repeat app fold_left doubles a_mul];
        repeat (first [assumption | apply db_mul_ok]).
  Qed.
End Valid.

Lemma word_back x : db_ok x -> db_of_bits (double_word x) = x.
Proof. intros V. unfold double_word. rewrite Z.mod_small by (now apply bits_of_db_range). now apply db_bits_db. Qed.
Lemma words_back l t : Forall db_ok l -> 0 <= t < Z.of_nat (List.length l) -> db_of_bits (words l t) = nth (Z.to_nat t) l S754_nan.
Proof.
  intros F H. unfold words. apply word_back. rewrite Forall_forall in F. apply F. apply nth_In. lia.
Qed.

Lemma similar_run e s h1 h2 l1 l2 : arr s h1 0 8 7 (words l1) -> arr s h2 0 8 7 (words l2) -> List.length l1 = 7%nat -> List.length l2 = 7%nat ->
  Forall db_ok l1 -> Forall db_ok l2 -> calc_similar_hu (Some h1) (Some h2) e s = Ret (similarity l1 l2) s.
Proof.
  intros A1 A2 L1 L2 V1 V2. unfold calc_similar_hu.
  set (f := fun (t : sf * sf) i => (db_add (fst t) (SFabs (db_sub (nth (Z.to_nat i) l1 S754_nan) (nth (Z.to_nat i) l2 S754_nan))),
    db_add (snd t) (SFabs (db_add (nth (Z.to_nat i) l1 S754_nan) (nth (Z.to_nat i) l2 S754_nan))))).
  match goal with |- context [bind (forS 0 7 ?b ?z)] => assert (F : forS 0 7 b z e s = Ret (foldz 7 f z) s) end.
  { apply forS_pure; [lia|]. intros i t Hi.
    pose proof (loadd_arr e s h1 7 _ i A1 Hi) as E1. rewrite words_back in E1 by (auto; rewrite L1; lia).
    pose proof (loadd_arr e s h2 7 _ i A2 Hi) as E2. rewrite words_back in E2 by (auto; rewrite L2; lia).
    runs E1. runs E2. cbv zeta. runs E1. runs E2. reflexivity. }
  runs F. unfold ret. f_equal. unfold similarity. clear - L1 L2 f.
  destruct l1 as [|a1 [|a2 [|a3 [|a4 [|a5 [|a6 [|a7 [|]]]]]]]]; try discriminate L1.
  destruct l2 as [|b1 [|b2 [|b3 [|b4 [|b5 [|b6 [|b7 [|]]]]]]]]; try discriminate L2. reflexivity.
Qed.

(** ** Comparing two images *)
Lemma match_run pow_ e s p1 p2 m1 m2 R1 C1 es1 P R2 C2 es2 Q : (forall x y, db_ok x -> db_ok y -> db_ok (pow_ x y)) ->
  byte_rows s p1 m1 R1 C1 es1 P -> byte_rows s p2 m2 R2 C2 es2 Q -> small_image R1 C1 -> small_image R2 C2 ->
  0 < weight_of R1 C1 P -> 0 < weight_of R2 C2 Q ->
  exists s', hypercv_match_shapes pow_ p1 p2 e s = Ret (similarity (shape_of pow_ R1 C1 P) (shape_of pow_ R2 C2 Q)) s'
    /\ files s' = files s /\ old_unchanged s s' /\ List.length (objs s') = (List.length (objs s) + 2)%nat
    /\ readable s' (Some (List.length (objs s))) 56 /\ readable s' (Some (S (List.length (objs s)))) 56.
Proof.
  intros HP B1 B2 S1 S2 W1 W2. set (k := List.length (objs s)).
  destruct (data_lt _ _ _ _ _ _ _ B1) as (q1 & Eq1 & Lq1). destruct (data_lt _ _ _ _ _ _ _ B2) as (q2 & Eq2 & Lq2). fold k in Lq1, Lq2.
  set (s1 := grown e s). set (s2 := grown e s1).
  assert (K1 : List.length (objs s1) = S k) by apply grown_length.
  assert (O2 : old_unchanged s s2).
  { intros i Hi. unfold s2. rewrite (grown_old e s1 i) by (fold k in Hi; lia). apply grown_old. exact Hi. }
  assert (I1 : isb s2 k 56 (e_junk e k)).
  { pose proof (grown_isb e s) as I. fold k s1 in I. unfold isb in *. rewrite (nth_bytes_at s1 s2 k); [exact I|]. apply grown_old. lia. }
  assert (I2 : isb s2 (S k) 56 (e_junk e (S k))) by (rewrite <- K1; apply grown_isb).
  unfold hypercv_match_shapes.
  rewrite bind_assert by (destruct B1 as (S & _), B2 as (S' & _); destruct p1; [|discriminate S]; destruct p2; [reflexivity|discriminate S']).
  assert (M1 : malloc (u64 (7 * 8)) e s = Ret (Some k) s1) by reflexivity. assert (M2 : malloc (u64 (7 * 8)) e s1 = Ret (Some (S k)) s2) by (rewrite <- K1; reflexivity).
  runs M1. runs M2. clear M1 M2.
  destruct (hu_small pow_ e s2 k 56 _ p1 m1 R1 C1 es1 P (rows_old _ _ _ _ _ _ _ _ O2 B1) I1 ltac:(lia)) as (s3 & E3 & A3 & N3); auto.
  { rewrite Eq1. intros [= ->]. lia. }
  runs E3. assert (O3 : old_unchanged s s3) by (eapply (inside_fresh s s2 k); [apply Nat.le_refl|exact O2|exact N3]).
  destruct (hu_small pow_ e s3 (S k) 56 (e_junk e (S k)) p2 m2 R2 C2 es2 Q (rows_old _ _ _ _ _ _ _ _ O3 B2)) as (s4 & E4 & A4 & N4); auto; try lia.
  { eapply inside_old; [exact N3|lia|exact I2]. } { rewrite Eq2. intros [= ->]. lia. }
  runs E4. pose proof (arr_inside _ _ _ _ _ k _ _ _ _ N4 A3 ltac:(left; lia)) as A3'.
  rewrite (similar_run e s4 k (S k) _ _ A3' A4 eq_refl eq_refl); [|apply shape_of_ok|apply shape_of_ok]; auto; try (eapply bytes_range; eassumption); try apply B1; try apply B2.
  eexists. split; [reflexivity|]. pose proof (inside_only _ _ _ _ _ N3) as (F1 & F2 & _). pose proof (inside_only _ _ _ _ _ N4) as (G1 & G2 & _).
  split; [rewrite G1, F1; reflexivity|]. split; [eapply (inside_fresh s s3 (S k)); [fold k; lia|exact O3|exact N4]|].
  split; [rewrite G2, F2; unfold s2; rewrite grown_length, K1; lia|].
  split; [exact (proj1 (proj2 (arr_seven s4 k (shape_of pow_ R1 C1 P) eq_refl A3')))|exact (proj1 (proj2 (arr_seven s4 (S k) (shape_of pow_ R2 C2 Q) eq_refl A4)))].
Qed.

Theorem match_leak : forall pow_ e s p1 p2 m1 m2 R1 C1 es1 P R2 C2 es2 Q, (forall x y, db_ok x -> db_ok y -> db_ok (pow_ x y)) ->
  byte_rows s p1 m1 R1 C1 es1 P -> byte_rows s p2 m2 R2 C2 es2 Q -> small_image R1 C1 -> small_image R2 C2 ->
  0 < weight_of R1 C1 P -> 0 < weight_of R2 C2 Q ->
  exists s', hypercv_match_shapes pow_ p1 p2 e s = Ret (similarity (shape_of pow_ R1 C1 P) (shape_of pow_ R2 C2 Q)) s'
    /\ files s' = files s /\ old_unchanged s s' /\ List.length (objs s') = (List.length (objs s) + 2)%nat
    /\ readable s' (Some (List.length (objs s))) 56 /\ readable s' (Some (S (List.length (objs s)))) 56.
Proof. exact match_run. Qed.

Theorem match_moved : forall pow_ e s p1 p2 m1 m2 R1 C1 es1 P R2 C2 es2 Q dy dx, (forall x y, db_ok x -> db_ok y -> db_ok (pow_ x y)) ->
  byte_rows s p1 m1 R1 C1 es1 P -> byte_rows s p2 m2 R2 C2 es2 Q -> small_image R1 C1 -> small_image R2 C2 ->
  0 < weight_of R1 C1 P -> moved P Q R1 C1 R2 C2 dy dx ->
  exists s', hypercv_match_shapes pow_ p1 p2 e s
    = Ret (if forallb is_fin (shape_of pow_ R1 C1 P) && existsb is_nonzero (shape_of pow_ R1 C1 P) then db_of_Z 1 else S754_nan) s'.
Proof.
  intros pow_ e s p1 p2 m1 m2 R1 C1 es1 P R2 C2 es2 Q dy dx HP B1 B2 S1 S2 W MV.
  pose proof B1 as (_ & _ & _ & _ & HR & HC & _). pose proof B2 as (_ & _ & _ & _ & HR' & HC' & _).
  destruct (shape_moved pow_ P Q R1 C1 R2 C2 dy dx HR HC HR' HC' MV W) as (EW & _ & _ & ES).
  destruct (match_run pow_ e s p1 p2 m1 m2 R1 C1 es1 P R2 C2 es2 Q HP B1 B2 S1 S2 W ltac:(lia)) as (s' & E & _).
  exists s'. rewrite E, ES. f_equal. apply compare_self. apply shape_of_ok; auto. eapply bytes_range; eassumption.
Qed.

(** ** One lit pixel *)
Definition zn (x : sf) : Prop := (exists b, x = S754_zero b) \/ x = S754_nan.
Lemma zn_add x y : zn x -> zn y -> zn (db_add x y).
Proof. intros [[b ->]| ->] [[c ->]| ->]; try (right; reflexivity). left. destruct b, c; eexists; reflexivity. Qed.
Lemma zn_sub x y : zn x -> zn y -> zn (db_sub x y).
Proof. intros [[b ->]| ->] [[c ->]| ->]; try (right; reflexivity). left. destruct b, c; eexists; reflexivity. Qed.
Lemma zn_mul x y : zn x -> zn y -> zn (db_mul x y).
Proof. intros [[b ->]| ->] [[c ->]| ->]; try (right; reflexivity). left. eexists; reflexivity. Qed.
Lemma zn_int n y : zn y -> zn (db_mul (db_of_Z (Zpos n)) y).
Proof.
  intros [[b ->]| ->]; [|right; destruct (db_of_Z (Zpos n)); reflexivity].
  destruct (db_of_Z (Zpos n)) as [s|s| |s m e]; [left|right|right|left]; try eexists; reflexivity.
Qed.
Lemma zn_div y : zn (db_div (S754_zero false) y).
Proof. destruct y as [s|s| |s m e]; [right|left|right|left]; try eexists; reflexivity. Qed.
Lemma zn_shape pow_ weight m : (forall p q, third p q = true -> m p q = S754_zero false) -> Forall zn (shape_values pow_ weight m).
Proof.
  intros M. unfold shape_values.
  assert (U : forall p q, third p q = true -> zn (scaled pow_ weight m p q)) by (intros p q T; unfold scaled; rewrite M by exact T; apply zn_div).
  generalize dependent (scaled pow_ weight m). clear. intros u U.
  unfold hu_values. cbn [doubles a_add a_sub a_mul a_int]. cbv zeta.
  repeat (apply Forall_cons); try apply Forall_nil; repeat (match goal with |- zn (db_add _ _) => apply zn_add | |- zn (db_sub _ _) => apply zn_sub | |- zn (db_mul (db_of_Z _) _) => apply zn_int | |- zn (db_mul _ _) => apply zn_mul | |- zn (u _ _) => apply U; reflexivity end).
Qed.
Lemma zn_list l : Forall zn l -> forallb is_fin l && existsb is_nonzero l = false.
Proof.
  induction 1 as [|x r X XS IH]; [reflexivity|]. cbn [forallb existsb].
  destruct X as [[b ->]| ->]; cbn [is_fin is_nonzero andb orb]; [exact IH|reflexivity].
Qed.

Lemma isum_zero R C f : (forall j i, 0 <= j < R -> 0 <= i < C -> f j i = 0) -> isum R C f = 0.
Proof. intros H. rewrite (isum_ext R C f (fun j i => 0 * 0)) by (intros; now rewrite H). now rewrite (isum_scale R C 0 (fun _ _ => 0)). Qed.
Lemma point_shape pow_ R C P j0 i0 : 0 < R -> 0 < C -> (forall j i, 0 <= j < R -> 0 <= i < C -> j <> j0 \/ i <> i0 -> P j i = 0) ->
  0 < weight_of R C P -> Forall zn (shape_of pow_ R C P).
Proof.
  intros HR HC Z W. apply zn_shape. intros p q T.
  assert (X : forall f, (forall j i, f j i = f j0 i0 \/ j <> j0 \/ i <> i0) -> isum R C (fun j i => f j i * P j i) = f j0 i0 * weight_of R C P).
  { intros f Hf. unfold weight_of. rewrite <- isum_scale. apply isum_ext. intros j i Hj Hi. destruct (Hf j i) as [->|N]; [reflexivity|]. rewrite (Z j i Hj Hi N). ring. }
  assert (CX : centre_x R C P = i0).
  { unfold centre_x. rewrite (X (fun _ i => i)) by (intros; lia). symmetry. apply (Z.div_unique _ _ _ (weight_of R C P)); [lia|ring]. }
  assert (CY : centre_y R C P = j0).
  { unfold centre_y. rewrite (X (fun j _ => j)) by (intros; lia). symmetry. apply (Z.div_unique _ _ _ (weight_of R C P)); [lia|ring]. }
  rewrite CX, CY. unfold imoment.
  rewrite isum_zero; [reflexivity|]. intros j i Hj Hi. destruct (Z.eq_dec j j0) as [->|Nj]; [destruct (Z.eq_dec i i0) as [->|Ni]|]; [|rewrite Z by (auto; lia); ring|rewrite Z by (auto; lia); ring].
  rewrite !Z.sub_diag. destruct p as [|p]; [destruct q as [|q]; [discriminate T|]|]; [rewrite (Z.pow_0_l (Z.of_nat (S q))) by lia|rewrite (Z.pow_0_l (Z.of_nat (S p))) by lia]; ring.
Qed.

Theorem match_point : forall pow_ e s p m R C es P j0 i0, (forall x y, db_ok x -> db_ok y -> db_ok (pow_ x y)) ->
  byte_rows s p m R C es P -> small_image R C -> 0 < weight_of R C P ->
  (forall j i, 0 <= j < R -> 0 <= i < C -> j <> j0 \/ i <> i0 -> P j i = 0) ->
  exists s', hypercv_match_shapes pow_ p p e s = Ret S754_nan s'.
Proof.
  intros pow_ e s p m R C es P j0 i0 HP B S W Z. pose proof B as (_ & _ & _ & _ & HR & HC & _).
  destruct (match_run pow_ e s p p m m R C es P R C es P HP B B S S W W) as (s' & E & _). exists s'. rewrite E. f_equal.
  rewrite compare_self by (apply shape_of_ok; auto; eapply bytes_range; eassumption).
  now rewrite (zn_list _ (point_shape pow_ R C P j0 i0 HR HC Z W)).
Qed.

(** ** No lit pixel *)
Theorem hu_black : forall pow_ e s hu mat m R C es P, byte_rows s mat m R C es P -> nonnull hu = true ->
  255 * R <= 2147483647 -> 255 * C <= 2147483647 -> (forall j i, 0 <= j < R -> 0 <= i < C -> P j i = 0) ->
  calc_hu_moment pow_ hu mat e s = UB.
Proof.
  intros pow_ e s hu mat m R C es P B Hh BR BC Z. pose proof (bytes_range _ _ _ _ _ _ _ B) as PR. destruct B as (S1 & R1 & C1 & T1 & HR & HC & HB & M1).
  destruct (elem_size _ _ T1) as [ES E0]. unfold calc_hu_moment. rewrite Hh. rewrite bind_ret_l.
  rewrite bind_assert by (destruct mat; [reflexivity|discriminate S1]).
  runs (sget_ok _ _ e s S1). cbv zeta. rewrite R1, C1, ES.
  assert (CB : C * es <= 2147483647) by nia.
  runs (ev_ok (C * es)%C (C * es) e s ltac:(unfold ci; rewrite cmul_ok by nia; reflexivity)).
  destruct (matrix_arr s _ 1 R (C * es) P ltac:(lia) HR ltac:(nia) M1) as (q & Eq & A). rewrite Eq in *.
  destruct (sums_loop e s q (C * es) R C P HR HC ltac:(nia) HB BR BC PR A) as (z & F & Z1 & Z2 & Z3).
  runs F. cbv zeta. rewrite Z1, Z2, Z3. clear F Z1 Z2 Z3 z.
  assert (G : forall g w, (forall j i, 0 <= j < R -> 0 <= i < C -> w j i = 0 /\ g j i = db_of_Z (w j i)) -> image_sum doubles R C g = db_of_Z 0).
  { intros g w H. rewrite (sum_exact R C g w 0); try lia; [rewrite isum_zero; [reflexivity|intros; now apply H]|].
    intros j i Hj Hi. destruct (H j i Hj Hi) as [H1 ->]. rewrite H1. split; [apply db_Z; lia|lia]. }
  assert (W : mass doubles R C P = db_of_Z 0) by (apply (G _ P); intros; split; auto).
  assert (X : mass_x doubles R C P = db_of_Z 0) by (apply (G _ (fun j i => i * P j i)); intros; split; auto; rewrite Z by auto; ring).
  rewrite W, X. reflexivity.
Qed.

(** ** Rounding the centre, bytes of wide elements *)
Theorem hu_half : forall pow_, pow_ (db_of_Z 2) (db_of_Z 2) = db_of_Z 4 ->
  exists R C P, nth_error (shape_of pow_ R C P) 0 = Some (dlit 1 4) /\ 8 * first_num R C P = first_den R C P /\ 0 < first_den R C P.
Proof.
  intros pow_ H. exists 1, 2, (fun _ _ => 1). split; [|split; reflexivity].
  unfold shape_of, shape_values, hu_values. cbn [nth_error doubles a_add]. unfold scaled. cbn [Nat.add Nat.eqb].
  change (weight_of 1 2 (fun _ _ => 1)) with 2. rewrite H. reflexivity.
Qed.

Theorem hu_wide : forall R C P Q, (forall j i, 0 <= j < R -> 0 <= i < C -> P j i = Q j i) -> forall pow_, shape_of pow_ R C P = shape_of pow_ R C Q.
Proof.
  intros R C P Q H pow_. unfold shape_of.
  assert (E : forall f, isum R C (fun j i => f j i * P j i) = isum R C (fun j i => f j i * Q j i)) by (intros f; apply isum_ext; intros; now rewrite H).
  assert (W : weight_of R C P = weight_of R C Q) by (apply isum_ext; auto).
  assert (X : centre_x R C P = centre_x R C Q) by (unfold centre_x; now rewrite (E (fun _ i => i)), W).
  assert (Y : centre_y R C P = centre_y R C Q) by (unfold centre_y; now rewrite (E (fun j _ => j)), W).
  rewrite W, X, Y. unfold shape_values, hu_values, scaled. unfold imoment.
  rewrite !(E (fun j i => (i - centre_x R C Q) ^ _ * (j - centre_y R C Q) ^ _)). reflexivity.
Qed.
