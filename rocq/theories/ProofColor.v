(** * Proofs: colour conversions. *)
From Verif Require Import Base Logic ModelCore ModelFloat ModelPixel SpecBase SpecCore SpecImage SpecImage2 SpecPixel SpecNum ProofCore ProofLayout ProofHM ProofCopy ProofCore2 ProofImage3 ProofImage4 ProofPixel ProofFloat ProofFloat2.
From Coq Require Import String ZifyBool ZifyNat Floats.SpecFloat.
Ltac Zify.zify_post_hook ::= Z.div_mod_to_equations.
Open Scope Z_scope.

(** ** Exhaustive checks over small ranges *)

Definition zseq (n : nat) : list Z := map Z.of_nat (seq 0 n).
Lemma zseq_all n (P : Z -> bool) : forallb P (zseq n) = true -> forall x, 0 <= x < Z.of_nat n -> P x = true.
Proof.
  intros H x Hx. rewrite forallb_forall in H. apply H. unfold zseq. apply in_map_iff.
  exists (Z.to_nat x). split; [lia|]. apply in_seq. lia.
Qed.

Definition oz_eqb (a b : option Z) : bool :=
  match a, b with Some x, Some y => x =? y | None, None => true | _, _ => false end.
Lemma oz_eqb_ok a b : oz_eqb a b = true -> a = b.
Proof. destruct a, b; cbn; try discriminate; auto. intros H. f_equal. lia. Qed.

(** ** Filling a new picture from an old one *)

Lemma fill_picture e s p m R C ch (body : ptr -> Z -> Z -> M unit) (val : Z -> Z -> Z -> Z) v :
  env_ok e -> heap_ok s -> image s p m 1 -> 0 < R -> 0 < C -> 0 < ch -> R * C * ch + 96 <= 2147483647 ->
  (forall q n f, pixels s m q n f -> forall dd i j, 0 <= i < R -> 0 <= j < C ->
     let s1 := newsm e s R C 1 1 ch dd in let k := (List.length (objs s) + 1)%nat in
     isb s1 q n f -> q <> k -> isb s1 k (R * C * ch) dd ->
     wr e s1 k (body (Some k) i j) (fun x => exists c, 0 <= c < ch /\ x = (i * C + j) * ch + c) (at_pos C ch val)) ->
  (forall i j k, 0 <= i < R -> 0 <= j < C -> 0 <= k < ch -> v i j k = Some (val i j k)) ->
  exists p' s',
    (d <- create_simple_mat R C 1 ch ;;
     md <- sget d ;;
     for_ 0 R (fun i => for_ 0 C (fun j => body (sm_data md) i j)) ;;;
     ret d) e s = Ret p' s'
    /\ new_picture s R C ch v s' p'.
Proof.
  intros He Hs IM HR HC Hch Hn Hb Hv.
  destruct (image_pixels s p m IM) as (q & n & f & P).
  set (k0 := List.length (objs s)).
  set (fill := for_ 0 R (fun i => for_ 0 C (fun j => body (Some (k0 + 1)%nat) i j))).
  destruct (create_fill e s R C ch fill (at_pos C ch val)) as (dd & g & X1 & X2 & X3); auto.
  { intros dd. apply wr_grid; auto. intros i j Hi Hj. apply (Hb q n f P dd i j Hi Hj).
    - apply newsm_old, P.
    - eapply isb_old_ne. apply P.
    - replace (R * C * ch) with (R * C * 1 * ch) by ring. apply newsm_data. }
  exists (Some k0), (newsm e s R C 1 1 ch g). split.
  - runs X1. runs (sget_ok _ _ e _ (newsm_at e s R C 1 1 ch dd)). cbn [newsm_hdr sm_data]. fold k0. fold fill.
    runs X2. reflexivity.
  - apply newsm_picture; auto. intros i j k Hi Hj Hk. rewrite X3 by now apply pix_index.
    rewrite at_pos_eq by auto. now apply Hv.
Qed.

(** ** C30 *)

Section Expand.
  Variables (e : env) (s : st) (p : ptr) (m : smat).
  Hypothesis He : env_ok e. Hypothesis Hs : heap_ok s. Hypothesis IM : image s p m 1.
  Hypothesis H1 : sm_chan m = 1.
  Hypothesis Hn : sm_rows m * sm_cols m * 3 + 96 <= 2147483647.

  Lemma expand_run (g : Z -> Z) : exists p' s',
    (d <- create_simple_mat (sm_rows m) (sm_cols m) 1 3 ;;
     md <- sget d ;;
     for_ 0 (sm_rows m) (fun i => for_ 0 (sm_cols m) (fun j =>
       for_ 0 3 (fun k =>
        d <- ev (i * sm_cols m * 3 + j * 3 + k)%C ;;
        x <- ev (i * sm_cols m + j)%C ;;
        v <- load8 (sm_data m) x ;;
        store8 (sm_data md) d (g v)))) ;;;
     ret d) e s = Ret p' s'
    /\ new_picture s (sm_rows m) (sm_cols m) 3
         (fun i j k => option_map (fun x => g x mod 256) (pix s m i j 0)) s' p'.
  Proof.
    destruct (image_pixels s p m IM) as (q0 & n0 & f0 & P0). pose proof P0 as [D0 _ HR HC _ N0 _].
    set (R := sm_rows m) in *. set (C := sm_cols m) in *.
    apply (fill_picture e s p m R C 3 (fun dp i j => for_ 0 3 (fun k =>
        d <- ev (i * C * 3 + j * 3 + k)%C ;;
        x <- ev (i * C + j)%C ;;
        v <- load8 (sm_data m) x ;;
        store8 dp d (g v))) (fun i j k => g (f0 (i * C + j) mod 256) mod 256)); auto; try lia.
    - intros q n f [D I _ _ _ N _] dd i j Hi Hj s1 k1 I1 Hne Ik.
      assert (q = q0) as -> by congruence.
      assert (f = f0) as -> by (destruct P0 as [_ I0 _ _ _ _ _]; unfold isb in *; congruence).
      assert (IX : 0 <= i * C + j < R * C) by nia.
      eapply wr_iff; [apply wr_for with (P := fun k y => y = (i * C + j) * 3 + k)|intros y; reflexivity].
      intros k Hk. eapply wr_bind; [apply rdv_ev; apply (idx_c R C 3 i j k); auto; lia|].
      eapply wr_bind; [apply rdv_ev; apply (idx2_c R C); auto; lia|]. rewrite D.
      fold R C in N. rewrite H1 in N.
      eapply wr_bind; [eapply rdv_load8; [exact Hne|exact I1|lia]|].
      eapply wr_store8; [exact Ik|lia|]. now rewrite at_pos_eq by lia.
    - intros i j k Hi Hj Hk. rewrite (pix_val _ _ _ _ _ _ _ _ P0) by (unfold in_image; fold R C; lia).
      cbn. fold C. rewrite H1. do 5 f_equal. lia.
  Qed.

  Lemma gray2rgb_run : exists p' s', sm_gray2rgb p e s = Ret p' s'
    /\ new_picture s (sm_rows m) (sm_cols m) 3 (fun i j k => pix s m i j 0) s' p'.
  Proof.
    destruct (expand_run (fun x => x)) as (p' & s' & X & Y). exists p', s'.
    unfold sm_gray2rgb. runs (sget_ok _ _ e _ (im_hdr _ _ _ _ IM)). rewrite bind_assert by lia. split; [exact X|].
    destruct Y as (m' & I & A & B & C & D & E & F). exists m'. repeat (split; auto).
    intros i j k Hin. rewrite E by auto. destruct (image_pixels s p m IM) as (q & n & f & P).
    rewrite (pix_val _ _ _ _ _ i j 0 P) by (destruct Hin as (? & ? & ?); unfold in_image; lia).
    cbn. now rewrite Z.mod_mod by lia.
  Qed.

  Lemma binary2rgb_run : exists p' s', sm_binary2rgb p e s = Ret p' s'
    /\ new_picture s (sm_rows m) (sm_cols m) 3
         (fun i j k => option_map (fun x => (x * 255) mod 256) (pix s m i j 0)) s' p'.
  Proof.
    destruct (expand_run (fun x => x * 255)) as (p' & s' & X & Y). exists p', s'.
    unfold sm_binary2rgb. runs (sget_ok _ _ e _ (im_hdr _ _ _ _ IM)). rewrite bind_assert by lia. split; [exact X|exact Y].
  Qed.

  Lemma binary2rgb_bits : (forall i j, 0 <= i < sm_rows m -> 0 <= j < sm_cols m -> pix s m i j 0 = Some 0 \/ pix s m i j 0 = Some 1) ->
    exists p' s', sm_binary2rgb p e s = Ret p' s'
    /\ new_picture s (sm_rows m) (sm_cols m) 3
         (fun i j k => option_map (fun x => if x =? 0 then 0 else 255) (pix s m i j 0)) s' p'.
  Proof.
    intros Hb. destruct binary2rgb_run as (p' & s' & X & m' & I & A & B & C & D & E & F). exists p', s'. split; auto.
    exists m'. repeat (split; auto). intros i j k Hin. rewrite E by auto. destruct Hin as (Hi & Hj & Hk).
    destruct (Hb i j ltac:(lia) ltac:(lia)) as [-> | ->]; reflexivity.
  Qed.
End Expand.

(** ** C31 *)

Lemma max_step_ok a b : 0 <= a < 256 -> 0 <= b < 256 -> gray_max_step (fl_of_Z a) b = fl_of_Z (Z.max a b).
Proof.
  intros Ha Hb. destruct (fl_of_Z_ok a ltac:(lia)) as [Va Na]. destruct (fl_of_Z_ok b ltac:(lia)) as [Vb Nb].
  unfold gray_max_step. rewrite (fl_ltb _ _ _ _ Vb Va Nb Na). pose proof sf_one_pos.
  destruct (b * sf_one <? a * sf_one) eqn:EB; f_equal; nia.
Qed.

Lemma int_fl a : 0 <= a < 256 -> int_of_sf (fl_of_Z a) = Some a.
Proof. intros Ha. apply fl_of_Z_trunc. lia. Qed.

Lemma sum_step_ok a b : 0 <= a < 511 -> 0 <= b < 256 -> fl_add (fl_of_Z a) (fl_of_Z b) = fl_of_Z (a + b).
Proof.
  intros Ha Hb. destruct (Z.eq_dec (a + b) 0) as [E|E].
  { assert (a = 0 /\ b = 0) as [-> ->] by lia. reflexivity. }
  destruct (add_int 24 128 ltac:(lia) ltac:(lia) ltac:(lia) (fl_of_Z a) (fl_of_Z b) a b) as [V N].
  - apply fl_of_Z_ok. lia.
  - apply fl_of_Z_ok. lia.
  - change (2 ^ 24) with 16777216. lia.
  - apply fl_of_Z_canonical; auto; lia.
Qed.

Lemma average_ok t : 0 <= t < 766 -> int_of_sf (gray_average (fl_of_Z t)) = Some (nearest t 3).
Proof.
  intros Ha. apply oz_eqb_ok. revert t Ha.
  apply (zseq_all 766 (fun t => oz_eqb (int_of_sf (gray_average (fl_of_Z t))) (Some (nearest t 3)))).
  vm_compute. reflexivity.
Qed.

(** The grey value of a pixel (None if a channel is unreadable). *)
Section Gray.
  Variables (e : env) (s : st) (p : ptr) (m : smat).
  Hypothesis He : env_ok e. Hypothesis Hs : heap_ok s. Hypothesis IM : image s p m 1.
  Hypothesis H3 : sm_chan m = 3.

  Lemma gray_fill (body : ptr -> nat -> Z -> Z -> M unit) (g : Z -> Z -> Z -> Z) :
    (forall q n f, pixels s m q n f -> forall dd i j, 0 <= i < sm_rows m -> 0 <= j < sm_cols m ->
       let s1 := newsm e s (sm_rows m) (sm_cols m) 1 1 1 dd in let k := (List.length (objs s) + 1)%nat in
       isb s1 q n f -> q <> k -> isb s1 k (sm_rows m * sm_cols m) dd ->
       wr e s1 k (body (Some k) q i j) (fun x => x = i * sm_cols m + j)
         (fun _ => let x k := f ((i * sm_cols m + j) * 3 + k) mod 256 in g (x 0) (x 1) (x 2))) ->
    forall q n f, pixels s m q n f ->
    exists p' s',
    (d <- create_simple_mat (sm_rows m) (sm_cols m) 1 1 ;;
     md <- sget d ;;
     for_ 0 (sm_rows m) (fun i => for_ 0 (sm_cols m) (fun j => body (sm_data md) q i j)) ;;;
     ret d) e s = Ret p' s'
    /\ new_picture s (sm_rows m) (sm_cols m) 1
         (fun i j _ => match pix s m i j 0, pix s m i j 1, pix s m i j 2 with
                       | Some a, Some b, Some c => Some (g a b c) | _, _, _ => None end) s' p'.
  Proof.
    intros Hb q0 n0 f0 P0. pose proof P0 as [D0 I0 HR HC _ N0 M0].
    set (R := sm_rows m) in *. set (C := sm_cols m) in *. rewrite H3 in *.
    apply (fill_picture e s p m R C 1 (fun dp i j => body dp q0 i j)
       (fun i j _ => let x k := f0 ((i * C + j) * 3 + k) mod 256 in g (x 0) (x 1) (x 2))); auto; try nia.
    - intros q n f P dd i j Hi Hj s1 k1 I1 Hne Ik. rewrite Z.mul_1_r in Ik.
      assert (q = q0) as -> by (destruct P; congruence).
      assert (f = f0 /\ n = n0) as [-> ->] by (destruct P as [_ I _ _ _ _ _]; unfold isb in *; split; congruence).
      specialize (Hb q0 n0 f0 P0 dd i j Hi Hj I1 Hne Ik). cbv zeta in Hb.
      intros h. destruct (Hb h) as (h' & X & A & B & Cc). exists h'. split; [exact X|].
      assert (IX : forall c, 0 <= c < 1 -> (i * C + j) * 1 + c = i * C + j) by (intros; lia).
      assert (AP : forall v, at_pos C 1 v (i * C + j) = v i j 0).
      { intros v. replace (i * C + j) with ((i * C + j) * 1 + 0) by lia. apply at_pos_eq; lia. }
      split; [|split].
      + intros x (c & Hc & ->). rewrite IX by auto. rewrite AP. now apply A.
      + intros x. destruct (Z.eq_dec x (i * C + j)) as [-> | Hx].
        * left. rewrite AP. now apply A.
        * right. now apply Cc.
      + intros x Hx. apply Cc. intros ->. apply Hx. exists 0. lia.
    - intros i j k Hi Hj Hk. rewrite !(pix_val _ _ _ _ _ _ _ _ P0) by (unfold in_image; fold R C; lia).
      fold C. rewrite H3. reflexivity.
  Qed.

  Lemma idx3 R C i j k : 0 <= i < R -> 0 <= j < C -> 0 <= k < 3 -> R * C * 3 <= 2147483647 ->
    (i * C * 3 + j * 3 + k)%C = Some ((i * C + j) * 3 + k).
  Proof. intros. now apply (idx_c R C 3). Qed.

  Lemma rgb2gray_max : exists p' s', sm_rgb2gray p 1 e s = Ret p' s'
    /\ new_picture s (sm_rows m) (sm_cols m) 1
         (fun i j _ => match pix s m i j 0, pix s m i j 1, pix s m i j 2 with
                       | Some a, Some b, Some c => Some (Z.max a (Z.max b c)) | _, _, _ => None end) s' p'.
  Proof.
    unfold sm_rgb2gray. runs (sget_ok _ _ e _ (im_hdr _ _ _ _ IM)). rewrite bind_assert by lia.
    change (1 =? 1) with true. cbv iota.
    destruct (image_pixels s p m IM) as (q0 & n0 & f0 & P0).
    destruct (gray_fill (fun dp q i j =>
        tmp <- forS 0 3 (fun k tmp =>
          x <- ev (i * sm_cols m * 3 + j * 3 + k)%C ;;
          v <- load8 (Some q) x ;;
          ret (gray_max_step tmp v)) (fl_of_Z 0) ;;
        d <- ev (i * sm_cols m + j)%C ;;
        z <- ev (int_of_sf tmp) ;;
        store8 dp d z) (fun a b c => Z.max a (Z.max b c))) with (q := q0) (n := n0) (f := f0) as (p' & s' & X & Y); auto.
    - intros q n f [D I HR HC _ N Mx] dd i j Hi Hj s1 k1 I1 Hne Ik. rewrite H3 in *.
      set (R := sm_rows m) in *. set (C := sm_cols m) in *.
      assert (IX : 0 <= i * C + j < R * C) by (clear -Hi Hj; nia).
      assert (IR : 0 < R * C) by lia.
      eapply wr_bind.
      { apply rdv_forS with (g := fun k t => gray_max_step t (f ((i * C + j) * 3 + k) mod 256)).
        intros k y Hk. eapply rdv_bind; [apply rdv_ev; apply (idx3 R C); auto; lia|].
        eapply rdv_bind; [eapply rdv_load8; [exact Hne|exact I1|lia]|]. apply rdv_ret. }
      eapply wr_bind; [apply rdv_ev; apply (idx2_c R C); auto; lia|].
      change (foldZ 0 3 ?g ?x) with (g 2 (g 1 (g 0 x))). cbv beta.
      rewrite !max_step_ok by lia. rewrite int_fl by lia.
      eapply wr_bind; [apply rdv_ev; reflexivity|].
      eapply wr_store8; [exact Ik|lia|]. rewrite Z.mod_small by lia. cbv beta zeta. lia.
    - exists p', s'. split; [|exact Y]. rewrite <- X. pose proof (px_data _ _ _ _ _ P0) as ->. reflexivity.
  Qed.

  Lemma rgb2gray_average method : method <> 1 -> method <> 2 -> exists p' s', sm_rgb2gray p method e s = Ret p' s'
    /\ new_picture s (sm_rows m) (sm_cols m) 1
         (fun i j _ => match pix s m i j 0, pix s m i j 1, pix s m i j 2 with
                       | Some a, Some b, Some c => Some (nearest (a + b + c) 3) | _, _, _ => None end) s' p'.
  Proof.
    intros M1 M2. unfold sm_rgb2gray. runs (sget_ok _ _ e _ (im_hdr _ _ _ _ IM)). rewrite bind_assert by lia.
    replace (method =? 1) with false by lia. replace (method =? 2) with false by lia. cbv iota.
    destruct (image_pixels s p m IM) as (q0 & n0 & f0 & P0).
    destruct (gray_fill (fun dp q i j =>
        tmp <- forS 0 3 (fun k tmp =>
          x <- ev (i * sm_cols m * 3 + j * 3 + k)%C ;;
          v <- load8 (Some q) x ;;
          ret (fl_add tmp (fl_of_Z v))) (fl_of_Z 0) ;;
        d <- ev (i * sm_cols m + j)%C ;;
        z <- ev (int_of_sf (gray_average tmp)) ;;
        store8 dp d z) (fun a b c => nearest (a + b + c) 3)) with (q := q0) (n := n0) (f := f0) as (p' & s' & X & Y); auto.
    - intros q n f [D I HR HC _ N Mx] dd i j Hi Hj s1 k1 I1 Hne Ik. rewrite H3 in *.
      set (R := sm_rows m) in *. set (C := sm_cols m) in *.
      assert (IX : 0 <= i * C + j < R * C) by (clear -Hi Hj; nia).
      assert (IR : 0 < R * C) by lia.
      eapply wr_bind.
      { apply rdv_forS with (g := fun k t => fl_add t (fl_of_Z (f ((i * C + j) * 3 + k) mod 256))).
        intros k y Hk. eapply rdv_bind; [apply rdv_ev; apply (idx3 R C); auto; lia|].
        eapply rdv_bind; [eapply rdv_load8; [exact Hne|exact I1|lia]|]. apply rdv_ret. }
      eapply wr_bind; [apply rdv_ev; apply (idx2_c R C); auto; lia|].
      change (foldZ 0 3 ?g ?x) with (g 2 (g 1 (g 0 x))). cbv beta.
      rewrite !sum_step_ok by lia. rewrite average_ok by lia.
      eapply wr_bind; [apply rdv_ev; reflexivity|].
      eapply wr_store8; [exact Ik|lia|]. cbv beta zeta. rewrite Z.add_0_l. apply Z.mod_small. unfold nearest. lia.
    - exists p', s'. split; [|exact Y]. rewrite <- X. pose proof (px_data _ _ _ _ _ P0) as ->. reflexivity.
  Qed.
End Gray.

(** Grey-valued colour images: maximum and average give the grey value back. *)
Lemma nearest_grey a : nearest (a + a + a) 3 = a.
Proof. unfold nearest. lia. Qed.

Lemma rgb2gray_grey e s p m method : env_ok e -> heap_ok s -> image s p m 1 -> sm_chan m = 3 ->
  (forall i j, 0 <= i < sm_rows m -> 0 <= j < sm_cols m ->
     pix s m i j 1 = pix s m i j 0 /\ pix s m i j 2 = pix s m i j 0) ->
  method <> 2 ->
  exists p' s', sm_rgb2gray p method e s = Ret p' s'
    /\ new_picture s (sm_rows m) (sm_cols m) 1 (fun i j _ => pix s m i j 0) s' p'.
Proof.
  intros He Hs IM H3 Hg Hm.
  destruct (Z.eq_dec method 1) as [-> | H1].
  - destruct (rgb2gray_max e s p m He Hs IM H3) as (p' & s' & X & m' & I & A & B & C & D & E & F).
    exists p', s'. split; auto. exists m'. repeat (split; auto). intros i j k Hin. rewrite E by auto.
    destruct Hin as (Hi & Hj & Hk). destruct (Hg i j ltac:(lia) ltac:(lia)) as [-> ->].
    destruct (pix s m i j 0); auto. f_equal. lia.
  - destruct (rgb2gray_average e s p m He Hs IM H3 method H1 Hm) as (p' & s' & X & m' & I & A & B & C & D & E & F).
    exists p', s'. split; auto. exists m'. repeat (split; auto). intros i j k Hin. rewrite E by auto.
    destruct Hin as (Hi & Hj & Hk). destruct (Hg i j ltac:(lia) ltac:(lia)) as [-> ->].
    destruct (pix s m i j 0); auto. f_equal. apply nearest_grey.
Qed.

(** ** C32 *)

Lemma bgr2rgb_run e s p d ms md : image s p ms 1 -> image s d md 1 ->
  sm_rows ms = sm_rows md -> sm_cols ms = sm_cols md -> sm_chan ms = 3 -> sm_chan md = 3 ->
  sm_data ms <> sm_data md ->
  exists s', sm_bgr2rgb p d e s = Ret tt s' /\ channels_swapped s ms s' md
    /\ (forall x, ~ 0 <= x < sm_rows md * sm_cols md * 3 -> byte_at s' (sm_data md) x = byte_at s (sm_data md) x)
    /\ only_written (sm_data md) s s' /\ image s' p ms 1 /\ image s' d md 1.
Proof.
  intros Ip Id ER EC E3 E3' Hne.
  destruct (image_pixels _ _ _ Ip) as (ps & ns & fs & Ps). destruct (image_pixels _ _ _ Id) as (pd & nd & fd & Pd).
  pose proof Ps as [Ds Is HR HC _ Ns Ms]. pose proof Pd as [Dd Ib HR' HC' _ Nd Md].
  rewrite E3 in Ns, Ms. rewrite E3' in Nd, Md. rewrite ER, EC in *.
  set (R := sm_rows md) in *. set (C := sm_cols md) in *.
  assert (Hpd : ps <> pd) by (intros E; apply Hne; rewrite Ds, Dd; congruence).
  unfold sm_bgr2rgb.
  pose proof (im_hdr _ _ _ _ Ip) as Hp. pose proof (im_hdr _ _ _ _ Id) as Hd.
  destruct (sm_nonnull _ _ _ Hp) as (k1 & E1). destruct (sm_nonnull _ _ _ Hd) as (k2 & E2).
  rewrite bind_assert by (rewrite E1, E2; reflexivity).
  runs (sget_ok _ _ e _ Hp). rewrite bind_assert by (rewrite (proj1 (type_one _) (im_type _ _ _ _ Ip)); reflexivity).
  runs (sget_ok _ _ e _ Hd). rewrite ER, EC, E3, E3'. rewrite bind_assert by (rewrite !Z.eqb_refl; reflexivity).
  rewrite bind_assert by reflexivity. fold R C.
  match goal with |- exists f, ?m e s = _ /\ _ => assert (W : wr e s pd m (fun x => 0 <= x < R * C * 3)
    (at_pos C 3 (fun i j k => fs ((i * C + j) * 3 + (2 - k)) mod 256))) end.
  { apply wr_grid; auto; try lia. intros i j Hi Hj.
    assert (IX : 0 <= i * C + j < R * C) by (clear -Hi Hj; nia).
    eapply wr_iff; [apply wr_for with (P := fun t y => exists k, 0 <= k < 3 /\ y = (i * C + j) * 3 + k)|].
    - intros t Ht.
      assert (A0 : (i * C * 3 + j * 3)%C = Some ((i * C + j) * 3)).
      { pose proof (idx3 R C i j 0 Hi Hj ltac:(lia) ltac:(lia)) as X. unfold ci in *.
        rewrite (cmul_ok i C), (cmul_ok (i * C) 3), (cmul_ok j 3) by nia. rewrite cadd_ok by nia. f_equal. ring. }
      eapply wr_bind; [apply rdv_ev; exact A0|].
      eapply wr_bind; [apply rdv_ev; apply (idx3 R C i j 1); auto; lia|].
      eapply wr_bind; [apply rdv_ev; apply (idx3 R C i j 2); auto; lia|].
      rewrite Ds, Dd.
      assert (LD : forall k, 0 <= k < 3 -> rdv e s pd (load8 (Some ps) ((i * C + j) * 3 + k)) (fs ((i * C + j) * 3 + k) mod 256)).
      { intros k Hk. eapply rdv_load8; [exact Hpd|exact Is|lia]. }
      assert (ST : forall k, 0 <= k < 3 -> wr e s pd (store8 (Some pd) ((i * C + j) * 3 + k) (fs ((i * C + j) * 3 + (2 - k)) mod 256))
                (fun x => x = (i * C + j) * 3 + k) (at_pos C 3 (fun i j k => fs ((i * C + j) * 3 + (2 - k)) mod 256))).
      { intros k Hk. eapply wr_store8; [exact Ib|lia|]. rewrite at_pos_eq by auto. now rewrite Z.mod_mod by lia. }
      eapply wr_iff.
      + eapply wr_bind; [apply (LD 2); lia|]. eapply wr_seq.
        { replace ((i * C + j) * 3) with ((i * C + j) * 3 + 0) at 1 by lia. apply (ST 0). lia. }
        eapply wr_bind; [apply (LD 1); lia|]. eapply wr_seq; [apply (ST 1); lia|].
        eapply wr_bind; [replace ((i * C + j) * 3) with ((i * C + j) * 3 + 0) at 1 by lia; apply (LD 0); lia|]. apply (ST 2). lia.
      + intros x. cbv beta. split.
        * intros [-> | [-> | ->]]; [exists 0|exists 1|exists 2]; lia.
        * intros (k & Hk & ->). lia.
    - intros x. cbv beta. split; [intros (t & _ & X); exact X|]. intros X. exists 0. split; [lia|exact X]. }
  destruct (wr_run _ _ _ _ _ _ _ _ Ib W) as (f & X & A & B).
  exists (putd s pd f). split; [exact X|].
  assert (Wr : written s (sm_data md) (putd s pd f)) by (rewrite Dd; eapply written_putd; eauto).
  split; [|split; [|split; [|split; eapply written_image; eauto]]].
  - intros i j k Hin.
    assert (P' : pixels (putd s pd f) md pd nd f).
    { destruct Pd; constructor; auto. eapply isb_putd_eq; eauto. }
    assert (Hin' : in_image md i j k) by (unfold in_image in *; rewrite ER, EC, E3 in Hin; rewrite E3'; auto).
    rewrite (pix_val _ _ _ _ _ _ _ _ P' Hin'). destruct Hin as (Hi & Hj & Hk). rewrite ER in Hi. rewrite EC in Hj. rewrite E3 in Hk.
    rewrite (pix_val _ _ _ _ _ i j (2 - k) Ps) by (unfold in_image; rewrite ER, EC, E3; fold R C; lia).
    rewrite E3, E3', EC. fold C. f_equal. rewrite A by (apply pix_index; auto). now rewrite at_pos_eq by auto.
  - intros x Hx. rewrite Dd, (byte_at_putd_eq _ _ _ _ _ _ Ib), (byte_at_isb_all _ _ _ _ _ Ib). now rewrite B.
  - rewrite Dd. apply only_written_putd.
Qed.

Lemma bgr2rgb_twice e s p d ms md : image s p ms 1 -> image s d md 1 ->
  sm_rows ms = sm_rows md -> sm_cols ms = sm_cols md -> sm_chan ms = 3 -> sm_chan md = 3 ->
  sm_data ms <> sm_data md ->
  exists s', (sm_bgr2rgb p d ;;; sm_bgr2rgb d p) e s = Ret tt s'
    /\ forall i j k, in_image ms i j k -> pix s' ms i j k = pix s ms i j k.
Proof.
  intros Ip Id ER EC E3 E3' Hne.
  destruct (bgr2rgb_run e s p d ms md Ip Id ER EC E3 E3' Hne) as (s1 & X1 & S1 & _ & _ & Ip1 & Id1).
  destruct (bgr2rgb_run e s1 d p md ms Id1 Ip1) as (s2 & X2 & S2 & _); auto; try congruence.
  exists s2. split; [rewrite (bind_ret _ _ _ _ _ _ X1); exact X2|].
  intros i j k Hin. assert (Hin' : in_image md i j k) by (unfold in_image in *; rewrite <- ER, <- EC, E3' in *; rewrite E3 in Hin; auto).
  rewrite (S2 i j k Hin'). rewrite S1 by (unfold in_image in *; lia). f_equal. lia.
Qed.
