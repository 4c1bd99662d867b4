(** * Proofs: mirroring. *)
From Verif Require Import Base Logic ModelCore ModelPixel SpecBase SpecCore SpecImage SpecImage2 SpecPixel ProofCore ProofLayout ProofHM ProofCopy ProofCore2 ProofImage3 ProofImage4 ProofPixel.
From Coq Require Import String ZifyBool ZifyNat.
Ltac Zify.zify_post_hook ::= Z.div_mod_to_equations.
Open Scope Z_scope.

(** ** A temporary matrix: created, used, released. *)

Definition deadsm (e : env) (s : st) (R C ty es ch : Z) (dd : Z -> Z) : st :=
  let k := List.length (objs s) in
  mkSt (objs s ++
     [ mkObj (e_addr e k) (32 + (R * C * es * ch + 64)) k false
         (CSM (mkSM R C ty ch es (Some (k + 1)%nat)));
       mkObj (align64 (e_addr e k + 32)) (R * C * es * ch) k false (CBytes dd) ]) (files s).

Lemma map_kill_old s k : heap_ok s -> (List.length (objs s) <= k)%nat -> map (kill_root k) (objs s) = objs s.
Proof.
  intros H Hk. rewrite <- (map_id (objs s)) at 2. apply map_ext_in. intros o Ho.
  apply In_nth_error in Ho as (i & Hi). apply kill_other. pose proof (H _ _ Hi). lia.
Qed.

Lemma newsm_nth0 e s R C ty es ch dd : nth_error (objs (newsm e s R C ty es ch dd)) (List.length (objs s)) =
  Some (mkObj (e_addr e (List.length (objs s))) (32 + (R * C * es * ch + 64)) (List.length (objs s)) true
         (CSM (newsm_hdr s R C ty es ch))).
Proof. unfold newsm; cbn [objs]. now rewrite (nth_error_app_new0 (objs s)). Qed.
Lemma newsm_nth1 e s R C ty es ch dd : nth_error (objs (newsm e s R C ty es ch dd)) (List.length (objs s) + 1) =
  Some (mkObj (align64 (e_addr e (List.length (objs s)) + 32)) (R * C * es * ch) (List.length (objs s)) true (CBytes dd)).
Proof. unfold newsm; cbn [objs]. now rewrite (nth_error_app_new (objs s)). Qed.

Lemma newsm_delete e s R C ty es ch dd : env_ok e -> heap_ok s ->
  e_addr e (List.length (objs s)) mod 64 <> 48 ->
  delete_simple_mat (Some (List.length (objs s))) e (newsm e s R C ty es ch dd) = Ret tt (deadsm e s R C ty es ch dd).
Proof.
  intros He Hs Hx. set (k := List.length (objs s)) in *.
  assert (A1 := align64_spec (e_addr e k + 32)). destruct (He k) as [_ H16].
  unfold delete_simple_mat. cbn [nonnull]. runs (sget_ok _ _ e _ (newsm_at e s R C ty es ch dd)).
  erewrite bind_ret; [|apply addr_of_ok, newsm_nth0].
  cbn [newsm_hdr sm_data].
  erewrite bind_ret; [|apply addr_of_ok, newsm_nth1].
  cbn [o_addr]. fold k.
  replace (e_addr e k + 64 >=? align64 (e_addr e k + 32)) with true by lia.
  erewrite free_ok; [|apply newsm_nth0|reflexivity|reflexivity].
  f_equal. unfold newsm, deadsm. cbn [objs files]. f_equal. rewrite map_app. fold k. f_equal.
  - apply map_kill_old; auto.
  - cbn [map]. unfold kill_root. cbn [o_root]. rewrite Nat.eqb_refl. reflexivity.
Qed.

Lemma newsm_delete_ub e s R C ty es ch dd : env_ok e -> heap_ok s -> 0 < R * C * es * ch ->
  e_addr e (List.length (objs s)) mod 64 = 48 ->
  delete_simple_mat (Some (List.length (objs s))) e (newsm e s R C ty es ch dd) = UB.
Proof.
  intros He Hs HN Hx. destruct (fresh_owns _ _ _ _ _ _ _ _ (newsm_fresh e s R C ty es ch dd He Hs HN)) as (m & O).
  eapply delete_own_ub; eauto.
  { apply newsm_nth0. } exact Hx.
Qed.

Lemma deadsm_old e s R C ty es ch dd : old_unchanged s (deadsm e s R C ty es ch dd).
Proof. intros i Hi. unfold deadsm; cbn [objs]. now rewrite nth_error_app1. Qed.
Lemma deadsm_heap_ok e s R C ty es ch dd : heap_ok s -> heap_ok (deadsm e s R C ty es ch dd).
Proof. intros H. unfold deadsm. eapply heap_ok_app; eauto. repeat constructor; cbn; lia. Qed.
Lemma deadsm_dead e s R C ty es ch dd i o : (List.length (objs s) <= i)%nat ->
  nth_error (objs (deadsm e s R C ty es ch dd)) i = Some o -> o_live o = false.
Proof.
  intros Hi. unfold deadsm; cbn [objs]. rewrite nth_error_app2 by auto.
  destruct (i - List.length (objs s))%nat as [|[|n]]; cbn; [intros [= <-]; reflexivity|intros [= <-]; reflexivity|].
  destruct n; discriminate.
Qed.

Lemma putd_length s q f : List.length (objs (putd s q f)) = List.length (objs s).
Proof. unfold putd. cbn. apply lupd_length. Qed.

Lemma lupd_app1 {A} (l l' : list A) q g : (q < List.length l)%nat -> lupd q g (l ++ l') = lupd q g l ++ l'.
Proof. revert q. induction l as [|a l IH]; intros [|q] H; cbn in *; try lia; auto. now rewrite IH by lia. Qed.

(** Writing an old array commutes with creating a matrix. *)
Lemma putd_newsm e s R C ty es ch dd q f : (q < List.length (objs s))%nat ->
  putd (newsm e s R C ty es ch dd) q f = newsm e (putd s q f) R C ty es ch dd.
Proof.
  intros H. unfold newsm. rewrite putd_length. unfold putd. cbn [objs files]. now rewrite lupd_app1.
Qed.

(** ** One direction *)

Section Flip.
  Variables (e : env) (s : st) (p d : ptr) (ms md : smat) (ps pd : nat) (ns nd : Z) (fs fd : Z -> Z).
  Hypothesis Hp : sm_at s p = Some ms. Hypothesis Hd : sm_at s d = Some md.
  Hypothesis Ps : pixels s ms ps ns fs. Hypothesis Pd : pixels s md pd nd fd.
  Hypothesis ER : sm_rows ms = sm_rows md. Hypothesis EC : sm_cols ms = sm_cols md.
  Hypothesis Ech : sm_chan ms = sm_chan md. Hypothesis Hne : ps <> pd.
  Let R := sm_rows md. Let C := sm_cols md. Let ch := sm_chan md.

  Definition flip_res (fi fj : Z -> Z) (f : Z -> Z) : Prop :=
    (forall i j k, 0 <= i < R -> 0 <= j < C -> 0 <= k < ch ->
       f ((i * C + j) * ch + k) mod 256 = fs ((fi i * C + fj j) * ch + k) mod 256)
    /\ (forall x, ~ 0 <= x < R * C * ch -> f x = fd x).

  Lemma flip_h_run : exists f, simple_mat_flip_horizontal p d e s = Ret tt (putd s pd f)
    /\ flip_res (fun i => i) (fun j => C - 1 - j) f.
  Proof.
    destruct Ps as [Ds Is HR HC Hch Ns Ms]. destruct Pd as [Dd Id HR' HC' Hch' Nd Md].
    rewrite ER in HR, Ns, Ms. rewrite EC in HC, Ns, Ms. rewrite Ech in Hch, Ns, Ms.
    fold R C ch in HR, HC, Hch, Ns, Ms, HR', HC', Hch', Nd, Md.
    unfold simple_mat_flip_horizontal.
    destruct (sm_nonnull _ _ _ Hp) as (k1 & E1). destruct (sm_nonnull _ _ _ Hd) as (k2 & E2).
    rewrite bind_assert by (rewrite E1, E2; reflexivity).
    runs (sget_ok _ _ e _ Hp). runs (sget_ok _ _ e _ Hd). rewrite ER, EC, Ech. fold R C ch.
    rewrite bind_assert by (rewrite !Z.eqb_refl; reflexivity).
    match goal with |- exists f, ?m e s = _ /\ _ => assert (W : wr e s pd m (fun x => 0 <= x < R * C * ch)
      (at_pos C ch (fun i j k => fs ((i * C + (C - 1 - j)) * ch + k) mod 256))) end.
    { apply wr_grid; auto. intros i j Hi Hj.
      eapply wr_iff; [apply wr_for with (P := fun k y => y = (i * C + j) * ch + k)|intros y; reflexivity].
      intros k Hk. eapply wr_bind; [apply rdv_ev; apply (idx_c R C ch i j k); auto; lia|].
      assert (Hj' : 0 <= C - 1 - j < C) by lia.
      eapply wr_bind.
      { apply rdv_ev. unfold ci at 5 6. assert (CM : C + 96 <= 2147483647) by (clear -HR HC Hch Ms; assert (0 < R * C) by nia; nia).
        transitivity (i * C * ch + ci (C - 1 - j) * ch + k)%C; [|apply (idx_c R C ch i (C - 1 - j) k); auto; lia].
        do 2 f_equal. f_equal. unfold ci. rewrite (csub_ok C 1) by lia. apply csub_ok. lia. }
      pose proof (pix_index R C ch i _ k Hi Hj' Hk). rewrite Ds.
      eapply wr_bind; [eapply rdv_load8; [exact Hne|exact Is|lia]|]. rewrite Dd.
      eapply wr_store8; [exact Id|pose proof (pix_index R C ch i j k Hi Hj Hk); lia|].
      rewrite at_pos_eq by auto. now rewrite Z.mod_mod by lia. }
    destruct (wr_run _ _ _ _ _ _ _ _ Id W) as (f & X & A & B).
    exists f. split; [exact X|]. split; [|exact B].
    intros i j k Hi Hj Hk. rewrite A by now apply pix_index. now rewrite at_pos_eq.
  Qed.

  Lemma flip_v_run : exists f, simple_mat_flip_vertical p d e s = Ret tt (putd s pd f)
    /\ flip_res (fun i => R - 1 - i) (fun j => j) f.
  Proof.
    destruct Ps as [Ds Is HR HC Hch Ns Ms]. destruct Pd as [Dd Id HR' HC' Hch' Nd Md].
    rewrite ER in HR, Ns, Ms. rewrite EC in HC, Ns, Ms. rewrite Ech in Hch, Ns, Ms.
    fold R C ch in HR, HC, Hch, Ns, Ms, HR', HC', Hch', Nd, Md.
    unfold simple_mat_flip_vertical.
    destruct (sm_nonnull _ _ _ Hp) as (k1 & E1). destruct (sm_nonnull _ _ _ Hd) as (k2 & E2).
    rewrite bind_assert by (rewrite E1, E2; reflexivity).
    runs (sget_ok _ _ e _ Hp). runs (sget_ok _ _ e _ Hd). rewrite ER, EC, Ech. fold R C ch.
    rewrite bind_assert by (rewrite !Z.eqb_refl; reflexivity).
    assert (RC : 0 < C * ch /\ R * (C * ch) = R * C * ch /\ C * ch <= R * C * ch /\ R + 96 <= 2147483647 /\ C <= C * ch)
      by (clear -HR HC Hch Ms; assert (0 < C * ch) by nia; nia).
    destruct RC as (RC0 & RC1 & RC2 & RC3 & RC4).
    match goal with |- exists f, ?m e s = _ /\ _ => assert (W : wr e s pd m (fun x => 0 <= x < R * C * ch)
      (fun x => fs ((R - 1 - x / (C * ch)) * (C * ch) + x mod (C * ch)) mod 256)) end.
    { eapply wr_iff; [apply wr_for with (P := fun i x => i * (C * ch) <= x < (i + 1) * (C * ch))|].
      - intros i Hi. eapply wr_bind; [apply rdv_ev; apply cmul_ok; lia|].
        assert (HI : 0 <= i * C /\ i * C * ch + C * ch <= R * C * ch /\ i * C <= i * C * ch /\ i * (C * ch) = i * C * ch).
        { clear -Hi HC Hch. assert (0 <= i * C) by nia. nia. }
        assert (HI' : 0 <= (R - 1 - i) * C /\ (R - 1 - i) * C * ch + C * ch <= R * C * ch /\ (R - 1 - i) * C <= (R - 1 - i) * C * ch
                /\ (R - 1 - i) * (C * ch) = (R - 1 - i) * C * ch).
        { clear -Hi HC Hch. assert (0 <= (R - 1 - i) * C) by nia. nia. }
        eapply wr_iff; [apply wr_for with (P := fun t x => x = i * C * ch + t)|].
        + intros t Ht.
          eapply wr_bind. { apply rdv_ev. unfold ci. rewrite (cmul_ok i C), (cmul_ok (i * C) ch) by lia. apply cadd_ok. lia. }
          eapply wr_bind. { apply rdv_ev. unfold ci. rewrite (csub_ok R 1), (csub_ok (R - 1) i) by lia.
            rewrite (cmul_ok (R - 1 - i) C), (cmul_ok ((R - 1 - i) * C) ch) by lia. apply cadd_ok. lia. }
          rewrite Ds. eapply wr_bind; [eapply rdv_load8; [exact Hne|exact Is|lia]|]. rewrite Dd.
          eapply wr_store8; [exact Id|lia|].
          replace (i * C * ch + t) with (i * (C * ch) + t) by lia. destruct (radix2 i t (C * ch) Ht) as [-> ->].
          rewrite Z.mod_mod by lia. do 2 f_equal. lia.
        + intros x. split; [intros (t & Ht & ->); lia|]. intros Hx. exists (x - i * C * ch). lia.
      - intros x. split.
        + intros (i & Hi & Hx). clear -Hi Hx RC0 RC1. nia.
        + intros Hx. exists (x / (C * ch)). pose proof (Z.div_mod x (C * ch) ltac:(lia)).
          pose proof (Z.mod_pos_bound x (C * ch) RC0). clear - Hx H H0 RC0 RC1. nia. }
    destruct (wr_run _ _ _ _ _ _ _ _ Id W) as (f & X & A & B).
    exists f. split; [exact X|]. split; [|exact B].
    intros i j k Hi Hj Hk. rewrite A by now apply pix_index.
    replace ((i * C + j) * ch + k) with (i * (C * ch) + (j * ch + k)) by ring.
    assert (Ht : 0 <= j * ch + k < C * ch) by (clear -Hj Hk; nia).
    destruct (radix2 i (j * ch + k) (C * ch) Ht) as [-> ->]. do 2 f_equal. ring.
  Qed.
End Flip.

(** ** All directions *)

Lemma flip_finish code s s' p d ms md ps ns fs pd nd fd f :
  heap_ok s' -> image s p ms 1 -> image s d md 1 ->
  pixels s ms ps ns fs -> pixels s md pd nd fd ->
  sm_rows ms = sm_rows md -> sm_cols ms = sm_cols md -> sm_chan ms = sm_chan md ->
  flip_res md fs fd (flip_row code (sm_rows md)) (flip_col code (sm_cols md)) f ->
  old_unchanged (putd s pd f) s' -> files s' = files s ->
  (forall i o, (List.length (objs s) <= i)%nat -> nth_error (objs s') i = Some o -> o_live o = false) ->
  flipped code s ms md s' /\ image s' p ms 1 /\ image s' d md 1 /\ heap_ok s'.
Proof.
  intros Hs' Ip Id Ps Pd ER EC Ech [F1 F2] HO HF HD.
  pose proof (px_isb _ _ _ _ _ Pd) as Ib. pose proof (px_data _ _ _ _ _ Pd) as Dd.
  assert (W : written s (sm_data md) (putd s pd f)) by (rewrite Dd; eapply written_putd; eauto).
  assert (Ib' : isb s' pd nd f).
  { unfold isb. rewrite (nth_bytes_at (putd s pd f)); [eapply isb_putd_eq; eauto|].
    apply HO. rewrite putd_length. eapply isb_lt; eauto. }
  split; [|split; [|split; [|auto]]].
  2:{ eapply image_old; [exact HO|]. eapply written_image; eauto. }
  2:{ eapply image_old; [exact HO|]. eapply written_image; eauto. }
  unfold flipped. split; [|split; [|split; [|auto]]].
  - intros i j k Hin.
    assert (Hin' : in_image md i j k) by (unfold in_image in *; rewrite ER, EC, Ech in Hin; auto).
    assert (P' : pixels s' md pd nd f) by (destruct Pd; constructor; auto).
    rewrite (pix_val _ _ _ _ _ _ _ _ P' Hin').
    assert (Hin2 : in_image ms (flip_row code (sm_rows ms) i) (flip_col code (sm_cols ms) j) k).
    { destruct Hin as (Hi & Hj & Hk). unfold in_image, flip_row, flip_col.
      split; [|split; auto]; match goal with |- context [if ?c then _ else _] => destruct c end; lia. }
    rewrite (pix_val _ _ _ _ _ _ _ _ Ps Hin2). f_equal. destruct Hin' as (Hi & Hj & Hk).
    rewrite F1 by auto. rewrite ER, EC, Ech. reflexivity.
  - intros x Hx. rewrite Dd, (byte_at_isb_all _ _ _ _ _ Ib'), (byte_at_isb_all _ _ _ _ _ Ib). now rewrite F2.
  - intros k Hk Hin. rewrite HO by (rewrite putd_length; auto). apply objs_putd_ne.
    intros ->. apply Hin. rewrite Dd. left. reflexivity.
Qed.

Lemma flip_ok e s p d ms md code : env_ok e -> heap_ok s -> image s p ms 1 -> image s d md 1 ->
  sm_rows ms = sm_rows md -> sm_cols ms = sm_cols md -> sm_chan ms = sm_chan md ->
  sm_data ms <> sm_data md ->
  (code = -1 -> e_addr e (List.length (objs s)) mod 64 <> 48) ->
  exists s', simple_mat_flip p d code e s = Ret tt s' /\ flipped code s ms md s'
    /\ image s' p ms 1 /\ image s' d md 1 /\ heap_ok s'.
Proof.
  intros He Hs Ip Id ER EC Ech Hne Ha.
  destruct (image_pixels _ _ _ Ip) as (ps & ns & fs & Ps). destruct (image_pixels _ _ _ Id) as (pd & nd & fd & Pd).
  pose proof (im_hdr _ _ _ _ Ip) as Hp. pose proof (im_hdr _ _ _ _ Id) as Hd.
  assert (Hpd : ps <> pd).
  { intros E. apply Hne. rewrite (px_data _ _ _ _ _ Ps), (px_data _ _ _ _ _ Pd). congruence. }
  unfold simple_mat_flip.
  destruct (sm_nonnull _ _ _ Hp) as (k1 & E1). destruct (sm_nonnull _ _ _ Hd) as (k2 & E2).
  rewrite bind_assert by (rewrite E1, E2; reflexivity).
  runs (sget_ok _ _ e _ Hp). runs (sget_ok _ _ e _ Hd). rewrite bind_assert by lia.
  assert (HX : forall f, heap_ok (putd s pd f) /\ old_unchanged (putd s pd f) (putd s pd f)
    /\ files (putd s pd f) = files s
    /\ (forall i o, (List.length (objs s) <= i)%nat -> nth_error (objs (putd s pd f)) i = Some o -> o_live o = false)).
  { intros f. split; [now apply heap_ok_putd|]. split; [intros k Hk; reflexivity|]. split; [reflexivity|].
    intros i o Hi Ho. apply nth_error_lt in Ho. rewrite putd_length in Ho. lia. }
  assert (HH : code <> 0 -> code <> -1 -> exists s', simple_mat_flip_horizontal p d e s = Ret tt s' /\ flipped code s ms md s'
    /\ image s' p ms 1 /\ image s' d md 1 /\ heap_ok s').
  { intros C0 C1. destruct (flip_h_run e s p d ms md ps pd ns nd fs fd Hp Hd Ps Pd ER EC Ech Hpd) as (f & X & Y).
    destruct (HX f) as (X1 & X2 & X3 & X4). exists (putd s pd f). split; auto.
    eapply (flip_finish code s _ p d ms md); eauto. destruct Y as [Y1 Y2]. split; auto.
    intros i j k Hi Hj Hk. rewrite Y1 by auto. unfold flip_row, flip_col.
    replace (code =? 0) with false by lia. replace (code =? -1) with false by lia. reflexivity. }
  destruct (code =? 1) eqn:Q1; [apply HH; lia|].
  destruct (code =? 0) eqn:Q0.
  { destruct (flip_v_run e s p d ms md ps pd ns nd fs fd Hp Hd Ps Pd ER EC Ech Hpd) as (f & X & Y).
    destruct (HX f) as (X1 & X2 & X3 & X4). exists (putd s pd f). split; auto.
    eapply (flip_finish code s _ p d ms md); eauto. destruct Y as [Y1 Y2]. split; auto.
    intros i j k Hi Hj Hk. rewrite Y1 by auto. unfold flip_row, flip_col. rewrite Q0. reflexivity. }
  destruct (code =? -1) eqn:Q2; [|apply HH; lia].
  destruct (copy_sm_run e s p ms 1 He Hs Ip) as (dd & X0 & _).
  set (k0 := List.length (objs s)) in *. set (R := sm_rows ms) in *. set (C := sm_cols ms) in *. set (ch := sm_chan ms) in *.
  set (ty := sm_type ms) in *.
  assert (PR : 0 < R /\ 0 < C /\ 0 < ch /\ R * C * ch + 96 <= 2147483647) by (destruct Ps; auto).
  destruct PR as (PR & PC & Pch & PM).
  runs X0.
  (* first pass: source to temporary *)
  pose proof (newsm_pixels e s R C ty ch dd PR PC Pch PM) as Pt. fold k0 in Pt.
  assert (Ps1 : forall g, pixels (newsm e s R C ty 1 ch g) ms ps ns fs)
    by (intros g; destruct Ps; constructor; auto; now apply newsm_old).
  assert (Hold : forall g, old_unchanged s (newsm e s R C ty 1 ch g)) by (intros g; apply newsm_old_unchanged).
  assert (Hp1 : sm_at (newsm e s R C ty 1 ch dd) p = Some ms) by apply (image_old _ _ _ _ _ (Hold dd) Ip).
  assert (Hnt : ps <> (k0 + 1)%nat) by (eapply isb_old_ne; apply Ps).
  destruct (flip_h_run e (newsm e s R C ty 1 ch dd) p (Some k0) ms (newsm_hdr s R C ty 1 ch) ps (k0 + 1) ns
              (R * C * ch) fs dd Hp1 (newsm_at e s R C ty 1 ch dd) (Ps1 dd) Pt) as (f2 & X2 & Y2a & Y2b); auto.
  runs X2. unfold k0 at 2. rewrite newsm_putd. fold k0.
  (* second pass: temporary to destination *)
  pose proof (newsm_pixels e s R C ty ch f2 PR PC Pch PM) as Pt2. fold k0 in Pt2.
  assert (Pd2 : pixels (newsm e s R C ty 1 ch f2) md pd nd fd) by (destruct Pd; constructor; auto; now apply newsm_old).
  assert (Hd2 : sm_at (newsm e s R C ty 1 ch f2) d = Some md) by apply (image_old _ _ _ _ _ (Hold f2) Id).
  assert (Hnt2 : (k0 + 1)%nat <> pd) by (intros E; symmetry in E; revert E; eapply isb_old_ne; apply Pd).
  destruct (flip_v_run e (newsm e s R C ty 1 ch f2) (Some k0) d (newsm_hdr s R C ty 1 ch) md (k0 + 1) pd
              (R * C * ch) nd f2 fd (newsm_at e s R C ty 1 ch f2) Hd2 Pt2 Pd2) as (f3 & X3 & Y3a & Y3b); auto.
  runs X3. rewrite putd_newsm by (eapply isb_lt; apply Pd).
  pose proof (newsm_delete e (putd s pd f3) R C ty 1 ch f2 He (heap_ok_putd _ _ _ Hs)) as X4.
  rewrite putd_length in X4. fold k0 in X4. rewrite X4 by (apply Ha; lia).
  eexists. split; [reflexivity|].
  eapply (flip_finish code s _ p d ms md); eauto.
  - apply deadsm_heap_ok. now apply heap_ok_putd.
  - split; [|exact Y3b]. intros i j k Hi Hj Hk. rewrite Y3a by auto.
    cbn [newsm_hdr sm_rows sm_cols sm_chan] in Y2a. fold R C ch in ER, EC, Ech.
    unfold flip_row, flip_col. rewrite Q0, Q2. cbn [orb].
    rewrite <- ER, <- EC, <- Ech in *. apply Y2a; auto; lia.
  - apply deadsm_old.
  - intros i o Hi Ho. eapply deadsm_dead; [|exact Ho]. rewrite putd_length. exact Hi.
Qed.

(** ** Twice, and both ways *)

Lemma flip_row_twice code R i : flip_row code R (flip_row code R i) = i.
Proof. unfold flip_row. destruct (_ || _); lia. Qed.
Lemma flip_col_twice code C j : flip_col code C (flip_col code C j) = j.
Proof. unfold flip_col. destruct (_ =? _); lia. Qed.

Lemma flip_in code m i j k : in_image m i j k -> in_image m (flip_row code (sm_rows m) i) (flip_col code (sm_cols m) j) k.
Proof.
  intros (Hi & Hj & Hk). unfold in_image, flip_row, flip_col.
  split; [|split; auto]; match goal with |- context [if ?c then _ else _] => destruct c end; lia.
Qed.

Lemma unch_pix s s' m d : unchanged_except [d] s s' -> readable s (sm_data m) 0 -> sm_data m <> d ->
  forall i j k, pix s' m i j k = pix s m i j k.
Proof.
  intros U Hr Hne i j k. apply readable_isb in Hr as (q & sz & f & E & I & _).
  unfold pix, pixel_byte. rewrite E. apply nth_byte_at. apply U; [eapply isb_lt; eauto|].
  intros [H|[]]. apply Hne. congruence.
Qed.

Lemma image_readable0 s p m es : image s p m es -> readable s (sm_data m) 0.
Proof.
  intros I. pose proof (image_pos _ _ _ _ I). destruct I as [_ _ _ _ _ _ D].
  apply readable_isb in D as (q & sz & f & E & I & N). rewrite E. eapply isb_readable; eauto. lia.
Qed.

(** Two passes in a row, through a middle image. *)
Lemma flip_two e s p d q ms md mq c1 c2 : env_ok e -> heap_ok s ->
  image s p ms 1 -> image s d md 1 -> image s q mq 1 ->
  sm_rows ms = sm_rows md -> sm_cols ms = sm_cols md -> sm_chan ms = sm_chan md ->
  sm_rows mq = sm_rows md -> sm_cols mq = sm_cols md -> sm_chan mq = sm_chan md ->
  sm_data ms <> sm_data md -> sm_data mq <> sm_data md ->
  (forall k, e_addr e k mod 64 <> 48) ->
  exists s', (simple_mat_flip p d c1 ;;; simple_mat_flip d q c2) e s = Ret tt s'
    /\ forall i j k, in_image ms i j k ->
         pix s' mq i j k = pix s ms (flip_row c1 (sm_rows ms) (flip_row c2 (sm_rows ms) i))
                                    (flip_col c1 (sm_cols ms) (flip_col c2 (sm_cols ms) j)) k.
Proof.
  intros He Hs Ip Id Iq ER EC Ech ER' EC' Ech' Hne Hne' Ha.
  destruct (flip_ok e s p d ms md c1 He Hs Ip Id ER EC Ech Hne (fun _ => Ha _)) as (s1 & X1 & F1 & Ip1 & Id1 & Hs1).
  assert (Iq1 : image s1 q mq 1).
  { destruct F1 as (_ & _ & U & _). pose proof (im_hdr _ _ _ _ Iq) as Hq. destruct (sm_nonnull _ _ _ Hq) as (kq & ->).
    destruct Iq as [Hh T R C Chh Sz D]. constructor; auto.
    - rewrite (nth_sm_at s); auto. apply sm_at_obj in Hh as (a & n & r & Hh). apply U; [eapply nth_error_lt; eauto|].
      intros [E|[]]. destruct Id as [_ _ _ _ _ _ Dd]. apply readable_isb in Dd as (x & sz & f & E' & I & _).
      apply isb_obj in I as (a' & r' & I). assert (x = kq) by congruence. subst. rewrite I in Hh. discriminate.
    - apply readable_isb in D as (x & sz & f & E' & I & N). rewrite E'. exists x, sz, f. repeat split; auto.
      rewrite (nth_bytes_at s); auto. apply U; [eapply isb_lt; eauto|]. intros [E|[]]. apply Hne'. congruence. }
  destruct (flip_ok e s1 d q md mq c2 He Hs1 Id1 Iq1) as (s2 & X2 & F2 & _); auto; try congruence.
  exists s2. split; [rewrite (bind_ret _ _ _ _ _ _ X1); exact X2|].
  intros i j k Hin. destruct F2 as (M2 & _). destruct F1 as (M1 & _).
  assert (Hin' : in_image md i j k) by (unfold in_image in *; rewrite ER, EC, Ech in Hin; auto).
  rewrite (M2 i j k Hin'). rewrite <- ER, <- EC.
  apply M1. rewrite ER, EC. apply (flip_in c2 md) in Hin'. unfold in_image in *. rewrite ER, EC, Ech. auto.
Qed.

(** ** What goes wrong *)

Lemma flip_both_ub e s p d ms md : env_ok e -> heap_ok s -> image s p ms 1 -> image s d md 1 ->
  sm_rows ms = sm_rows md -> sm_cols ms = sm_cols md -> sm_chan ms = sm_chan md ->
  sm_data ms <> sm_data md -> e_addr e (List.length (objs s)) mod 64 = 48 ->
  simple_mat_flip p d (-1) e s = UB.
Proof.
  intros He Hs Ip Id ER EC Ech Hne Ha.
  destruct (image_pixels _ _ _ Ip) as (ps & ns & fs & Ps). destruct (image_pixels _ _ _ Id) as (pd & nd & fd & Pd).
  pose proof (im_hdr _ _ _ _ Ip) as Hp. pose proof (im_hdr _ _ _ _ Id) as Hd.
  unfold simple_mat_flip.
  destruct (sm_nonnull _ _ _ Hp) as (k1 & E1). destruct (sm_nonnull _ _ _ Hd) as (k2 & E2).
  rewrite bind_assert by (rewrite E1, E2; reflexivity).
  runs (sget_ok _ _ e _ Hp). runs (sget_ok _ _ e _ Hd). rewrite bind_assert by lia.
  change (-1 =? 1) with false. change (-1 =? 0) with false. change (-1 =? -1) with true. cbv iota.
  destruct (copy_sm_run e s p ms 1 He Hs Ip) as (dd & X0 & _).
  set (k0 := List.length (objs s)) in *. set (R := sm_rows ms) in *. set (C := sm_cols ms) in *. set (ch := sm_chan ms) in *.
  set (ty := sm_type ms) in *.
  assert (PR : 0 < R /\ 0 < C /\ 0 < ch /\ R * C * ch + 96 <= 2147483647) by (destruct Ps; auto).
  destruct PR as (PR & PC & Pch & PM).
  runs X0.
  pose proof (newsm_pixels e s R C ty ch dd PR PC Pch PM) as Pt. fold k0 in Pt.
  assert (Ps1 : pixels (newsm e s R C ty 1 ch dd) ms ps ns fs)
    by (destruct Ps; constructor; auto; now apply newsm_old).
  assert (Hold : forall g, old_unchanged s (newsm e s R C ty 1 ch g)) by (intros g; apply newsm_old_unchanged).
  assert (Hp1 : sm_at (newsm e s R C ty 1 ch dd) p = Some ms) by apply (image_old _ _ _ _ _ (Hold dd) Ip).
  assert (Hnt : ps <> (k0 + 1)%nat) by (eapply isb_old_ne; apply Ps).
  destruct (flip_h_run e (newsm e s R C ty 1 ch dd) p (Some k0) ms (newsm_hdr s R C ty 1 ch) ps (k0 + 1) ns
              (R * C * ch) fs dd Hp1 (newsm_at e s R C ty 1 ch dd) Ps1 Pt) as (f2 & X2 & Y2a & Y2b); auto.
  runs X2. unfold k0 at 2. rewrite newsm_putd. fold k0.
  pose proof (newsm_pixels e s R C ty ch f2 PR PC Pch PM) as Pt2. fold k0 in Pt2.
  assert (Pd2 : pixels (newsm e s R C ty 1 ch f2) md pd nd fd) by (destruct Pd; constructor; auto; now apply newsm_old).
  assert (Hd2 : sm_at (newsm e s R C ty 1 ch f2) d = Some md) by apply (image_old _ _ _ _ _ (Hold f2) Id).
  assert (Hnt2 : (k0 + 1)%nat <> pd) by (intros E; symmetry in E; revert E; eapply isb_old_ne; apply Pd).
  destruct (flip_v_run e (newsm e s R C ty 1 ch f2) (Some k0) d (newsm_hdr s R C ty 1 ch) md (k0 + 1) pd
              (R * C * ch) nd f2 fd (newsm_at e s R C ty 1 ch f2) Hd2 Pt2 Pd2) as (f3 & X3 & Y3a & Y3b); auto.
  runs X3. rewrite putd_newsm by (eapply isb_lt; apply Pd).
  pose proof (newsm_delete_ub e (putd s pd f3) R C ty 1 ch f2 He (heap_ok_putd _ _ _ Hs)) as X4.
  rewrite putd_length in X4. fold k0 in X4. apply X4; auto. rewrite Z.mul_1_r. clear - PR PC Pch. assert (0 < R * C) by nia. nia.
Qed.

Lemma flip_twice e s p d ms md c : env_ok e -> heap_ok s -> image s p ms 1 -> image s d md 1 ->
  sm_rows ms = sm_rows md -> sm_cols ms = sm_cols md -> sm_chan ms = sm_chan md ->
  sm_data ms <> sm_data md -> (forall k, e_addr e k mod 64 <> 48) ->
  exists s', (simple_mat_flip p d c ;;; simple_mat_flip d p c) e s = Ret tt s'
    /\ forall i j k, in_image ms i j k -> pix s' ms i j k = pix s ms i j k.
Proof.
  intros He Hs Ip Id ER EC Ech Hne Ha.
  destruct (flip_two e s p d p ms md ms c c) as (s' & X & Y); auto.
  exists s'. split; auto. intros i j k Hin. rewrite Y by auto. now rewrite flip_row_twice, flip_col_twice.
Qed.

Lemma flip_both e s p d q ms md mq a b : env_ok e -> heap_ok s ->
  image s p ms 1 -> image s d md 1 -> image s q mq 1 ->
  sm_rows ms = sm_rows md -> sm_cols ms = sm_cols md -> sm_chan ms = sm_chan md ->
  sm_rows mq = sm_rows md -> sm_cols mq = sm_cols md -> sm_chan mq = sm_chan md ->
  sm_data ms <> sm_data md -> sm_data mq <> sm_data md -> sm_data ms <> sm_data mq ->
  (forall k, e_addr e k mod 64 <> 48) -> (a, b) = (1, 0) \/ (a, b) = (0, 1) ->
  exists s1 s2, (simple_mat_flip p d a ;;; simple_mat_flip d q b) e s = Ret tt s1
    /\ simple_mat_flip p q (-1) e s = Ret tt s2
    /\ forall i j k, in_image ms i j k -> pix s1 mq i j k = pix s2 mq i j k.
Proof.
  intros He Hs Ip Id Iq ER EC Ech ER' EC' Ech' Hne Hne' Hne2 Ha Hab.
  destruct (flip_two e s p d q ms md mq a b) as (s1 & X1 & Y1); auto.
  destruct (flip_ok e s p q ms mq (-1)) as (s2 & X2 & (Y2 & _) & _); auto; try congruence.
  exists s1, s2. split; auto. split; auto. intros i j k Hin. rewrite Y1, Y2 by auto.
  destruct Hab as [[= -> ->]|[= -> ->]]; reflexivity.
Qed.
