(** * Proofs: padding. *)
From Verif Require Import Base Logic ModelCore ModelBorder SpecBase SpecCore SpecImage SpecImage2 SpecPixel ProofCore ProofLayout ProofHM ProofCopy ProofCore2 ProofImage3 ProofImage4 ProofBorder ProofPixel.
From Coq Require Import String ZifyBool ZifyNat.
Ltac Zify.zify_post_hook ::= Z.div_mod_to_equations.
Open Scope Z_scope.

Lemma picture_padded s m top bottom left right v src s' p' :
  sm_type m = 1 ->
  new_picture s (sm_rows m + top + bottom) (sm_cols m + left + right) (sm_chan m)
    (fun i j k => match src i j with Some (i', j') => pix s m i' j' k | None => Some v end) s' p' ->
  padded s m top bottom left right v src s' p'.
Proof.
  intros ET (m' & I & HR & HC & HT & Hch & HV & F). exists m'. repeat (split; auto). congruence.
Qed.

Lemma copy_padded e s p m v src : env_ok e -> heap_ok s -> image s p m 1 ->
  (forall i j, 0 <= i < sm_rows m -> 0 <= j < sm_cols m -> src i j = Some (i, j)) ->
  exists p' s', simple_mat_copy p e s = Ret p' s' /\ padded s m 0 0 0 0 v src s' p'.
Proof.
  intros He Hs IM Hsrc. destruct (copy_sm_ok e s p m 1 He Hs IM) as (p' & s' & E & m' & I & HR & HC & HT & Hch & HV & F).
  exists p', s'. split; auto. exists m'. split; auto. do 4 (split; [lia|]). split; auto.
  intros i j k (Hi & Hj & Hk). rewrite Hsrc by lia. apply HV; [|lia]. unfold in_image. lia.
Qed.

Lemma pad_sizes R C ch R' C' : 0 < R -> 0 < C -> 0 < ch -> R <= R' -> C <= C' -> R' * C' * ch + 96 <= 2147483647 ->
  R' + 96 <= 2147483647 /\ C' + 96 <= 2147483647 /\ 0 < R' * C' * ch.
Proof.
  intros. assert (0 < R' * C') by nia. assert (R' * C' <= R' * C' * ch) by nia.
  assert (R' <= R' * C') by nia. assert (C' <= R' * C') by nia. lia.
Qed.

Section Pad.
  Variables (e : env) (s : st) (p : ptr) (m : smat) (top bottom left right v : Z).
  Hypothesis He : env_ok e. Hypothesis Hs : heap_ok s. Hypothesis IM : image s p m 1.
  Hypothesis Ht : 0 <= top. Hypothesis Hb : 0 <= bottom. Hypothesis Hl : 0 <= left. Hypothesis Hr : 0 <= right.
  Let R' := sm_rows m + top + bottom.
  Let C' := sm_cols m + left + right.
  Hypothesis Hn : R' * C' * sm_chan m + 96 <= 2147483647.

  Lemma pad_extend x : exists p' s',
    hypercv_copy_make_border p top bottom left right (mode_of x) v e s = Ret p' s'
    /\ padded s m top bottom left right v (extended x m top left) s' p'.
  Proof.
    unfold hypercv_copy_make_border. destruct (sm_nonnull _ _ _ (im_hdr _ _ _ _ IM)) as (kp & Ekp).
    assert (E1 : nonnull p = true) by (rewrite Ekp; reflexivity). rewrite bind_assert by exact E1.
    rewrite bind_assert by lia. rewrite bind_assert by (destruct x; reflexivity).
    destruct ((top =? 0) && (left =? 0) && (bottom =? 0) && (right =? 0)) eqn:E0.
    { assert (top = 0 /\ left = 0 /\ bottom = 0 /\ right = 0) as (-> & -> & -> & ->) by lia.
      apply (copy_padded e s p m v); auto. intros i j Hi Hj. unfold extended. now rewrite !Z.sub_0_r, !source_inside. }
    clear E0 E1. destruct (image_pixels s p m IM) as (q & n & f & P).
    pose proof (im_hdr _ _ _ _ IM) as Hh. pose proof (proj1 (type_one _) (im_type _ _ _ _ IM)) as ET.
    destruct P as [D Hq HR HC Hch N Mx].
    destruct (pad_sizes (sm_rows m) (sm_cols m) (sm_chan m) R' C') as (S1 & S2 & S3); auto; try lia.
    runs (sget_ok _ _ e _ Hh).
    erewrite bind_ret; [|apply ev_ok; unfold ci; rewrite (cadd_ok (sm_rows m)) by lia; apply cadd_ok; lia].
    erewrite bind_ret; [|apply ev_ok; unfold ci; rewrite (cadd_ok (sm_cols m)) by lia; apply cadd_ok; lia].
    fold R' C'. rewrite ET.
    set (src := fun i j => match extended x m top left i j with Some (a, b) => (a, b) | None => (0, 0) end).
    set (ch := sm_chan m) in *. set (R := sm_rows m) in *. set (C := sm_cols m) in *.
    set (val := fun i j k => f ((fst (src i j) * C + snd (src i j)) * ch + k) mod 256).
    set (k0 := List.length (objs s)).
    set (fill := for_ 0 R' (fun i => for_ 0 C' (fun j =>
          jl <- ev (j - left)%C ;;
          index_j <- hypercv_border_Interpolate jl C (mode_of x) ;;
          it <- ev (i - top)%C ;;
          index_i <- hypercv_border_Interpolate it R (mode_of x) ;;
          for_ 0 ch (fun k =>
            d <- ev (i * C' * ch + j * ch + k)%C ;;
            y <- ev (index_i * C * ch + index_j * ch + k)%C ;;
            w <- load8 (sm_data m) y ;;
            store8 (Some (k0 + 1)%nat) d w)))).
    destruct (create_fill e s R' C' ch fill (at_pos C' ch val)) as (dd & g & X1 & X2 & X3); auto; try lia.
    { intros dd. apply wr_grid; try lia. intros i j Hi Hj. fold k0.
      eapply wr_bind; [apply rdv_ev; apply csub_ok; lia|].
      assert (CJ : computable x C (j - left)) by (destruct x; unfold computable, INT_MIN, INT_MAX; lia).
      assert (CI : computable x R (i - top)) by (destruct x; unfold computable, INT_MIN, INT_MAX; lia).
      eapply wr_bind; [intros h; apply border_ok; auto; lia|].
      eapply wr_bind; [apply rdv_ev; apply csub_ok; lia|].
      eapply wr_bind; [intros h; apply border_ok; auto; lia|].
      pose proof (source_range x R (i - top) ltac:(lia)) as RI. pose proof (source_range x C (j - left) ltac:(lia)) as RJ.
      eapply wr_iff; [apply wr_for with (P := fun k y => y = (i * C' + j) * ch + k)|].
      - intros k Hk. eapply wr_bind; [apply rdv_ev; apply (idx_c R' C' ch i j k); auto; lia|].
        eapply wr_bind; [apply rdv_ev; apply (idx_c R C ch _ _ k); auto; lia|].
        pose proof (pix_index R C ch _ _ k RI RJ Hk). rewrite D.
        eapply wr_bind. { eapply rdv_load8; [|apply newsm_old; exact Hq|lia]. eapply isb_old_ne; eauto. }
        eapply wr_store8; [apply newsm_data|pose proof (pix_index R' C' ch i j k Hi Hj Hk); lia|].
        rewrite at_pos_eq by auto. unfold val, src, extended. cbn [fst snd]. fold R C.
        now rewrite Z.mod_mod by lia.
      - intros y. reflexivity. }
    runs X1. replace (mode_of x =? BORDER_CONSTANT) with false by (destruct x; reflexivity).
    runs (sget_ok _ _ e _ (newsm_at e s R' C' 1 1 ch dd)). cbn [newsm_hdr sm_rows sm_cols sm_chan sm_data]. fold k0.
    change (for_ 0 R' _) with fill. runs X2.
    do 2 eexists. split; [reflexivity|]. apply picture_padded; auto. fold ch R' C'.
    apply newsm_picture; auto; try lia. intros i j k Hi Hj Hk.
    rewrite X3 by now apply pix_index. rewrite at_pos_eq by auto. unfold extended, val, src. cbn [fst snd].
    fold R C.
    rewrite (pix_val s m q n f); [reflexivity|constructor; auto|].
    unfold extended. cbn [fst snd]. unfold in_image. fold R C ch.
    pose proof (source_range x R (i - top) ltac:(lia)). pose proof (source_range x C (j - left) ltac:(lia)). auto.
  Qed.

  Lemma pad_constant : exists p' s',
    hypercv_copy_make_border p top bottom left right 0 v e s = Ret p' s'
    /\ padded s m top bottom left right (v mod 256) (framed m top left) s' p'.
  Proof.
    unfold hypercv_copy_make_border. destruct (sm_nonnull _ _ _ (im_hdr _ _ _ _ IM)) as (kp & Ekp).
    assert (E1 : nonnull p = true) by (rewrite Ekp; reflexivity). rewrite bind_assert by exact E1.
    rewrite bind_assert by lia. rewrite bind_assert by reflexivity.
    destruct ((top =? 0) && (left =? 0) && (bottom =? 0) && (right =? 0)) eqn:E0.
    { assert (top = 0 /\ left = 0 /\ bottom = 0 /\ right = 0) as (-> & -> & -> & ->) by lia.
      apply (copy_padded e s p m); auto. intros i j Hi Hj. unfold framed.
      match goal with |- (if ?c then _ else _) = _ => replace c with true by lia end. now rewrite !Z.sub_0_r. }
    clear E0. destruct (image_pixels s p m IM) as (q & n & f & P).
    pose proof (im_hdr _ _ _ _ IM) as Hh. pose proof (proj1 (type_one _) (im_type _ _ _ _ IM)) as ET.
    destruct P as [D Hq HR HC Hch N Mx].
    destruct (pad_sizes (sm_rows m) (sm_cols m) (sm_chan m) R' C') as (S1 & S2 & S3); auto; try lia.
    runs (sget_ok _ _ e _ Hh).
    erewrite bind_ret; [|apply ev_ok; unfold ci; rewrite (cadd_ok (sm_rows m)) by lia; apply cadd_ok; lia].
    erewrite bind_ret; [|apply ev_ok; unfold ci; rewrite (cadd_ok (sm_cols m)) by lia; apply cadd_ok; lia].
    fold R' C'. rewrite ET.
    set (ch := sm_chan m) in *. set (R := sm_rows m) in *. set (C := sm_cols m) in *.
    set (val := fun i j k => match framed m top left i j with
                             | Some (a, b) => f ((a * C + b) * ch + k) mod 256 | None => v mod 256 end).
    set (k0 := List.length (objs s)).
    set (fill := hypercv_make_const_border p (Some k0) top bottom left right 0 v).
    assert (Hsm : forall dd h, sm_at (putd (newsm e s R' C' 1 1 ch dd) (k0 + 1) h) p = Some m).
    { intros dd h. rewrite (sm_at_putd _ _ _ _ _ _ (newsm_data e s R' C' 1 1 ch dd)).
      rewrite Ekp in *. rewrite (nth_sm_at s); auto. apply newsm_old_unchanged.
      apply sm_at_obj in Hh as (a & w & r & Hh). eapply nth_error_lt; eauto. }
    assert (Hsd : forall dd h, sm_at (putd (newsm e s R' C' 1 1 ch dd) (k0 + 1) h) (Some k0) = Some (newsm_hdr s R' C' 1 1 ch)).
    { intros dd h. rewrite (sm_at_putd _ _ _ _ _ _ (newsm_data e s R' C' 1 1 ch dd)). apply newsm_at. }
    destruct (create_fill e s R' C' ch fill (at_pos C' ch val)) as (dd & g & X1 & X2 & X3); auto; try lia.
    { intros dd. unfold fill, hypercv_make_const_border.
      eapply wr_bind; [intros h; rewrite E1; reflexivity|].
      eapply wr_bind; [intros h; apply sget_ok, Hsm|].
      eapply wr_bind; [intros h; apply sget_ok, Hsd|].
      cbn [newsm_hdr sm_rows sm_cols sm_chan sm_data]. fold k0 R C ch.
      apply wr_grid; try lia. intros i j Hi Hj.
      eapply wr_bind; [apply rdv_ev; apply csub_ok; lia|].
      eapply wr_bind; [apply rdv_ev; apply csub_ok; lia|].
      destruct ((i - top <? 0) || (i - top >=? R) || (j - left <? 0) || (j - left >=? C)) eqn:EB.
      - assert (FR : framed m top left i j = None).
        { unfold framed. fold R C. match goal with |- (if ?c then _ else _) = _ => replace c with false by lia end. reflexivity. }
        eapply wr_iff; [apply wr_for with (P := fun k y => y = (i * C' + j) * ch + k)|].
        + intros k Hk. eapply wr_bind; [apply rdv_ev; apply (idx_c R' C' ch i j k); auto; lia|].
          eapply wr_store8; [apply newsm_data|pose proof (pix_index R' C' ch i j k Hi Hj Hk); lia|].
          rewrite at_pos_eq by auto. unfold val. now rewrite FR.
        + intros y. reflexivity.
      - assert (FR : framed m top left i j = Some (i - top, j - left)).
        { unfold framed. fold R C. match goal with |- (if ?c then _ else _) = _ => replace c with true by lia end. reflexivity. }
        eapply wr_iff; [apply wr_for with (P := fun k y => y = (i * C' + j) * ch + k)|].
        + intros k Hk. eapply wr_bind; [apply rdv_ev; apply (idx_c R' C' ch i j k); auto; lia|].
          eapply wr_bind. { apply rdv_ev. unfold ci. rewrite (csub_ok i top), (csub_ok j left) by lia.
            apply (idx_c R C ch (i - top) (j - left) k); auto; lia. }
          pose proof (pix_index R C ch (i - top) (j - left) k ltac:(lia) ltac:(lia) Hk). rewrite D.
          eapply wr_bind. { eapply rdv_load8; [|apply newsm_old; exact Hq|lia]. eapply isb_old_ne; eauto. }
          eapply wr_store8; [apply newsm_data|pose proof (pix_index R' C' ch i j k Hi Hj Hk); lia|].
          rewrite at_pos_eq by auto. unfold val. rewrite FR. now rewrite Z.mod_mod by lia.
        + intros y. reflexivity. }
    runs X1. change (0 =? BORDER_CONSTANT) with true. cbv iota. fold k0 in X2 |- *. fold fill. runs X2.
    do 2 eexists. split; [reflexivity|]. apply picture_padded; auto. fold ch R' C'.
    apply newsm_picture; auto; try lia. intros i j k Hi Hj Hk.
    rewrite X3 by now apply pix_index. rewrite at_pos_eq by auto. unfold val.
    destruct (framed m top left i j) as [(a & b)|] eqn:FR; auto.
    unfold framed in FR. fold R C in FR.
    destruct (_ && _) eqn:EB in FR; [|discriminate]. injection FR as <- <-.
    rewrite (pix_val s m q n f); [reflexivity|constructor; auto|].
    unfold in_image. fold R C ch. lia.
  Qed.
End Pad.
