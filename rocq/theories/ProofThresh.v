(** * Proofs: thresholds. *)
From Verif Require Import Base Logic ModelCore ModelFloat ModelPixel SpecBase SpecCore SpecImage SpecImage2 SpecPixel ProofCore ProofLayout ProofHM ProofCopy ProofCore2 ProofImage3 ProofImage4 ProofPixel.
From Coq Require Import String ZifyBool ZifyNat Floats.SpecFloat.
Ltac Zify.zify_post_hook ::= Z.div_mod_to_equations.
Open Scope Z_scope.

Lemma threshold_open_ok e s p ms d md : image s p ms 1 -> image s d md 1 ->
  sm_rows ms = sm_rows md -> sm_cols ms = sm_cols md -> sm_chan ms = sm_chan md -> sm_chan ms = 1 ->
  threshold_open p d e s = Ret (ms, md) s.
Proof.
  intros Is Id ER EC Ech E1. unfold threshold_open.
  pose proof (im_hdr _ _ _ _ Is) as Hs. pose proof (im_hdr _ _ _ _ Id) as Hd.
  destruct (sm_nonnull _ _ _ Hs) as (k & ->). destruct (sm_nonnull _ _ _ Hd) as (k' & ->).
  rewrite bind_assert by reflexivity. runs (sget_ok _ _ e _ Hs). runs (sget_ok _ _ e _ Hd).
  rewrite bind_assert by lia. rewrite bind_assert by (pose proof (proj1 (type_one _) (im_type _ _ _ _ Is)); lia).
  rewrite bind_assert by lia. reflexivity.
Qed.

(** The common shape of the five variants: a loop over all positions. *)
Lemma thresh_loop e s p ms d md (body : Z -> M unit) g :
  image s p ms 1 -> image s d md 1 ->
  sm_rows ms = sm_rows md -> sm_cols ms = sm_cols md -> sm_chan ms = sm_chan md -> sm_chan ms = 1 ->
  (forall ps ns fs pd nd fd f x, sm_data ms = Some ps -> sm_data md = Some pd ->
     isb s ps ns fs -> isb s pd nd fd -> 0 <= x < ns ->
     body x e (putd s pd f) = store8 (Some pd) x (g (rd ps pd fs f x mod 256)) e (putd s pd f)) ->
  exists s', (n <- ev (sm_rows ms * sm_cols ms * sm_chan ms)%C ;; for_ 0 n body) e s = Ret tt s'
    /\ mapped s ms md (fun x => g x mod 256) s' /\ written s (sm_data md) s'.
Proof.
  intros Is Id ER EC Ech E1 Hb.
  destruct (image_pixels _ _ _ Is) as (ps & ns & fs & Ps). destruct (image_pixels _ _ _ Id) as (pd & nd & fd & Pd).
  destruct (map_image e s ms ps ns fs md pd nd fd body g) as (s' & X & A & W); auto.
  { intros f x Hx. apply (Hb ps ns fs pd nd fd); try apply Ps; try apply Pd.
    destruct Ps as [? ? ? ? ? N ?]. rewrite ER, EC, Ech in N. lia. }
  exists s'. split; auto.
  erewrite bind_ret; [|apply ev_ok, size3_c; try apply Ps; destruct Ps; lia].
  rewrite ER, EC, Ech. exact X.
Qed.


Lemma threshold_run e s p ms d md thresh maxv type g :
  image s p ms 1 -> image s d md 1 ->
  sm_rows ms = sm_rows md -> sm_cols ms = sm_cols md -> sm_chan ms = sm_chan md -> sm_chan ms = 1 ->
  (forall x, thresh_fun type thresh maxv x = Some (g x)) ->
  exists s', hypercv_threshold p d thresh maxv type e s = Ret tt s'
    /\ mapped s ms md (fun x => g x mod 256) s' /\ written s (sm_data md) s'.
Proof.
  intros Is Id ER EC Ech E1 Hg.
  assert (Hty : type = 0 \/ type = 1 \/ type = 2 \/ type = 3 \/ type = 4).
  { specialize (Hg 0). unfold thresh_fun in Hg.
    repeat match type of Hg with (if ?c then _ else _) = _ => destruct c eqn:?; [lia|] end. discriminate. }
  pose proof (threshold_open_ok e s p ms d md Is Id ER EC Ech E1) as O.
  destruct (sm_nonnull _ _ _ (im_hdr _ _ _ _ Is)) as (k & ->). destruct (sm_nonnull _ _ _ (im_hdr _ _ _ _ Id)) as (k' & ->).
  unfold hypercv_threshold. rewrite bind_assert by reflexivity. rewrite bind_assert by reflexivity.
  rewrite bind_assert by lia.
  destruct Hty as [-> | [-> | [-> | [-> | ->]]]]; cbn [Z.eqb Pos.eqb];
    unfold hypercv_threshold_binary, hypercv_threshold_binary_inv, hypercv_threshold_trunc,
      hypercv_threshold_tozero, hypercv_threshold_tozero_inv; runs O; eapply thresh_loop; eauto;
    intros ps ns fs pd nd fd f x -> -> Hp Hq Hx;
    pose proof (load8_any e _ _ _ _ _ _ _ f x Hp Hq Hx) as L;
    rewrite (bind_ret _ _ _ _ _ _ L);
    specialize (Hg (rd ps pd fs f x mod 256)); cbn in Hg; injection Hg as <-;
    set (v := rd ps pd fs f x mod 256) in *;
    destruct (v >? thresh) eqn:EV; try (replace (v <=? thresh) with true by lia);
    try (replace (v <=? thresh) with false by lia); try rewrite (bind_ret _ _ _ _ _ _ L); reflexivity.
Qed.

Lemma threshold_noop e s p ms d md thresh maxv type :
  sm_at s p = Some ms -> sm_at s d = Some md -> type = 7 \/ type = 16 ->
  hypercv_threshold p d thresh maxv type e s = Ret tt s.
Proof.
  intros Hs Hd Ht. destruct (sm_nonnull _ _ _ Hs) as (k & ->). destruct (sm_nonnull _ _ _ Hd) as (k' & ->).
  destruct Ht as [-> | ->]; reflexivity.
Qed.

Lemma threshold_channels e s p ms d md thresh maxv type :
  sm_at s p = Some ms -> sm_at s d = Some md -> sm_chan ms <> 1 ->
  In type [0; 1; 2; 3; 4; 8] ->
  hypercv_threshold p d thresh maxv type e s = Exit.
Proof.
  intros Hs Hd Hch Ht. destruct (sm_nonnull _ _ _ Hs) as (k & ->). destruct (sm_nonnull _ _ _ Hd) as (k' & ->).
  assert (O : threshold_open (Some k) (Some k') e s = Exit).
  { unfold threshold_open. rewrite bind_assert by reflexivity. runs (sget_ok _ _ e _ Hs). runs (sget_ok _ _ e _ Hd).
    match goal with |- bind (assert ?b) _ _ _ = _ => destruct b end; [|reflexivity]. rewrite bind_assert by reflexivity.
    match goal with |- bind (assert ?b) _ _ _ = _ => destruct b end; [|reflexivity]. rewrite bind_assert by reflexivity.
    apply bind_assert_false. lia. }
  unfold hypercv_threshold. rewrite bind_assert by reflexivity. rewrite bind_assert by reflexivity.
  cbn in Ht. destruct Ht as [<- | [<- | [<- | [<- | [<- | [<- | []]]]]]]; rewrite bind_assert by reflexivity;
    cbn [Z.eqb Pos.eqb]; apply bind_exit; exact O.
Qed.

(** ** Otsu *)

Lemma forS_ub {S} e s lo hi (body : Z -> S -> M S) i0 :
  (forall i x, lo <= i < hi -> (exists y, body i x e s = Ret y s) \/ body i x e s = UB) ->
  lo <= i0 < hi -> (forall x, body i0 x e s = UB) ->
  forall x, forS lo hi body x e s = UB.
Proof.
  intros H Hi Hub. unfold forS. remember (Z.to_nat (hi - lo)) as n eqn:En.
  assert (Hn : hi = lo + Z.of_nat n) by lia. clear En.
  revert lo Hn H Hi. induction n as [|n IH]; intros lo Hn H Hi x; [lia|].
  cbn [iterS]. destruct (Z.eq_dec i0 lo) as [-> | Hne].
  - apply bind_ub, Hub.
  - destruct (H lo x ltac:(lia)) as [(y & E)|E]; [|now apply bind_ub].
    rewrite (bind_ret _ _ _ _ _ _ E). apply IH; try lia. intros i z Hz. apply H. lia.
Qed.

Lemma forS_ret_or_ub {S} e s lo hi (body : Z -> S -> M S) :
  (forall i x, lo <= i < hi -> (exists y, body i x e s = Ret y s) \/ body i x e s = UB) ->
  forall x, (exists y, forS lo hi body x e s = Ret y s) \/ forS lo hi body x e s = UB.
Proof.
  intros H. unfold forS. remember (Z.to_nat (hi - lo)) as n eqn:En.
  destruct (Z_le_gt_dec hi lo). { replace n with 0%nat by lia. intros x. left. exists x. reflexivity. }
  assert (Hn : hi = lo + Z.of_nat n) by lia. clear En g.
  revert lo Hn H. induction n as [|n IH]; intros lo Hn H x; [left; exists x; reflexivity|].
  cbn [iterS]. destruct (H lo x ltac:(lia)) as [(y & E)|E]; [|right; now apply bind_ub].
  rewrite (bind_ret _ _ _ _ _ _ E). apply IH; try lia. intros i z Hz. apply H. lia.
Qed.

(** A step that reads the state and may be undefined. *)
Definition pure {A} (e : env) (s : st) (m : M A) : Prop := (exists a, m e s = Ret a s) \/ m e s = UB.
Lemma pure_bind {A B} e s (m : M A) (k : A -> M B) : pure e s m -> (forall a, pure e s (k a)) -> pure e s (bind m k).
Proof.
  intros [(a & E)|E] H; [|right; now apply bind_ub]. unfold pure. rewrite (bind_ret _ _ _ _ _ _ E). apply H.
Qed.
Lemma pure_ev e s c : pure e s (ev c).
Proof. unfold pure, ev. destruct c; eauto. Qed.
Lemma pure_load e s p i : pure e s (load8 p i).
Proof. unfold pure, load8. destruct (bytes_at s p) as [((? & ?) & ?)|]; auto. destruct (inb i z); eauto. Qed.
Lemma pure_ret {A} e s (a : A) : pure e s (ret a).
Proof. left. exists a. reflexivity. Qed.

Definition otsu_body (ms : smat) (step i j : Z) (h : Z -> sf) : M (Z -> sf) :=
  x0 <- ev (i * step + j * 3)%C ;;
  a <- load8 (sm_data ms) x0 ;;
  x1 <- ev (i * step + j * 3 + 1)%C ;;
  b <- load8 (sm_data ms) x1 ;;
  x2 <- ev (i * step + j * 3 + 2)%C ;;
  c <- load8 (sm_data ms) x2 ;;
  k <- ev (int_of_sf (otsu_grey a b c)) ;;
  if inb k 256 then ret (fun y => if y =? k then db_add (h y) (db_of_Z 1) else h y) else ub.

Lemma otsu_body_pure e s ms step i j h : pure e s (otsu_body ms step i j h).
Proof.
  unfold otsu_body. repeat (apply pure_bind; [first [apply pure_ev|apply pure_load]|intros ?]).
  destruct (inb _ 256); [apply pure_ret|right; reflexivity].
Qed.

Lemma otsu_body_oob e s ms step i j h q n f : sm_data ms = Some q -> isb s q n f ->
  n <= i * step + j * 3 + 2 -> otsu_body ms step i j h e s = UB.
Proof.
  intros D Hq Hn. unfold otsu_body.
  destruct (pure_ev e s (i * step + j * 3)%C) as [(x0 & E)|E]; [|now apply bind_ub].
  rewrite (bind_ret _ _ _ _ _ _ E).
  destruct (pure_load e s (sm_data ms) x0) as [(a & Ea)|Ea]; [|now apply bind_ub].
  rewrite (bind_ret _ _ _ _ _ _ Ea).
  destruct (pure_ev e s (i * step + j * 3 + 1)%C) as [(x1 & E1)|E1]; [|now apply bind_ub].
  rewrite (bind_ret _ _ _ _ _ _ E1).
  destruct (pure_load e s (sm_data ms) x1) as [(b & Eb)|Eb]; [|now apply bind_ub].
  rewrite (bind_ret _ _ _ _ _ _ Eb).
  destruct (i * step + j * 3 + 2)%C as [x2|] eqn:E2; [|reflexivity].
  unfold ci in E2. apply cop_some in E2 as (? & ? & E2 & [= <-] & ->). apply cop_some in E2 as (? & ? & E3 & E4 & ->).
  apply cop_some in E3 as (? & ? & [= <-] & [= <-] & ->). apply cop_some in E4 as (? & ? & [= <-] & [= <-] & ->).
  erewrite bind_ret; [|reflexivity]. apply bind_ub. rewrite D. eapply load8_oob; eauto. lia.
Qed.

Lemma otsu_histogram_oob e s p ms q f : image s p ms 1 -> sm_chan ms = 1 ->
  sm_data ms = Some q -> isb s q (sm_rows ms * sm_cols ms) f ->
  otsu_histogram ms (sm_cols ms * sm_chan ms) e s = UB.
Proof.
  intros [Hh Hty HR HC Hch Hsz Hd] E1 D Hq. rewrite E1, Z.mul_1_r.
  set (R := sm_rows ms) in *. set (C := sm_cols ms) in *.
  unfold otsu_histogram. apply forS_ub with (i0 := R - 1).
  - intros i x Hi. apply forS_ret_or_ub. intros j y Hj. apply otsu_body_pure.
  - fold R. lia.
  - intros x. apply forS_ub with (i0 := C - 1).
    + intros j y Hj. apply otsu_body_pure.
    + fold C. lia.
    + intros y. eapply otsu_body_oob; eauto. nia.
Qed.

Lemma otsu_ub e s p ms d md thresh maxv q f :
  image s p ms 1 -> image s d md 1 ->
  sm_rows ms = sm_rows md -> sm_cols ms = sm_cols md -> sm_chan ms = sm_chan md -> sm_chan ms = 1 ->
  bytes_at s (sm_data ms) = Some (q, sm_rows ms * sm_cols ms, f) ->
  hypercv_threshold p d thresh maxv 8 e s = UB.
Proof.
  intros Is Id ER EC Ech E1 Hq.
  pose proof (threshold_open_ok e s p ms d md Is Id ER EC Ech E1) as O.
  pose proof (im_hdr _ _ _ _ Is) as Hs.
  destruct (sm_nonnull _ _ _ Hs) as (k & ->). destruct (sm_nonnull _ _ _ (im_hdr _ _ _ _ Id)) as (k' & ->).
  unfold hypercv_threshold. rewrite bind_assert by reflexivity. rewrite bind_assert by reflexivity.
  rewrite bind_assert by reflexivity. cbn [Z.eqb Pos.eqb]. unfold hypercv_threshold_otsu. runs O.
  apply bind_ub. unfold otsuThreshold. runs (sget_ok _ _ e _ Hs).
  apply bytes_at_inv in Hq as [D Hq].
  destruct (image_pixels _ _ _ Is) as (q' & n' & f' & [D' Hq' HR HC Hch N Mx]).
  assert (0 < sm_rows ms * sm_cols ms) by nia. rewrite E1 in *.
  erewrite bind_ret; [|apply ev_ok; apply cmul_ok; nia].
  erewrite bind_ret; [|apply ev_ok; apply cmul_ok; nia].
  apply bind_ub. rewrite <- E1. exact (otsu_histogram_oob e s _ ms q f Is E1 D Hq).
Qed.

(** otsuThreshold itself is in bounds on three-channel images and returns a
    grey level. *)
Lemma otsu_search_range n : forall i h N N0 g T, 0 <= T <= 255 -> 0 <= i -> i + Z.of_nat n <= 256 ->
  0 <= otsu_search n i h N N0 g T <= 255.
Proof.
  induction n as [|n IH]; intros i h N N0 g T HT Hi Hn; [auto|].
  cbn [otsu_search]. destruct (SFeqb _ _); [auto|]. destruct (SFltb g _); apply IH; lia.
Qed.
