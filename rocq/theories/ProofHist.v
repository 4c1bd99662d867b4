(** * Proofs: histogram equalisation. *)
From Verif Require Import Base Logic ModelCore ModelMorph SpecBase SpecCore SpecImage SpecImage2 SpecPixel SpecMatrix SpecFilter SpecMorph
  ProofCore ProofLayout ProofHM ProofCopy ProofCore2 ProofImage3 ProofImage4 ProofBorder ProofPixel ProofMatrix ProofGrad ProofLoop.
From Coq Require Import ZifyBool ZifyNat.
Ltac Zify.zify_post_hook ::= Z.div_mod_to_equations.
Open Scope Z_scope.

Lemma sumz_eq n f g : (forall i, 0 <= i < n -> f i = g i) -> sumz n f = sumz n g.
Proof.
  intros H. unfold sumz. assert (K : forall k, (k <= Z.to_nat n)%nat -> sum_to k f = sum_to k g).
  { induction k as [|k IH]; intros Hk; [reflexivity|]. cbn [sum_to]. rewrite IH, H by lia. reflexivity. }
  apply K. lia.
Qed.
Lemma sumz_app a b f : 0 <= a -> 0 <= b -> sumz (a + b) f = sumz a f + sumz b (fun i => f (a + i)).
Proof.
  intros Ha Hb. pattern b. apply natlike_ind; [|intros k Hk IH|exact Hb].
  - rewrite Z.add_0_r, (sumz_0 (fun i => f (a + i))). lia.
  - unfold Z.succ. rewrite Z.add_assoc, (sumz_S (a + k)), (sumz_S k) by lia. lia.
Qed.
Lemma sumz_grid R C (g : Z -> Z -> Z) : 0 <= R -> 0 < C ->
  sumz (R * C) (fun x => g (x / C) (x mod C)) = sumz R (fun i => sumz C (fun j => g i j)).
Proof.
  intros HR HC. pattern R. apply natlike_ind; [reflexivity|intros k Hk IH|exact HR].
  unfold Z.succ. rewrite Z.mul_add_distr_r, Z.mul_1_l, sumz_app, sumz_S, IH by nia. f_equal.
  apply sumz_eq. intros j Hj. destruct (radix2 k j C Hj) as [-> ->]. reflexivity.
Qed.
Lemma sumz_bounds n f lo hi : 0 <= n -> (forall i, 0 <= i < n -> lo <= f i <= hi) -> lo * n <= sumz n f <= hi * n.
Proof.
  intros Hn. pattern n. apply natlike_ind; [intros _; rewrite (sumz_0 f); lia|intros k Hk IH|exact Hn].
  intros H. unfold Z.succ. rewrite sumz_S by lia. pose proof (H k ltac:(lia)).
  assert (lo * k <= sumz k f <= hi * k) by (apply IH; intros; apply H; lia). lia.
Qed.
Lemma sumz_add n f g : 0 <= n -> sumz n (fun i => f i + g i) = sumz n f + sumz n g.
Proof.
  intros Hn. pattern n. apply natlike_ind; [reflexivity|intros k Hk IH|exact Hn].
  unfold Z.succ. rewrite !sumz_S by lia. lia.
Qed.

Lemma pixels_of_bounds R C P v : 0 <= R -> 0 <= C -> 0 <= pixels_of R C P v <= R * C.
Proof.
  intros HR HC. unfold pixels_of.
  pose proof (sumz_bounds R (fun i => sumz C (fun j => if P i j =? v then 1 else 0)) 0 C HR) as B.
  assert (0 * R <= sumz R (fun i => sumz C (fun j => if P i j =? v then 1 else 0)) <= C * R); [|lia].
  apply B. intros i Hi. pose proof (sumz_bounds C (fun j => if P i j =? v then 1 else 0) 0 1 HC) as B2.
  assert (0 * C <= sumz C (fun j => if P i j =? v then 1 else 0) <= 1 * C); [|lia].
  apply B2. intros j Hj. destruct (P i j =? v); lia.
Qed.
Lemma pixels_upto_bounds R C P v : 0 <= R -> 0 <= C -> 0 <= pixels_upto R C P v <= R * C.
Proof.
  intros HR HC. unfold pixels_upto.
  pose proof (sumz_bounds R (fun i => sumz C (fun j => if P i j <=? v then 1 else 0)) 0 C HR) as B.
  assert (0 * R <= sumz R (fun i => sumz C (fun j => if P i j <=? v then 1 else 0)) <= C * R); [|lia].
  apply B. intros i Hi. pose proof (sumz_bounds C (fun j => if P i j <=? v then 1 else 0) 0 1 HC) as B2.
  assert (0 * C <= sumz C (fun j => if P i j <=? v then 1 else 0) <= 1 * C); [|lia].
  apply B2. intros j Hj. destruct (P i j <=? v); lia.
Qed.
Lemma pixels_upto_step R C P v : 0 <= R -> 0 <= C ->
  pixels_upto R C P v = pixels_upto R C P (v - 1) + pixels_of R C P v.
Proof.
  intros HR HC. unfold pixels_upto, pixels_of. rewrite <- sumz_add by lia. apply sumz_eq. intros i Hi.
  rewrite <- sumz_add by lia. apply sumz_eq. intros j Hj.
  destruct (P i j =? v) eqn:A, (P i j <=? v) eqn:B, (P i j <=? v - 1) eqn:D; lia.
Qed.

(** ** The library's levels *)
Definition before_scaling (R C : Z) (P : Z -> Z -> Z) (v : nat) : Z :=
  library_level R C P v + pixels_of R C P (Z.of_nat (S v)).

Lemma library_level_nonneg R C P v : 0 < R -> 0 < C -> 0 <= library_level R C P v.
Proof.
  intros HR HC. induction v as [|u IH]; [apply pixels_of_bounds; lia|]. cbn [library_level].
  pose proof (pixels_of_bounds R C P (Z.of_nat (S u)) ltac:(lia) ltac:(lia)).
  apply Z.div_pos; nia.
Qed.
Lemma library_level_upto R C P v : 0 < R -> 0 < C -> 255 <= R * C -> (forall i j, 0 <= i < R -> 0 <= j < C -> 0 <= P i j) ->
  library_level R C P v <= pixels_upto R C P (Z.of_nat v).
Proof.
  intros HR HC HN HP. induction v as [|u IH].
  - cbn [library_level]. rewrite (pixels_upto_step R C P (Z.of_nat 0)) by lia.
    pose proof (pixels_upto_bounds R C P (Z.of_nat 0 - 1) ltac:(lia) ltac:(lia)). change (Z.of_nat 0) with 0 in *. lia.
  - cbn [library_level]. rewrite (pixels_upto_step R C P (Z.of_nat (S u))) by lia.
    replace (Z.of_nat (S u) - 1) with (Z.of_nat u) by lia.
    pose proof (pixels_of_bounds R C P (Z.of_nat (S u)) ltac:(lia) ltac:(lia)).
    pose proof (library_level_nonneg R C P u HR HC).
    set (a := library_level R C P u) in *. set (b := pixels_of R C P (Z.of_nat (S u))) in *.
    set (N := R * C) in *. set (c := pixels_upto R C P (Z.of_nat u)) in *.
    assert ((a + b) * 255 / N <= a + b); [|lia].
    apply Z.div_le_upper_bound; [lia|]. nia.
Qed.

(** ** The three loops *)
Lemma forS_ub_at {S} e lo k hi (body : Z -> S -> M S) (I : Z -> S -> Prop) s x : lo <= k < hi -> I lo x ->
  (forall i x, lo <= i < k -> I i x -> exists y, body i x e s = Ret y s /\ I (i + 1) y) ->
  (forall x, I k x -> body k x e s = UB) -> forS lo hi body x e s = UB.
Proof.
  intros Hk. unfold forS. remember (Z.to_nat (k - lo)) as n eqn:En. revert lo x Hk En.
  induction n as [|n IH]; intros lo x Hk En Hx Hstep Hub.
  - assert (k = lo) by lia. subst k. destruct (Z.to_nat (hi - lo)) as [|m] eqn:Em; [lia|]. cbn [iterS].
    apply bind_ub. now apply Hub.
  - destruct (Z.to_nat (hi - lo)) as [|m] eqn:Em; [lia|]. cbn [iterS].
    destruct (Hstep lo x ltac:(lia) Hx) as (y & E & Hy). rewrite (bind_ret _ _ _ _ _ _ E).
    specialize (IH (lo + 1) y). replace (Z.to_nat (hi - (lo + 1))) with m in IH by lia.
    apply IH; auto; try lia. intros i z Hi Hz. apply Hstep; auto; lia.
Qed.

Section Levels.
  Variables (e : env) (s : st) (qs : nat) (ns : Z) (fs : Z -> Z) (R C : Z) (P : Z -> Z -> Z).
  Hypothesis Hs : isb s qs ns fs.
  Hypothesis HR : 0 < R.
  Hypothesis HC : 0 < C.
  Hypothesis Hns : R * C <= ns.
  Hypothesis Hmax : R * C <= 2147483551.
  Hypothesis HP : forall i j, 0 <= i < R -> 0 <= j < C -> fs (i * C + j) mod 256 = P i j.

  Lemma count_run : exists hist, forS 0 (R * C) (fun i (hist : Z -> Z) =>
      v <- load8 (Some qs) i ;; let old := hist v in c <- ev (old + 1)%C ;; ret (fupd hist v c)) (fun _ => 0) e s = Ret hist s
    /\ forall v, hist v = pixels_of R C P v.
  Proof.
    destruct (forS_inv e 0 (R * C) (fun i (hist : Z -> Z) =>
      v <- load8 (Some qs) i ;; let old := hist v in c <- ev (old + 1)%C ;; ret (fupd hist v c))
      (fun i hist s' => s' = s /\ forall v, hist v = sumz i (fun x => if fs x mod 256 =? v then 1 else 0)) s (fun _ => 0))
      as (hist & s' & A & B & D).
    - nia.
    - split; [reflexivity|]. intros v. now rewrite (sumz_0 (fun x => if fs x mod 256 =? v then 1 else 0)).
    - intros i h s1 Hi (-> & Hh). eexists. exists s. split.
      + rewrite (bind_ret _ _ _ _ _ _ (load8_ok e s qs ns fs i Hs ltac:(lia))). cbv zeta.
        assert (B : 0 * i <= h (fs i mod 256) <= 1 * i).
        { rewrite Hh. apply sumz_bounds; [lia|]. intros x Hx. destruct (_ =? _); lia. }
        rewrite (bind_ret _ _ _ _ _ _ (ev_ok _ (h (fs i mod 256) + 1) e s (cadd_ok (h (fs i mod 256)) 1 ltac:(lia)))). reflexivity.
      + split; [reflexivity|]. intros v. rewrite sumz_S by lia. rewrite <- Hh. unfold fupd.
        destruct (v =? fs i mod 256) eqn:E; destruct (fs i mod 256 =? v) eqn:E'; try lia.
        replace v with (fs i mod 256) by lia. lia.
    - subst s'. exists hist. split; [exact A|]. intros v. rewrite D. unfold pixels_of.
      rewrite <- (sumz_grid R C (fun i j => if P i j =? v then 1 else 0)) by lia.
      apply sumz_eq. intros x Hx. rewrite <- HP by (split; [apply Z.div_pos|apply Z.div_lt_upper_bound] || apply Z.mod_pos_bound; lia || nia).
      replace (x / C * C + x mod C) with x by (rewrite Z.mul_comm; symmetry; now rewrite <- Z.div_mod by lia).
      reflexivity.
  Qed.

  Definition level_inv (i : Z) (hist : Z -> Z) : Prop :=
    (forall v, 0 <= v < i -> hist v = library_level R C P (Z.to_nat v)) /\ (forall v, i <= v -> hist v = pixels_of R C P v).
  Definition level_body (i : Z) (hist : Z -> Z) : M (Z -> Z) :=
    let this := hist i in
    let before := hist (i - 1) in
    a <- ev (this + before)%C ;;
    b <- ev (a * 255 / (R * C))%C ;;
    ret (fupd hist i b).

  Lemma level_step i hist : 1 <= i -> level_inv i hist -> before_scaling R C P (Z.to_nat (i - 1)) * 255 <= INT_MAX ->
    exists y, level_body i hist e s = Ret y s /\ level_inv (i + 1) y.
  Proof.
    intros Hi [I1 I2] Hb. unfold INT_MAX in Hb. unfold level_body. cbv zeta.
    assert (E1 : hist i = pixels_of R C P i) by (apply I2; lia).
    assert (E2 : hist (i - 1) = library_level R C P (Z.to_nat (i - 1))) by (apply I1; lia).
    assert (E3 : before_scaling R C P (Z.to_nat (i - 1)) = hist i + hist (i - 1)).
    { unfold before_scaling. rewrite E1, E2. replace (Z.of_nat (S (Z.to_nat (i - 1)))) with i by lia. lia. }
    assert (B1 : 0 <= hist i) by (rewrite E1; apply pixels_of_bounds; lia).
    assert (B2 : 0 <= hist (i - 1)) by (rewrite E2; apply library_level_nonneg; lia).
    assert (N0 : 0 < R * C) by (clear - HR HC; nia).
    rewrite (bind_ret _ _ _ _ _ _ (ev_ok _ _ e s (cadd_ok (hist i) (hist (i - 1)) ltac:(lia)))).
    set (a := hist i + hist (i - 1)) in *.
    assert (Q : 0 <= a * 255 / (R * C) <= a * 255).
    { split; [apply Z.div_pos; lia|apply Z.div_le_upper_bound; [lia|]]. clear - N0 B1 B2 a. assert (0 <= a) by (unfold a; lia). nia. }
    assert (EV : (a * 255 / (R * C))%C = Some (a * 255 / (R * C))).
    { unfold ci. rewrite (cmul_ok a) by lia. rewrite (cmul_ok R) by lia.
      rewrite cdiv_ok; rewrite ?Z.quot_div_nonneg by lia; try reflexivity; lia. }
    rewrite (bind_ret _ _ _ _ _ _ (ev_ok _ _ e s EV)).
    eexists. split; [reflexivity|]. split; intros v Hv; unfold fupd; destruct (v =? i) eqn:Ev.
    - replace v with i by lia. replace (Z.to_nat i) with (S (Z.to_nat (i - 1))) by lia. cbn [library_level].
      rewrite <- E2. replace (Z.of_nat (S (Z.to_nat (i - 1)))) with i by lia. rewrite <- E1.
      now replace (hist (i - 1) + hist i) with a by (unfold a; lia).
    - apply I1. lia.
    - lia.
    - apply I2. lia.
  Qed.
  Lemma level_bad i hist : 1 <= i -> level_inv i hist -> INT_MAX < before_scaling R C P (Z.to_nat (i - 1)) * 255 ->
    level_body i hist e s = UB.
  Proof.
    intros Hi [I1 I2] Hb. unfold INT_MAX in Hb. unfold level_body. cbv zeta.
    assert (E1 : hist i = pixels_of R C P i) by (apply I2; lia).
    assert (E2 : hist (i - 1) = library_level R C P (Z.to_nat (i - 1))) by (apply I1; lia).
    assert (E3 : before_scaling R C P (Z.to_nat (i - 1)) = hist i + hist (i - 1)).
    { unfold before_scaling. rewrite E1, E2. replace (Z.of_nat (S (Z.to_nat (i - 1)))) with i by lia. lia. }
    destruct (Z_le_gt_dec (hist i + hist (i - 1)) 2147483647) as [L|L].
    - rewrite (bind_ret _ _ _ _ _ _ (ev_ok _ _ e s (cadd_ok (hist i) (hist (i - 1)) ltac:(lia)))).
      apply bind_ub. unfold ci, cmul, cop. rewrite (chk_ub (_ * 255)) by lia. reflexivity.
    - apply bind_ub. unfold ci, cadd, cop. rewrite chk_ub by lia. reflexivity.
  Qed.
  Lemma level_run hist : (forall v, hist v = pixels_of R C P v) ->
    (forall v, 0 <= v < 255 -> before_scaling R C P (Z.to_nat v) * 255 <= INT_MAX) ->
    exists y, forS 1 256 level_body hist e s = Ret y s /\ forall v, 0 <= v < 256 -> y v = library_level R C P (Z.to_nat v).
  Proof.
    intros Hh Hb.
    destruct (forS_inv e 1 256 level_body (fun i h s' => s' = s /\ level_inv i h) s hist) as (y & s' & A & B & D & _).
    - lia.
    - split; [reflexivity|]. split; intros v Hv; [|apply Hh]. replace v with 0 by lia. apply Hh.
    - intros i x s1 Hi (-> & I). destruct (level_step i x) as (y & E & I'); auto; try lia.
      + apply Hb. lia.
      + exists y, s. auto.
    - subst s'. exists y. auto.
  Qed.
  Lemma level_ub hist : (forall v, hist v = pixels_of R C P v) ->
    (exists v, 0 <= v < 255 /\ INT_MAX < before_scaling R C P (Z.to_nat v) * 255) ->
    forS 1 256 level_body hist e s = UB.
  Proof.
    intros Hh (v & Hv & Hb).
    (* the first level that overflows *)
    assert (F : exists k, 0 <= k <= v /\ INT_MAX < before_scaling R C P (Z.to_nat k) * 255
              /\ forall u, 0 <= u < k -> before_scaling R C P (Z.to_nat u) * 255 <= INT_MAX).
    { clear Hh. revert Hb. assert (Hv0 : 0 <= v) by lia. clear Hv. revert v Hv0.
      refine (Zlt_0_ind _ _). intros v IH Hv0 Hb.
      destruct (Z_lt_dec 0 v) as [L|L].
      - assert (D : (exists u, 0 <= u < v /\ INT_MAX < before_scaling R C P (Z.to_nat u) * 255)
                   \/ forall u, 0 <= u < v -> before_scaling R C P (Z.to_nat u) * 255 <= INT_MAX).
        { clear IH Hb L. revert v Hv0. apply natlike_ind.
          - right. intros. lia.
          - intros k Hk [(u & Hu & X)|X]; [left; exists u; split; [lia|exact X]|].
            destruct (Z_lt_dec INT_MAX (before_scaling R C P (Z.to_nat k) * 255)) as [Y|Y].
            + left. exists k. split; [lia|exact Y].
            + right. intros u Hu. assert (u = k \/ u < k) as [->|] by lia; [lia|apply X; lia]. }
        destruct D as [(u & Hu & X)|X].
        + destruct (IH u ltac:(lia) X) as (k & K1 & K2 & K3). exists k. split; [lia|]. auto.
        + exists v. split; [lia|]. auto.
      - exists v. split; [lia|]. split; [exact Hb|]. intros. lia. }
    destruct F as (k & Hk & K & KB).
    apply (forS_ub_at e 1 (k + 1) 256 level_body level_inv).
    - lia.
    - split; intros u Hu; [|apply Hh]. replace u with 0 by lia. apply Hh.
    - intros i x Hi I. apply level_step; auto; [lia|]. apply KB. lia.
    - intros x I. apply level_bad; auto; [lia|]. now replace (k + 1 - 1) with k by lia.
  Qed.
End Levels.

Section Equalise.
  Variables (e : env) (s : st) (src dst : ptr) (ms md : smat) (P : Z -> Z -> Z).
  Hypothesis Is : image s src ms 1.
  Hypothesis Id : image s dst md 1.
  Hypothesis C1 : sm_chan ms = 1.
  Hypothesis C2 : sm_chan md = 1.
  Hypothesis ER : sm_rows md = sm_rows ms.
  Hypothesis EC : sm_cols md = sm_cols ms.
  Hypothesis N : sm_data ms <> sm_data md.
  Hypothesis G : grey s ms P.

  Lemma his_start : exists qs ns fs qd nd fd hist, pixels s ms qs ns fs /\ pixels s md qd nd fd /\ qs <> qd
    /\ (forall v, hist v = pixels_of (sm_rows ms) (sm_cols ms) P v)
    /\ (forall i j, 0 <= i < sm_rows ms -> 0 <= j < sm_cols ms -> fs (i * sm_cols ms + j) mod 256 = P i j)
    /\ HisEqualization src dst e s
       = (hist <- forS 1 256 (level_body (sm_rows ms) (sm_cols ms)) hist ;;
          for_ 0 (sm_rows ms * sm_cols ms) (fun i => v <- load8 (sm_data ms) i ;; store8 (sm_data md) i (hist v))) e s.
  Proof.
    destruct (image_pixels _ _ _ Is) as (qs & ns & fs & Ps). destruct (image_pixels _ _ _ Id) as (qd & nd & fd & Pd).
    pose proof (px_data _ _ _ _ _ Ps) as Ds. pose proof (px_data _ _ _ _ _ Pd) as Dd.
    pose proof (im_hdr _ _ _ _ Is) as Hs. pose proof (im_hdr _ _ _ _ Id) as Hd.
    assert (GV : forall i j, 0 <= i < sm_rows ms -> 0 <= j < sm_cols ms -> fs (i * sm_cols ms + j) mod 256 = P i j).
    { intros i j Hi Hj. apply (near_grey s ms qs ns); auto. }
    pose proof (px_max _ _ _ _ _ Ps) as Mx. pose proof (px_n _ _ _ _ _ Ps) as Nn. rewrite C1, Z.mul_1_r in Mx, Nn.
    pose proof (px_R _ _ _ _ _ Ps) as HR. pose proof (px_C _ _ _ _ _ Ps) as HC.
    destruct (count_run e s qs ns fs (sm_rows ms) (sm_cols ms) P) as (hist & CR & HH); auto; try lia.
    { exact (px_isb _ _ _ _ _ Ps). }
    exists qs, ns, fs, qd, nd, fd, hist. split; [exact Ps|]. split; [exact Pd|]. split; [congruence|].
    split; [exact HH|]. split; [exact GV|].
    unfold HisEqualization.
    assert (nonnull src = true /\ nonnull dst = true) as (-> & ->).
    { split; [destruct src; [reflexivity|discriminate]|destruct dst; [reflexivity|discriminate]]. }
    rewrite bind_assert by reflexivity. rewrite (bind_ret _ _ _ _ _ _ (sget_ok src ms e s Hs)). cbv zeta.
    rewrite (bind_ret _ _ _ _ _ _ (sget_ok dst md e s Hd)). rewrite bind_assert by lia.
    assert (EV : (sm_rows ms * sm_cols ms)%C = Some (sm_rows ms * sm_cols ms)).
    { unfold ci. apply cmul_ok. clear - HR HC Mx. nia. }
    rewrite (bind_ret _ _ _ _ _ _ (ev_ok _ _ e s EV)). cbv zeta in CR. rewrite Ds. rewrite (bind_ret _ _ _ _ _ _ CR).
    reflexivity.
  Qed.
  Lemma his_run : (forall v, 0 <= v < 255 -> before_scaling (sm_rows ms) (sm_cols ms) P (Z.to_nat v) * 255 <= INT_MAX) ->
    exists s', HisEqualization src dst e s = Ret tt s'
      /\ painted s md (fun i j => library_level (sm_rows ms) (sm_cols ms) P (Z.to_nat (P i j)) mod 256) s'.
  Proof.
    intros Hb. destruct his_start as (qs & ns & fs & qd & nd & fd & hist & Ps & Pd & Hne & HH & GV & ->).
    pose proof (px_R _ _ _ _ _ Ps) as HR. pose proof (px_C _ _ _ _ _ Ps) as HC.
    pose proof (px_max _ _ _ _ _ Ps) as Mx. pose proof (px_n _ _ _ _ _ Ps) as Nn. rewrite C1, Z.mul_1_r in Mx, Nn.
    pose proof (px_n _ _ _ _ _ Pd) as Nd. rewrite C2, Z.mul_1_r, ER, EC in Nd.
    destruct (level_run e s fs (sm_rows ms) (sm_cols ms) P) with (hist := hist) as (y & L & Y); auto; try lia.
    rewrite (bind_ret _ _ _ _ _ _ L).
    pose proof (px_data _ _ _ _ _ Ps) as Ds. pose proof (px_data _ _ _ _ _ Pd) as Dd.
    set (R := sm_rows ms) in *. set (C := sm_cols ms) in *.
    assert (W : wr e s qd (for_ 0 (R * C) (fun i => v <- load8 (sm_data ms) i ;; store8 (sm_data md) i (y v)))
        (fun x => exists i, 0 <= i < R * C /\ x = i) (fun x => y (fs x mod 256) mod 256)).
    { apply wr_for. intros i Hi. rewrite Ds, Dd.
      eapply wr_bind; [apply (rdv_load8 e s qd qs ns fs); [exact Hne|exact (px_isb _ _ _ _ _ Ps)|lia]|].
      apply (wr_store8 e s qd nd fd); [exact (px_isb _ _ _ _ _ Pd)|lia|reflexivity]. }
    destruct (wr_run _ _ _ _ _ _ _ _ (px_isb _ _ _ _ _ Pd) W) as (f' & E & A & B).
    exists (putd s qd f'). split; [exact E|]. split; [|split].
    - intros i j Hi Hj. unfold pix, pixel_byte. rewrite Dd, C2, EC. rewrite ER in Hi. rewrite EC in Hj. fold R in Hi. fold C in Hj |- *.
      replace ((((i * C + j) * 1 + 0) * 1 + 0)) with (i * C + j) by lia.
      assert (Hx : 0 <= i * C + j < R * C) by (clear - Hi Hj; nia).
      rewrite (byte_at_isb _ _ _ _ _ (isb_putd_eq _ _ _ _ f' (px_isb _ _ _ _ _ Pd))) by lia.
      rewrite A by eauto. rewrite GV by assumption. f_equal. rewrite Y; [reflexivity|].
      rewrite <- GV by assumption. lia.
    - intros x Hx. rewrite Dd, (byte_at_putd_eq _ _ _ _ _ _ (px_isb _ _ _ _ _ Pd)), (byte_at_isb_all _ _ _ _ _ (px_isb _ _ _ _ _ Pd)).
      rewrite ER, EC in Hx. fold R C in Hx. rewrite B; [reflexivity|]. intros (i & Hi & ->). lia.
    - rewrite Dd. apply only_written_putd.
  Qed.
  Lemma his_ub : (exists v, 0 <= v < 255 /\ INT_MAX < before_scaling (sm_rows ms) (sm_cols ms) P (Z.to_nat v) * 255) ->
    HisEqualization src dst e s = UB.
  Proof.
    intros Hb. destruct his_start as (qs & ns & fs & qd & nd & fd & hist & Ps & Pd & Hne & HH & GV & ->).
    pose proof (px_R _ _ _ _ _ Ps) as HR. pose proof (px_C _ _ _ _ _ Ps) as HC.
    pose proof (px_max _ _ _ _ _ Ps) as Mx. rewrite C1, Z.mul_1_r in Mx.
    apply bind_ub. apply (level_ub e s fs (sm_rows ms) (sm_cols ms) P); auto; lia.
  Qed.
End Equalise.

(** ** The statements *)
Theorem his_exact : forall e s src dst ms md P, image s src ms 1 -> image s dst md 1 ->
  sm_chan ms = 1 -> sm_chan md = 1 -> sm_rows md = sm_rows ms -> sm_cols md = sm_cols ms ->
  sm_data ms <> sm_data md -> grey s ms P ->
  (forall v : nat, (v < 255)%nat ->
     (library_level (sm_rows ms) (sm_cols ms) P v + pixels_of (sm_rows ms) (sm_cols ms) P (Z.of_nat (S v))) * 255 <= 2147483647) ->
  exists s', HisEqualization src dst e s = Ret tt s'
    /\ painted s md (fun i j => library_level (sm_rows ms) (sm_cols ms) P (Z.to_nat (P i j)) mod 256) s'.
Proof.
  intros e s src dst ms md P H1 H2 H3 H4 H5 H6 H7 H8 Hb. apply his_run; auto.
  intros v Hv. apply (Hb (Z.to_nat v)). lia.
Qed.
Theorem his_overflow : forall e s src dst ms md P v, image s src ms 1 -> image s dst md 1 ->
  sm_chan ms = 1 -> sm_chan md = 1 -> sm_rows md = sm_rows ms -> sm_cols md = sm_cols ms ->
  sm_data ms <> sm_data md -> grey s ms P -> (v < 255)%nat ->
  2147483647 < (library_level (sm_rows ms) (sm_cols ms) P v + pixels_of (sm_rows ms) (sm_cols ms) P (Z.of_nat (S v))) * 255 ->
  HisEqualization src dst e s = UB.
Proof.
  intros e s src dst ms md P v H1 H2 H3 H4 H5 H6 H7 H8 Hv Hb. eapply his_ub with (P := P); eauto.
  exists (Z.of_nat v). split; [lia|]. rewrite Nat2Z.id. exact Hb.
Qed.
Theorem his_sizes : forall R C P v, 0 < R -> 0 < C -> 255 <= R * C <= 8421504 ->
  (forall i j, 0 <= i < R -> 0 <= j < C -> 0 <= P i j) ->
  (library_level R C P v + pixels_of R C P (Z.of_nat (S v))) * 255 <= 2147483647.
Proof.
  intros R C P v HR HC HN HP. pose proof (library_level_upto R C P v HR HC ltac:(lia) HP) as L.
  pose proof (pixels_upto_step R C P (Z.of_nat (S v)) ltac:(lia) ltac:(lia)) as St.
  replace (Z.of_nat (S v) - 1) with (Z.of_nat v) in St by lia.
  pose proof (pixels_upto_bounds R C P (Z.of_nat (S v)) ltac:(lia) ltac:(lia)). lia.
Qed.
(** The lowest level of an image is mapped as it should, unless it is 0. *)
Theorem his_lowest : forall R C P v, 0 < R -> 0 < C -> pixels_upto R C P (Z.of_nat v) = 0 ->
  (forall i j, 0 <= i < R -> 0 <= j < C -> 0 <= P i j) ->
  library_level R C P (S v) = equalised R C P (Z.of_nat (S v)).
Proof.
  intros R C P v HR HC H0 HP.
  assert (U : forall u, (u <= v)%nat -> pixels_upto R C P (Z.of_nat u) = 0).
  { intros u Hu. assert (Z.of_nat u <= Z.of_nat v) by lia. revert H. generalize (Z.of_nat u). intros z Hz.
    pose proof (pixels_upto_bounds R C P z ltac:(lia) ltac:(lia)) as B.
    assert (forall k : nat, pixels_upto R C P (z + Z.of_nat k) >= pixels_upto R C P z) as Mono.
    { induction k as [|k IH]; [rewrite Z.add_0_r; lia|].
      rewrite (pixels_upto_step R C P (z + Z.of_nat (S k))) by lia.
      pose proof (pixels_of_bounds R C P (z + Z.of_nat (S k)) ltac:(lia) ltac:(lia)).
      replace (z + Z.of_nat (S k) - 1) with (z + Z.of_nat k) by lia. lia. }
    specialize (Mono (Z.to_nat (Z.of_nat v - z))). replace (z + Z.of_nat (Z.to_nat (Z.of_nat v - z))) with (Z.of_nat v) in Mono by lia. lia. }
  assert (L : forall u, (u <= v)%nat -> library_level R C P u = 0).
  { induction u as [|u IH]; intros Hu.
    - cbn [library_level]. pose proof (U 0%nat Hu) as U0. rewrite (pixels_upto_step R C P (Z.of_nat 0)) in U0 by lia.
      pose proof (pixels_of_bounds R C P 0 ltac:(lia) ltac:(lia)).
      pose proof (pixels_upto_bounds R C P (Z.of_nat 0 - 1) ltac:(lia) ltac:(lia)). change (Z.of_nat 0) with 0 in *. lia.
    - cbn [library_level]. rewrite IH by lia. pose proof (U (S u) Hu) as U0. rewrite (pixels_upto_step R C P (Z.of_nat (S u))) in U0 by lia.
      pose proof (pixels_of_bounds R C P (Z.of_nat (S u)) ltac:(lia) ltac:(lia)).
      pose proof (pixels_upto_bounds R C P (Z.of_nat (S u) - 1) ltac:(lia) ltac:(lia)).
      replace (pixels_of R C P (Z.of_nat (S u))) with 0 by lia. apply Z.div_0_l. nia. }
  cbn [library_level]. rewrite (L v) by lia. unfold equalised. rewrite (pixels_upto_step R C P (Z.of_nat (S v))) by lia.
  replace (Z.of_nat (S v) - 1) with (Z.of_nat v) by lia. rewrite H0. reflexivity.
Qed.
