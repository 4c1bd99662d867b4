(** * Proofs: morphology. *)
From Verif Require Import Base Logic ModelCore ModelMorph SpecBase SpecCore SpecImage SpecImage2 SpecPixel SpecMatrix SpecFilter SpecMorph
  ProofCore ProofLayout ProofHM ProofCopy ProofCore2 ProofImage3 ProofImage4 ProofBorder ProofPixel ProofGrad ProofLoop.
From Coq Require Import ZifyBool ZifyNat.
Ltac Zify.zify_post_hook ::= Z.div_mod_to_equations.
Open Scope Z_scope.

Definition fitsb (R C w h i j : Z) : bool :=
  (0 <=? i - h / 2) && (i + h / 2 <? R) && (0 <=? j - w / 2) && (j + w / 2 <? C).
Lemma fitsb_iff R C w h i j : fitsb R C w h i j = true <-> fits R C w h i j.
Proof. unfold fitsb, fits. lia. Qed.

Lemma half_c h : 0 <= h <= 2147483647 -> (ci h / ci 2)%C = Some (h / 2).
Proof.
  intros H. unfold ci. rewrite cdiv_ok; [|lia|rewrite Z.quot_div_nonneg by lia; lia].
  now rewrite Z.quot_div_nonneg by lia.
Qed.

Lemma window_inside_ok e s0 q i j R C w h : 0 <= i < R -> 0 <= j < C -> 0 < w <= C -> 0 < h <= R ->
  R <= 1000000000 -> C <= 1000000000 ->
  rdv e s0 q (window_inside i j R C w h) (fitsb R C w h i j).
Proof.
  intros Hi Hj Hw Hh HR HC. unfold window_inside, fitsb.
  eapply rdv_bind; [apply rdv_ev; rewrite half_c by lia; unfold ci; apply csub_ok; lia|].
  destruct (i - h / 2 >=? 0) eqn:E1; [|replace (0 <=? i - h / 2) with false by lia; apply rdv_ret].
  replace (0 <=? i - h / 2) with true by lia.
  eapply rdv_bind; [apply rdv_ev; rewrite half_c by lia; unfold ci; apply cadd_ok; lia|].
  destruct (i + h / 2 <? R) eqn:E2; [|apply rdv_ret].
  eapply rdv_bind; [apply rdv_ev; rewrite half_c by lia; unfold ci; apply csub_ok; lia|].
  destruct (j - w / 2 >=? 0) eqn:E3; [|replace (0 <=? j - w / 2) with false by lia; apply rdv_ret].
  replace (0 <=? j - w / 2) with true by lia.
  eapply rdv_bind; [apply rdv_ev; rewrite half_c by lia; unfold ci; apply cadd_ok; lia|].
  apply rdv_ret.
Qed.

Lemma side_bound R : 0 < R -> R * R <= 2147483551 -> R <= 46340.
Proof. intros H1 H2. nia. Qed.

(** The flag after the scan of the window, square images. *)
Section Scan.
  Variables (e : env) (s : st) (q qs : nat) (ns : Z) (fs : Z -> Z) (qe : nat) (ne : Z) (fe : Z -> Z) (R w h : Z).
  Hypothesis Hs : isb s qs ns fs.
  Hypothesis He : isb s qe ne fe.
  Hypothesis Hqs : qs <> q.
  Hypothesis Hqe : qe <> q.
  Hypothesis HR : 0 < R.
  Hypothesis Hmax : R * R <= 2147483551.
  Hypothesis Hns : R * R <= ns.
  Hypothesis Hne : w * h <= ne.
  Hypothesis Hw : 0 < w <= R.
  Hypothesis Hh : 0 < h <= R.
  Variables i j : Z.
  Hypothesis Hi : 0 <= i < R.
  Hypothesis Hj : 0 <= j < R.

  Definition bad (m n : Z) : Prop :=
    fits R R w h i j /\ fe (m * w + n) mod 256 = 1 /\ fs ((i - h / 2 + m) * R + (j - w / 2 + n)) mod 256 = 0.
  Definition badb (m n : Z) : bool :=
    fitsb R R w h i j && (fe (m * w + n) mod 256 =? 1) && (fs ((i - h / 2 + m) * R + (j - w / 2 + n)) mod 256 =? 0).
  Lemma badb_iff m n : badb m n = true <-> bad m n.
  Proof. unfold badb, bad. rewrite <- fitsb_iff. destruct (fitsb R R w h i j); lia. Qed.

  Definition cell (m n flag : Z) : M Z :=
      b <- window_inside i j R R w h ;;
      if b : bool then
        k <- ev (m * w + n)%C ;;
        x <- load8 (Some qe) k ;;
        if x =? 1 then
          y <- ev ((i - h / 2 + m) * R + j - w / 2 + n)%C ;;
          v <- load8 (Some qs) y ;;
          ret (if v =? 0 then 1 else flag)
        else ret flag
      else ret flag.
  Lemma scan_cell m n flag : 0 <= m < h -> 0 <= n < w ->
    rdv e s q (cell m n flag) (if badb m n then 1 else flag).
  Proof.
    intros Hm Hn. unfold cell. pose proof (side_bound R HR Hmax) as HB.
    eapply rdv_bind; [apply window_inside_ok; auto; lia|]. unfold badb.
    destruct (fitsb R R w h i j) eqn:F; [|apply rdv_ret]. apply fitsb_iff in F. destruct F as (F1 & F2 & F3 & F4).
    cbn [andb].
    assert (B1 : 0 <= m * w + n < w * h) by (clear - Hm Hn; nia).
    assert (B1' : 0 <= m * w < w * h) by (clear - Hm Hn; nia).
    assert (B1'' : w * h <= 2147483551) by (clear - Hw Hh Hmax; nia).
    eapply rdv_bind; [apply rdv_ev; unfold ci; rewrite cmul_ok by lia; apply cadd_ok; lia|].
    eapply rdv_bind; [eapply rdv_load8; eauto; lia|].
    destruct (fe (m * w + n) mod 256 =? 1) eqn:E1; [|apply rdv_ret]. cbn [andb].
    assert (G1 : 0 <= i - h / 2 + m < R) by lia. assert (G2 : 0 <= j - w / 2 + n < R) by lia.
    assert (B2 : 0 <= (i - h / 2 + m) * R + (j - w / 2 + n) < R * R) by (clear - G1 G2; nia).
    assert (B3 : 0 <= (i - h / 2 + m) * R <= R * R - R) by (clear - G1 G2; nia).
    eapply rdv_bind.
    { apply rdv_ev. rewrite !half_c by lia. unfold ci.
      rewrite (csub_ok i) by lia. rewrite (cadd_ok (i - h / 2)) by lia. rewrite cmul_ok by lia.
      rewrite (cadd_ok _ j) by lia. rewrite csub_ok by lia. rewrite cadd_ok by lia.
      replace ((i - h / 2 + m) * R + j - w / 2 + n) with ((i - h / 2 + m) * R + (j - w / 2 + n)) by lia. reflexivity. }
    eapply rdv_bind; [eapply rdv_load8; eauto; lia|].
    apply rdv_ret.
  Qed.

  Definition flagv : Z := foldZ 0 h (fun m flag => foldZ 0 w (fun n flag => if badb m n then 1 else flag) flag) 0.
  Lemma scan_ok : rdv e s q (window_scan (Some qs) (Some qe) i j R R w h) flagv
    /\ (flagv = 0 \/ flagv = 1) /\ (flagv = 1 <-> exists m n, 0 <= m < h /\ 0 <= n < w /\ bad m n).
  Proof.
    change (window_scan (Some qs) (Some qe) i j R R w h) with (forS 0 h (fun m flag => forS 0 w (cell m) flag) 0).
    destruct (rdv_forS_inv e s q 0 h (fun m flag => forS 0 w (cell m) flag)
       (fun m flag => foldZ 0 w (fun n flag => if badb m n then 1 else flag) flag)
       (fun m flag => (flag = 0 \/ flag = 1) /\ (flag = 1 <-> exists m' n, 0 <= m' < m /\ 0 <= n < w /\ bad m' n)) 0) as [W I].
    - lia.
    - intros m y Hm [I1 I2].
      destruct (rdv_forS_inv e s q 0 w (cell m) (fun n flag => if badb m n then 1 else flag)
        (fun n flag => (flag = 0 \/ flag = 1)
           /\ (flag = 1 <-> (exists m' n', 0 <= m' < m /\ 0 <= n' < w /\ bad m' n') \/ (exists n', 0 <= n' < n /\ bad m n'))) y) as [W [J1 J2]].
      + lia.
      + intros n z Hn [J1 J2]. split; [apply scan_cell; auto|].
        destruct (badb m n) eqn:B.
        * apply badb_iff in B. split; [auto|]. split; auto. intros _. right. exists n. split; [lia|exact B].
        * split; [exact J1|]. rewrite J2. split; (intros [X|(n' & Hn' & X)]; [left; exact X|right]).
          -- exists n'. split; [lia|exact X].
          -- exists n'. split; [|exact X]. assert (n' = n \/ n' < n) as [->|] by lia; [|lia].
             apply badb_iff in X. congruence.
      + split; [exact I1|]. rewrite I2. split; [intros X; left; exact X|]. intros [X|(n' & Hn' & _)]; [exact X|lia].
      + split; [exact W|]. split; [exact J1|]. rewrite J2. split.
        * intros [(m' & n' & H1 & H2 & H3)|(n' & H1 & H2)]; [exists m', n'|exists m, n']; (split; [lia|]); split; auto.
        * intros (m' & n' & H1 & H2 & H3). assert (m' = m \/ m' < m) as [->|] by lia; [right|left].
          -- exists n'. auto.
          -- exists m', n'. split; [lia|auto].
    - split; [auto|]. split; [lia|]. intros (m' & n' & H1 & _). lia.
    - split; [exact W|]. exact I.
  Qed.
End Scan.

(** ** Exact results on square images *)
Lemma element_isb s k w h d E : element s k w h d E -> exists q n f, d = Some q /\ isb s q n f /\ w * h <= n
  /\ forall m n, 0 <= m < h -> 0 <= n < w -> f (m * w + n) mod 256 = E m n.
Proof.
  intros (_ & Hw & Hh & H).
  assert (L : 0 <= (h - 1) * w + (w - 1)) by nia.
  pose proof (H (h - 1) (w - 1) ltac:(lia) ltac:(lia)) as H0. unfold byte_at in H0.
  destruct (bytes_at s d) as [[[q n] f]|] eqn:B; [|discriminate].
  assert (D : d = Some q).
  { unfold bytes_at in B. destruct d; [|discriminate]. repeat match type of B with context [match ?x with _ => _ end] => destruct x; try discriminate end.
    now injection B as -> _ _. }
  exists q, n, f. split; [exact D|]. split; [unfold isb; rewrite <- D; exact B|].
  destruct (inb ((h - 1) * w + (w - 1)) n) eqn:I; [|discriminate]. unfold inb in I. split; [nia|].
  intros a b Ha Hb. specialize (H a b Ha Hb). unfold byte_at in H. rewrite B in H. destruct (inb (a * w + b) n); congruence.
Qed.

Section Square.
  Variables (e : env) (s : st) (src dst k d : ptr) (ms md : smat) (w h : Z) (E P : Z -> Z -> Z).
  Hypothesis Is : image s src ms 1.
  Hypothesis Id : image s dst md 1.
  Hypothesis C1 : sm_chan ms = 1.
  Hypothesis C2 : sm_chan md = 1.
  Hypothesis ER : sm_rows md = sm_rows ms.
  Hypothesis EC : sm_cols md = sm_cols ms.
  Hypothesis Hsq : sm_rows ms = sm_cols ms.
  Hypothesis G : grey s ms P.
  Hypothesis El : element s k w h d E.
  Hypothesis Hw : w <= sm_cols ms.
  Hypothesis Hh : h <= sm_rows ms.
  Hypothesis N1 : sm_data ms <> sm_data md.
  Hypothesis N2 : d <> sm_data md.
  Local Notation R := (sm_rows ms).

  Lemma corrosion_run : exists s' V, hypercv_corrosion src dst k e s = Ret tt s'
    /\ painted s md V s' /\ written s (sm_data md) s' /\ library_erosion (sm_rows ms) (sm_cols ms) w h E P V.
  Proof.
    destruct (image_pixels _ _ _ Is) as (qs & ns & fs & Ps). destruct (image_pixels _ _ _ Id) as (qd & nd & fd & Pd).
    destruct (element_isb _ _ _ _ _ _ El) as (qe & ne & fe & -> & Ie & Le & Ee).
    destruct El as (Ek & Hw0 & Hh0 & _).
    pose proof (px_data _ _ _ _ _ Ps) as Ds. pose proof (px_data _ _ _ _ _ Pd) as Dd.
    assert (qs <> qd) by congruence. assert (qe <> qd) by congruence.
    pose proof (px_R _ _ _ _ _ Ps) as HR. pose proof (px_max _ _ _ _ _ Ps) as Hmax. pose proof (px_n _ _ _ _ _ Ps) as Hns.
    rewrite C1, Z.mul_1_r, <- Hsq in Hmax, Hns.
    assert (SC : forall i j, 0 <= i < R -> 0 <= j < R ->
       rdv e s qd (window_scan (Some qs) (Some qe) i j R R w h) (flagv fs fe R w h i j)
       /\ (flagv fs fe R w h i j = 0 \/ flagv fs fe R w h i j = 1)
       /\ (flagv fs fe R w h i j = 1 <-> fits R R w h i j /\ some_clear w h E P i j)).
    { intros i j Hi Hj.
      destruct (scan_ok e s qd qs ns fs qe ne fe R w h) with (i := i) (j := j) as (A & B & C);
        try assumption; try lia; [exact (px_isb _ _ _ _ _ Ps)|]. split; [exact A|]. split; [exact B|]. rewrite C.
      assert (V : forall m n, 0 <= m < h -> 0 <= n < w -> fits R R w h i j ->
          fs ((i - h / 2 + m) * R + (j - w / 2 + n)) mod 256 = P (i - h / 2 + m) (j - w / 2 + n)).
      { intros m n Hm Hn (F1 & F2 & F3 & F4). rewrite Hsq at 1. apply (near_grey s ms qs ns); auto; lia. }
      split.
      - intros (m & n & Hm & Hn & F & B1 & B2). split; [exact F|]. exists m, n. split; [exact Hm|]. split; [exact Hn|].
        rewrite <- V, <- Ee by assumption. split; assumption.
      - intros (F & m & n & Hm & Hn & B1 & B2). exists m, n. split; [exact Hm|]. split; [exact Hn|].
        split; [exact F|]. rewrite V, Ee by assumption. split; assumption. }
    assert (PV : forall i j, 0 <= i < R -> 0 <= j < R -> fs (i * R + j) mod 256 = P i j).
    { intros i j Hi Hj. rewrite Hsq at 1. apply (near_grey s ms qs ns); auto; lia. }
    set (V := fun i j => let v := fs (i * R + j) mod 256 in if v =? 0 then 0 else if flagv fs fe R w h i j =? 0 then v else 0).
    destruct (paint_run e s md qd nd fd (fun i j =>
        x <- ev (i * R + j)%C ;;
        v <- load8 (sm_data ms) x ;;
        if negb (v =? 0) then
          flag <- window_scan (sm_data ms) (Some qe) i j R R w h ;;
          if flag =? 0 then
            v <- load8 (sm_data ms) x ;;
            store8 (sm_data md) x v
          else store8 (sm_data md) x 0
        else store8 (sm_data md) x 0) V) as (s' & RUN & PA & WR); auto.
    - intros i j _ _. unfold V. cbv zeta. destruct (fs (i * R + j) mod 256 =? 0); destruct (flagv fs fe R w h i j =? 0); lia.
    - intros i j spec Hi Hj Hspec. rewrite ER in Hi. rewrite EC, <- Hsq in Hj, Hspec. rewrite EC, <- Hsq.
      assert (Hx : 0 <= i * R + j < R * R) by (clear - Hi Hj; nia).
      destruct (SC i j Hi Hj) as (A & B & _). rewrite Ds, Dd.
      pose proof (px_isb _ _ _ _ _ Ps) as Bs. pose proof (px_isb _ _ _ _ _ Pd) as Bd.
      pose proof (px_n _ _ _ _ _ Pd) as Nd. rewrite C2, Z.mul_1_r, ER, EC, <- Hsq in Nd.
      eapply wr_bind; [apply rdv_ev; apply (idx2_c R); auto; lia|].
      eapply wr_bind; [apply (rdv_load8 e s qd qs ns fs); [assumption|exact Bs|lia]|]. cbv beta in Hspec.
      unfold V in Hspec. cbv zeta in Hspec.
      destruct (fs (i * R + j) mod 256 =? 0) eqn:E0; cbn [negb].
      + apply (wr_store8 e s qd nd fd); [exact Bd|lia|]. rewrite Hspec. reflexivity.
      + eapply wr_bind; [exact A|]. destruct (flagv fs fe R w h i j =? 0).
        * eapply wr_bind; [apply (rdv_load8 e s qd qs ns fs); [assumption|exact Bs|lia]|].
          apply (wr_store8 e s qd nd fd); [exact Bd|lia|]. rewrite Hspec. lia.
        * apply (wr_store8 e s qd nd fd); [exact Bd|lia|]. rewrite Hspec. reflexivity.
    - exists s', V. split.
      { unfold hypercv_corrosion.
        assert (nonnull src = true /\ nonnull k = true /\ nonnull dst = true) as (-> & -> & ->).
        { destruct Is as [Hh1 _ _ _ _ _ _]. destruct Id as [Hh2 _ _ _ _ _ _].
          split; [destruct src; [reflexivity|discriminate]|]. split; [destruct k; [reflexivity|discriminate]|destruct dst; [reflexivity|discriminate]]. }
        rewrite bind_assert by reflexivity. rewrite bind_assert by reflexivity.
        rewrite (bind_ret _ _ _ _ _ _ (sget_ok src ms e s (im_hdr _ _ _ _ Is))).
        unfold s2get at 1. unfold bind at 1. rewrite Ek. cbv zeta. cbn [s2_width s2_height s2_data].
        replace ((sm_cols ms <? w) || (sm_rows ms <? h)) with false by lia.
        rewrite bind_ret_l. rewrite (bind_ret _ _ _ _ _ _ (sget_ok dst md e s (im_hdr _ _ _ _ Id))).
        rewrite <- Hsq. rewrite ER, EC, <- Hsq in RUN. exact RUN. }
      split; [exact PA|]. split; [exact WR|].
      intros i j Hi Hj. rewrite <- Hsq in Hj |- *. destruct (SC i j Hi Hj) as (_ & B & C).
      unfold V. cbv zeta. rewrite PV by assumption.
      assert (AS : fits R R w h i j -> (flagv fs fe R w h i j = 0 <-> all_set w h E P i j)).
      { intros F. split.
        - intros Z0 m n Hm Hn E1 P0. assert (flagv fs fe R w h i j = 1); [|lia]. apply C. split; [exact F|]. exists m, n. auto.
        - intros A. destruct B as [B|B]; [exact B|]. apply C in B. destruct B as (_ & m & n & Hm & Hn & E1 & P0).
          exfalso. exact (A m n Hm Hn E1 P0). }
      split; [|split].
      + intros F. specialize (AS F). destruct (P i j =? 0) eqn:E0; [lia|]. destruct (flagv fs fe R w h i j =? 0) eqn:E1; [|split; [lia|intros (_ & A); apply AS in A; lia]].
        split; [|lia]. intros _. split; [lia|]. apply AS. lia.
      + destruct (P i j =? 0); [auto|]. destruct (flagv fs fe R w h i j =? 0); auto.
      + intros NF. destruct (P i j =? 0) eqn:E0; [lia|]. destruct B as [-> |B]; [reflexivity|]. apply C in B. tauto.
  Qed.

  Lemma expend_run : exists s' V, hypercv_expend src dst k e s = Ret tt s'
    /\ painted s md V s' /\ written s (sm_data md) s' /\ library_dilation (sm_rows ms) (sm_cols ms) w h E P V.
  Proof.
    destruct (image_pixels _ _ _ Is) as (qs & ns & fs & Ps). destruct (image_pixels _ _ _ Id) as (qd & nd & fd & Pd).
    destruct (element_isb _ _ _ _ _ _ El) as (qe & ne & fe & -> & Ie & Le & Ee).
    destruct El as (Ek & Hw0 & Hh0 & _).
    pose proof (px_data _ _ _ _ _ Ps) as Ds. pose proof (px_data _ _ _ _ _ Pd) as Dd.
    assert (qs <> qd) by congruence. assert (qe <> qd) by congruence.
    pose proof (px_R _ _ _ _ _ Ps) as HR. pose proof (px_max _ _ _ _ _ Ps) as Hmax. pose proof (px_n _ _ _ _ _ Ps) as Hns.
    rewrite C1, Z.mul_1_r, <- Hsq in Hmax, Hns.
    assert (SC : forall i j, 0 <= i < R -> 0 <= j < R ->
       rdv e s qd (window_scan (Some qs) (Some qe) i j R R w h) (flagv fs fe R w h i j)
       /\ (flagv fs fe R w h i j = 0 \/ flagv fs fe R w h i j = 1)
       /\ (flagv fs fe R w h i j = 1 <-> fits R R w h i j /\ some_clear w h E P i j)).
    { intros i j Hi Hj.
      destruct (scan_ok e s qd qs ns fs qe ne fe R w h) with (i := i) (j := j) as (A & B & C);
        try assumption; try lia; [exact (px_isb _ _ _ _ _ Ps)|]. split; [exact A|]. split; [exact B|]. rewrite C.
      assert (V : forall m n, 0 <= m < h -> 0 <= n < w -> fits R R w h i j ->
          fs ((i - h / 2 + m) * R + (j - w / 2 + n)) mod 256 = P (i - h / 2 + m) (j - w / 2 + n)).
      { intros m n Hm Hn (F1 & F2 & F3 & F4). rewrite Hsq at 1. apply (near_grey s ms qs ns); auto; lia. }
      split.
      - intros (m & n & Hm & Hn & F & B1 & B2). split; [exact F|]. exists m, n. split; [exact Hm|]. split; [exact Hn|].
        rewrite <- V, <- Ee by assumption. split; assumption.
      - intros (F & m & n & Hm & Hn & B1 & B2). exists m, n. split; [exact Hm|]. split; [exact Hn|].
        split; [exact F|]. rewrite V, Ee by assumption. split; assumption. }
    assert (PV : forall i j, 0 <= i < R -> 0 <= j < R -> fs (i * R + j) mod 256 = P i j).
    { intros i j Hi Hj. rewrite Hsq at 1. apply (near_grey s ms qs ns); auto; lia. }
    set (V := fun i j => let v := fs (i * R + j) mod 256 in if v =? 0 then if flagv fs fe R w h i j =? 0 then v else 1 else v).
    destruct (paint_run e s md qd nd fd (fun i j =>
        x <- ev (i * R + j)%C ;;
        v <- load8 (sm_data ms) x ;;
        if v =? 0 then
          flag <- window_scan (sm_data ms) (Some qe) i j R R w h ;;
          if flag =? 0 then
            v <- load8 (sm_data ms) x ;;
            store8 (sm_data md) x v
          else store8 (sm_data md) x 1
        else
          v <- load8 (sm_data ms) x ;;
          store8 (sm_data md) x v) V) as (s' & RUN & PA & WR); auto.
    - intros i j _ _. unfold V. cbv zeta. destruct (fs (i * R + j) mod 256 =? 0); destruct (flagv fs fe R w h i j =? 0); lia.
    - intros i j spec Hi Hj Hspec. rewrite ER in Hi. rewrite EC, <- Hsq in Hj, Hspec. rewrite EC, <- Hsq.
      assert (Hx : 0 <= i * R + j < R * R) by (clear - Hi Hj; nia).
      destruct (SC i j Hi Hj) as (A & B & _). rewrite Ds, Dd.
      pose proof (px_isb _ _ _ _ _ Ps) as Bs. pose proof (px_isb _ _ _ _ _ Pd) as Bd.
      pose proof (px_n _ _ _ _ _ Pd) as Nd. rewrite C2, Z.mul_1_r, ER, EC, <- Hsq in Nd.
      eapply wr_bind; [apply rdv_ev; apply (idx2_c R); auto; lia|].
      eapply wr_bind; [apply (rdv_load8 e s qd qs ns fs); [assumption|exact Bs|lia]|]. cbv beta in Hspec.
      unfold V in Hspec. cbv zeta in Hspec.
      destruct (fs (i * R + j) mod 256 =? 0) eqn:E0.
      + eapply wr_bind; [exact A|]. destruct (flagv fs fe R w h i j =? 0).
        * eapply wr_bind; [apply (rdv_load8 e s qd qs ns fs); [assumption|exact Bs|lia]|].
          apply (wr_store8 e s qd nd fd); [exact Bd|lia|]. rewrite Hspec. lia.
        * apply (wr_store8 e s qd nd fd); [exact Bd|lia|]. rewrite Hspec. reflexivity.
      + eapply wr_bind; [apply (rdv_load8 e s qd qs ns fs); [assumption|exact Bs|lia]|].
        apply (wr_store8 e s qd nd fd); [exact Bd|lia|]. rewrite Hspec. lia.
    - exists s', V. split.
      { unfold hypercv_expend.
        assert (nonnull src = true /\ nonnull k = true /\ nonnull dst = true) as (-> & -> & ->).
        { destruct Is as [Hh1 _ _ _ _ _ _]. destruct Id as [Hh2 _ _ _ _ _ _].
          split; [destruct src; [reflexivity|discriminate]|]. split; [destruct k; [reflexivity|discriminate]|destruct dst; [reflexivity|discriminate]]. }
        rewrite bind_assert by reflexivity. rewrite bind_assert by reflexivity.
        rewrite (bind_ret _ _ _ _ _ _ (sget_ok src ms e s (im_hdr _ _ _ _ Is))).
        unfold s2get at 1. unfold bind at 1. rewrite Ek. cbv zeta. cbn [s2_width s2_height s2_data].
        replace ((sm_cols ms <? w) || (sm_rows ms <? h)) with false by lia.
        rewrite bind_ret_l. rewrite (bind_ret _ _ _ _ _ _ (sget_ok dst md e s (im_hdr _ _ _ _ Id))).
        rewrite <- Hsq. rewrite ER, EC, <- Hsq in RUN. exact RUN. }
      split; [exact PA|]. split; [exact WR|].
      intros i j Hi Hj. rewrite <- Hsq in Hj |- *. destruct (SC i j Hi Hj) as (_ & B & C).
      unfold V. cbv zeta. rewrite PV by assumption.
      split; [|split].
      + intros H1. destruct (P i j =? 0) eqn:E0; [lia|reflexivity].
      + intros H1 F. rewrite H1, Z.eqb_refl. destruct B as [B|B]; rewrite B; cbn.
        * split; [|auto]. split; [discriminate|]. intros X. assert (flagv fs fe R w h i j = 1) by (apply C; auto). lia.
        * split; [|auto]. split; [|reflexivity]. intros _. apply C in B. tauto.
      + intros NF. destruct (P i j =? 0) eqn:E0; [|reflexivity]. destruct B as [B|B]; [rewrite B; reflexivity|].
        apply C in B. tauto.
  Qed.

End Square.

(** ** The statements *)
Theorem corrosion_exact : forall e s src dst k d ms md w h E P, image s src ms 1 -> image s dst md 1 ->
  sm_chan ms = 1 -> sm_chan md = 1 -> sm_rows md = sm_rows ms -> sm_cols md = sm_cols ms -> sm_rows ms = sm_cols ms ->
  grey s ms P -> element s k w h d E -> w <= sm_cols ms -> h <= sm_rows ms ->
  sm_data ms <> sm_data md -> d <> sm_data md ->
  exists s' V, hypercv_corrosion src dst k e s = Ret tt s'
    /\ painted s md V s' /\ library_erosion (sm_rows ms) (sm_cols ms) w h E P V.
Proof.
  intros. destruct (corrosion_run e s src dst k d ms md w h E P) as (s' & V & A & B & _ & C); auto. exists s', V. auto.
Qed.
Theorem expend_exact : forall e s src dst k d ms md w h E P, image s src ms 1 -> image s dst md 1 ->
  sm_chan ms = 1 -> sm_chan md = 1 -> sm_rows md = sm_rows ms -> sm_cols md = sm_cols ms -> sm_rows ms = sm_cols ms ->
  grey s ms P -> element s k w h d E -> w <= sm_cols ms -> h <= sm_rows ms ->
  sm_data ms <> sm_data md -> d <> sm_data md ->
  exists s' V, hypercv_expend src dst k e s = Ret tt s'
    /\ painted s md V s' /\ library_dilation (sm_rows ms) (sm_cols ms) w h E P V.
Proof.
  intros. destruct (expend_run e s src dst k d ms md w h E P) as (s' & V & A & B & _ & C); auto. exists s', V. auto.
Qed.

(** Elements that contain their centre. *)
Lemma centre_clear w h E P i j : 0 < w -> 0 < h -> E (h / 2) (w / 2) = 1 -> P i j = 0 -> some_clear w h E P i j.
Proof.
  intros Hw Hh Ec P0. exists (h / 2), (w / 2). split; [lia|]. split; [lia|]. split; [exact Ec|].
  replace (i - h / 2 + h / 2) with i by lia. now replace (j - w / 2 + w / 2) with j by lia.
Qed.
Theorem erosion_centre : forall R C w h E P V, 0 < w -> 0 < h -> E (h / 2) (w / 2) = 1 ->
  library_erosion R C w h E P V -> erosion R C w h E P V.
Proof.
  intros R C w h E P V Hw Hh Ec H i j Hi Hj. destruct (H i j Hi Hj) as (A & _ & B). split; [|exact B].
  intros F. rewrite (A F). split; [tauto|]. intros X. split; [|exact X]. intros P0.
  destruct (centre_clear w h E P i j Hw Hh Ec P0) as (m & n & Hm & Hn & E1 & P1). exact (X m n Hm Hn E1 P1).
Qed.
Theorem dilation_centre : forall R C w h E P V i j, 0 < w -> 0 < h -> E (h / 2) (w / 2) = 1 ->
  library_dilation R C w h E P V -> 0 <= i < R -> 0 <= j < C -> fits R C w h i j -> V i j <> 0.
Proof.
  intros R C w h E P V i j Hw Hh Ec H Hi Hj F. destruct (H i j Hi Hj) as (A & B & _).
  destruct (Z.eq_dec (P i j) 0) as [P0|P0]; [|rewrite A; auto].
  destruct (B P0 F) as [B1 _]. rewrite (proj2 B1 (centre_clear w h E P i j Hw Hh Ec P0)). discriminate.
Qed.

(** An element larger than the image: nothing happens. *)
Lemma too_big e s src dst k d ms w h : sm_at s src = Some ms -> s2_at s k = Some (mkS2 w h d) ->
  sm_cols ms < w \/ sm_rows ms < h ->
  hypercv_corrosion src dst k e s = Ret tt s /\ hypercv_expend src dst k e s = Ret tt s.
Proof.
  intros Hs Hk Hb. unfold hypercv_corrosion, hypercv_expend.
  assert (nonnull src = true /\ nonnull k = true) as (-> & ->).
  { split; [destruct src; [reflexivity|discriminate]|destruct k; [reflexivity|discriminate]]. }
  rewrite !bind_assert by reflexivity. rewrite !(bind_ret _ _ _ _ _ _ (sget_ok src ms e s Hs)).
  unfold s2get. unfold bind. rewrite Hk. cbv zeta. cbn [s2_width s2_height].
  replace ((sm_cols ms <? w) || (sm_rows ms <? h)) with true by lia. split; reflexivity.
Qed.

(** ** Opening and closing *)
Lemma library_dilation_eq R C w h E P V V' : library_dilation R C w h E P V -> library_dilation R C w h E P V' ->
  forall i j, 0 <= i < R -> 0 <= j < C -> V i j = V' i j.
Proof.
  intros H H' i j Hi Hj. destruct (H i j Hi Hj) as (A & B & D). destruct (H' i j Hi Hj) as (A' & B' & D').
  destruct (Z.eq_dec (P i j) 0) as [P0|P0]; [|rewrite A, A'; auto].
  destruct (fitsb R C w h i j) eqn:F.
  - apply fitsb_iff in F. destruct (B P0 F) as [I J], (B' P0 F) as [I' J']. destruct J as [J|J], J' as [J'|J']; try congruence.
    + apply I' in J'. apply I in J'. congruence.
    + apply I in J. apply I' in J. congruence.
  - assert (NF : ~ fits R C w h i j) by (rewrite <- fitsb_iff; congruence). rewrite D, D'; auto.
Qed.
Lemma library_erosion_eq R C w h E P V V' : library_erosion R C w h E P V -> library_erosion R C w h E P V' ->
  forall i j, 0 <= i < R -> 0 <= j < C -> V i j = V' i j.
Proof.
  intros H H' i j Hi Hj. destruct (H i j Hi Hj) as (A & B & D). destruct (H' i j Hi Hj) as (A' & B' & D').
  destruct (fitsb R C w h i j) eqn:F.
  - apply fitsb_iff in F. specialize (A F). specialize (A' F).
    destruct (Z.eq_dec (V i j) 0), (Z.eq_dec (V' i j) 0); try congruence; tauto || (destruct B, B'; congruence).
  - assert (NF : ~ fits R C w h i j) by (rewrite <- fitsb_iff; congruence). rewrite D, D'; auto.
Qed.

Lemma written_trans s p s1 s2 : written s p s1 -> written s1 p s2 -> written s p s2.
Proof.
  intros (q & n & d & f & -> & I & ->) (q' & n' & d' & f' & E & I' & ->). injection E as <-.
  exists q, n, d, f'. split; auto. split; auto. apply putd_putd.
Qed.
Lemma written_grey s p s' ms P : written s p s' -> sm_data ms <> p -> grey s ms P -> grey s' ms P.
Proof.
  intros W N G i j Hi Hj. unfold pix, pixel_byte. rewrite (written_byte _ _ _ _ _ W N). apply (G i j Hi Hj).
Qed.
Lemma written_element s p s' k w h d E : written s p s' -> d <> p -> element s k w h d E -> element s' k w h d E.
Proof.
  intros W N (A & B & C & D). split.
  - destruct W as (q & n & g & f & -> & I & ->). now rewrite (s2_at_putd _ _ _ _ _ _ I).
  - split; auto. split; auto. intros m n Hm Hn. rewrite (written_byte _ _ _ _ _ W N). auto.
Qed.
Lemma painted_again s md V s1 V' s2 : painted s md V s1 -> written s (sm_data md) s1 -> painted s1 md V' s2 ->
  written s1 (sm_data md) s2 -> painted s md V' s2.
Proof.
  intros (_ & A2 & _) W1 (B1 & B2 & _) W2. split; [exact B1|]. split.
  - intros x Hx. rewrite B2, A2; auto.
  - apply written_only. eapply written_trans; eauto.
Qed.

Section Twice.
  Variables (e : env) (src dst k d : ptr) (ms md : smat) (w h : Z) (E P : Z -> Z -> Z).
  Hypothesis C1 : sm_chan ms = 1.
  Hypothesis C2 : sm_chan md = 1.
  Hypothesis ER : sm_rows md = sm_rows ms.
  Hypothesis EC : sm_cols md = sm_cols ms.
  Hypothesis Hsq : sm_rows ms = sm_cols ms.
  Hypothesis Hw : w <= sm_cols ms.
  Hypothesis Hh : h <= sm_rows ms.
  Hypothesis N1 : sm_data ms <> sm_data md.
  Hypothesis N2 : d <> sm_data md.
  Definition ready (s : st) : Prop := image s src ms 1 /\ image s dst md 1 /\ grey s ms P /\ element s k w h d E.
  Lemma ready_written s s' : ready s -> written s (sm_data md) s' -> ready s'.
  Proof.
    intros (A & B & C & D) W. split; [eapply written_image; eauto|]. split; [eapply written_image; eauto|].
    split; [eapply written_grey; eauto|eapply written_element; eauto].
  Qed.
  (** A step that repaints the destination from the source. *)
  Definition repaints (op : M unit) (L : (Z -> Z -> Z) -> Prop) : Prop :=
    forall s, ready s -> exists s' V, op e s = Ret tt s' /\ painted s md V s' /\ written s (sm_data md) s' /\ L V.
  Lemma repaint_seq op op' L L' : repaints op L -> repaints op' L' -> repaints (op ;;; op') L'.
  Proof.
    intros H H' s R. destruct (H s R) as (s1 & V1 & A1 & B1 & W1 & _).
    destruct (H' s1 (ready_written _ _ R W1)) as (s2 & V2 & A2 & B2 & W2 & K).
    exists s2, V2. split; [rewrite (bind_ret _ _ _ _ _ _ A1); exact A2|].
    split; [eapply painted_again; eauto|]. split; [eapply written_trans; eauto|exact K].
  Qed.
  Lemma repaint_for op L n : repaints op L -> 0 < n -> repaints (for_ 0 n (fun _ => op)) L.
  Proof.
    intros H Hn s R. destruct (H s R) as (s1 & V1 & A1 & B1 & W1 & K1).
    assert (F : exists s', for_ (0 + 1) n (fun _ => op) e s1 = Ret tt s' /\
       (exists V, painted s md V s' /\ written s (sm_data md) s' /\ L V)).
    { apply (for_inv e (0 + 1) n (fun _ => op) (fun _ s' => exists V, painted s md V s' /\ written s (sm_data md) s' /\ L V)); [lia|eauto|].
      intros _ s2 _ (V2 & B2 & W2 & K2). destruct (H s2 (ready_written _ _ R W2)) as (s3 & V3 & A3 & B3 & W3 & K3).
      exists s3. split; [exact A3|]. exists V3. split; [eapply painted_again; eauto|]. split; [eapply written_trans; eauto|exact K3]. }
    destruct F as (s' & A & V & B). exists s', V. split; [|exact B].
    rewrite for_first by lia. rewrite (bind_ret _ _ _ _ _ _ A1). exact A.
  Qed.
  Lemma corrosion_repaints : repaints (hypercv_corrosion src dst k) (library_erosion (sm_rows ms) (sm_cols ms) w h E P).
  Proof. intros s (A & B & C & D). apply (corrosion_run e s src dst k d); auto. Qed.
  Lemma expend_repaints : repaints (hypercv_expend src dst k) (library_dilation (sm_rows ms) (sm_cols ms) w h E P).
  Proof. intros s (A & B & C & D). apply (expend_run e s src dst k d); auto. Qed.
  Lemma open_run n : 0 < n -> repaints (hypercv_open src dst k n) (library_dilation (sm_rows ms) (sm_cols ms) w h E P).
  Proof.
    intros Hn s R.
    destruct (repaint_for _ _ n (repaint_seq _ _ _ _ corrosion_repaints expend_repaints) Hn s R) as (s' & V & A & B).
    exists s', V. split; [|exact B]. destruct R as (I1 & I2 & _ & El & _). unfold hypercv_open.
    assert (nonnull src = true /\ nonnull k = true /\ nonnull dst = true) as (-> & -> & ->).
    { pose proof (im_hdr _ _ _ _ I1). pose proof (im_hdr _ _ _ _ I2).
      split; [destruct src; [reflexivity|discriminate]|]. split; [destruct k; [reflexivity|discriminate]|destruct dst; [reflexivity|discriminate]]. }
    rewrite !bind_assert by reflexivity. rewrite (bind_ret _ _ _ _ _ _ (sget_ok src ms e s (im_hdr _ _ _ _ I1))).
    rewrite bind_ret_l. exact A.
  Qed.
  Lemma close_run n : 0 < n -> repaints (hypercv_close src dst k n) (library_erosion (sm_rows ms) (sm_cols ms) w h E P).
  Proof.
    intros Hn s R.
    destruct (repaint_for _ _ n (repaint_seq _ _ _ _ expend_repaints corrosion_repaints) Hn s R) as (s' & V & A & B).
    exists s', V. split; [|exact B]. destruct R as (I1 & I2 & _ & El & _). unfold hypercv_close.
    assert (nonnull src = true /\ nonnull k = true /\ nonnull dst = true) as (-> & -> & ->).
    { pose proof (im_hdr _ _ _ _ I1). pose proof (im_hdr _ _ _ _ I2).
      split; [destruct src; [reflexivity|discriminate]|]. split; [destruct k; [reflexivity|discriminate]|destruct dst; [reflexivity|discriminate]]. }
    rewrite !bind_assert by reflexivity. rewrite (bind_ret _ _ _ _ _ _ (sget_ok src ms e s (im_hdr _ _ _ _ I1))).
    rewrite bind_ret_l. exact A.
  Qed.
End Twice.

Theorem open_exact : forall e s src dst k d ms md w h E P n, image s src ms 1 -> image s dst md 1 ->
  sm_chan ms = 1 -> sm_chan md = 1 -> sm_rows md = sm_rows ms -> sm_cols md = sm_cols ms -> sm_rows ms = sm_cols ms ->
  grey s ms P -> element s k w h d E -> w <= sm_cols ms -> h <= sm_rows ms ->
  sm_data ms <> sm_data md -> d <> sm_data md -> 0 < n ->
  exists s' V, hypercv_open src dst k n e s = Ret tt s'
    /\ painted s md V s' /\ library_dilation (sm_rows ms) (sm_cols ms) w h E P V.
Proof.
  intros. destruct (open_run e src dst k d ms md w h E P) with (n := n) (s := s) as (s' & V & A & B & _ & D); auto.
  - split; auto.
  - exists s', V. auto.
Qed.
Theorem close_exact : forall e s src dst k d ms md w h E P n, image s src ms 1 -> image s dst md 1 ->
  sm_chan ms = 1 -> sm_chan md = 1 -> sm_rows md = sm_rows ms -> sm_cols md = sm_cols ms -> sm_rows ms = sm_cols ms ->
  grey s ms P -> element s k w h d E -> w <= sm_cols ms -> h <= sm_rows ms ->
  sm_data ms <> sm_data md -> d <> sm_data md -> 0 < n ->
  exists s' V, hypercv_close src dst k n e s = Ret tt s'
    /\ painted s md V s' /\ library_erosion (sm_rows ms) (sm_cols ms) w h E P V.
Proof.
  intros. destruct (close_run e src dst k d ms md w h E P) with (n := n) (s := s) as (s' & V & A & B & _ & D); auto.
  - split; auto.
  - exists s', V. auto.
Qed.

(** ** Images that are not square *)
Section Either.
  Variables (e : env) (s : st) (q : nat) (n : Z) (d0 : Z -> Z).
  Hypothesis Hq : isb s q n d0.
  Definition eith {A} (m : M A) : Prop :=
    forall f, m e (putd s q f) = UB \/ exists v, m e (putd s q f) = Ret v (putd s q f).
  Definition eithw (m : M unit) : Prop :=
    forall f, m e (putd s q f) = UB \/ exists f', m e (putd s q f) = Ret tt (putd s q f').
  Lemma eith_ret {A} (v : A) : eith (ret v).
  Proof. intros f. right. exists v. reflexivity. Qed.
  Lemma eith_ev c : eith (ev c).
  Proof. intros f. unfold ev. destruct c; [right; eauto|left; reflexivity]. Qed.
  Lemma eith_load8 p i : eith (load8 p i).
  Proof.
    intros f. unfold load8. destruct p as [p|]; [|left; reflexivity].
    destruct (bytes_at (putd s q f) (Some p)) as [[[a b] c]|]; [|left; reflexivity].
    destruct (inb i b); [right; eauto|left; reflexivity].
  Qed.
  Lemma eith_bind {A B} (m : M A) (k : A -> M B) : eith m -> (forall v, eith (k v)) -> eith (bind m k).
  Proof.
    intros H K f. destruct (H f) as [U|(v & E)]; [left; apply bind_ub; exact U|].
    rewrite (bind_ret _ _ _ _ _ _ E). apply K.
  Qed.
  Lemma eith_forS {S} lo hi (body : Z -> S -> M S) x : (forall i y, eith (body i y)) -> eith (forS lo hi body x).
  Proof.
    intros H. unfold forS. generalize (Z.to_nat (hi - lo)). intros k. revert lo x.
    induction k as [|k IH]; intros lo x; [apply eith_ret|]. cbn [iterS]. apply eith_bind; auto.
  Qed.
  Lemma eithw_bind {A} (m : M A) k : eith m -> (forall v, eithw (k v)) -> eithw (bind m k).
  Proof.
    intros H K f. destruct (H f) as [U|(v & E)]; [left; apply bind_ub; exact U|].
    rewrite (bind_ret _ _ _ _ _ _ E). apply K.
  Qed.
  Lemma eithw_store8 i v : eithw (store8 (Some q) i v).
  Proof.
    intros f. destruct (inb i n) eqn:I; unfold inb in I.
    - right. eexists. rewrite (store8_ok e _ q n f) by (lia || (eapply isb_putd_eq; eauto)). now rewrite putd_putd.
    - left. apply (store8_oob e _ q n f); [eapply isb_putd_eq; eauto|lia].
  Qed.
  Lemma eithw_for lo hi body : (forall i, eithw (body i)) -> eithw (for_ lo hi body).
  Proof.
    intros H. unfold for_. generalize (Z.to_nat (hi - lo)). intros k. revert lo.
    induction k as [|k IH]; intros lo f; [right; eexists; reflexivity|]. cbn [iter_].
    destruct (H lo f) as [U|(f' & E)]; [left; apply bind_ub; exact U|].
    rewrite (bind_ret _ _ _ _ _ _ E). apply IH.
  Qed.
  Lemma eith_window i j R C w h : eith (window_inside i j R C w h).
  Proof.
    unfold window_inside. apply eith_bind; [apply eith_ev|]. intros a. destruct (a >=? 0); [|apply eith_ret].
    apply eith_bind; [apply eith_ev|]. intros b. destruct (b <? R); [|apply eith_ret].
    apply eith_bind; [apply eith_ev|]. intros c. destruct (c >=? 0); [|apply eith_ret].
    apply eith_bind; [apply eith_ev|]. intros. apply eith_ret.
  Qed.
  Lemma eith_scan src sd i j R C w h : eith (window_scan src sd i j R C w h).
  Proof.
    unfold window_scan. apply eith_forS. intros m y. apply eith_forS. intros n' z.
    apply eith_bind; [apply eith_window|]. intros b. destruct b; [|apply eith_ret].
    apply eith_bind; [apply eith_ev|]. intros k. apply eith_bind; [apply eith_load8|]. intros x.
    destruct (x =? 1); [|apply eith_ret].
    apply eith_bind; [apply eith_ev|]. intros y'. apply eith_bind; [apply eith_load8|]. intros. apply eith_ret.
  Qed.
  (** Loops over a grid that come to a read outside. *)
  Lemma grid_ub R C (body : Z -> Z -> M unit) i0 j0 : 0 <= i0 < R -> 0 <= j0 < C ->
    (forall i j, eithw (body i j)) -> (forall f, body i0 j0 e (putd s q f) = UB) ->
    for_ 0 R (fun i => for_ 0 C (fun j => body i j)) e s = UB.
  Proof.
    intros Hi Hj H U.
    apply (for_ub_some e 0 R _ (fun s1 => exists f, s1 = putd s q f) i0); auto.
    - exists d0. symmetry. eapply putd_id; eauto.
    - intros i s1 _ (f & ->). destruct (eithw_for 0 C (fun j => body i j) (H i) f) as [X|(f' & X)]; [left; exact X|].
      right. eauto.
    - intros s1 (f & ->). apply (for_ub_some e 0 C _ (fun s1 => exists f, s1 = putd s q f) j0); eauto.
      + intros j s1 _ (g & ->). destruct (H i0 j g) as [X|(f' & X)]; [left; exact X|]. right. eauto.
      + intros s1 (g & ->). apply U.
  Qed.
End Either.

Lemma tall_index R C : 0 < C -> C < R -> R * C <= (R - 1) * R + (C - 1).
Proof. intros. nia. Qed.

Theorem tall_undefined : forall e s src dst k d ms md w h q f, image s src ms 1 -> image s dst md 1 ->
  sm_chan ms = 1 -> s2_at s k = Some (mkS2 w h d) -> w <= sm_cols ms -> h <= sm_rows ms -> sm_data ms <> sm_data md ->
  bytes_at s (sm_data ms) = Some (q, sm_rows ms * sm_cols ms, f) -> sm_cols ms < sm_rows ms ->
  hypercv_corrosion src dst k e s = UB /\ hypercv_expend src dst k e s = UB.
Proof.
  intros e s src dst k d ms md w h q f Is Id C1 Hk Hw Hh N B Ht.
  destruct (image_pixels _ _ _ Id) as (qd & nd & fd & Pd). destruct (image_pixels _ _ _ Is) as (qs & ns & fs & Ps).
  pose proof (px_data _ _ _ _ _ Ps) as Ds. pose proof (px_data _ _ _ _ _ Pd) as Dd.
  pose proof (px_isb _ _ _ _ _ Ps) as Bs. unfold isb in Bs. rewrite Ds in B. rewrite B in Bs. injection Bs as -> <- <-.
  fold (isb s qs (sm_rows ms * sm_cols ms) f) in B.
  pose proof (px_isb _ _ _ _ _ Pd) as Bd.
  pose proof (im_hdr _ _ _ _ Is) as Hs. pose proof (im_hdr _ _ _ _ Id) as Hd.
  pose proof (px_C _ _ _ _ _ Ps) as HC. pose proof (tall_index _ _ HC Ht) as T.
  assert (qs <> qd) by congruence.
  assert (U : forall (k : Z -> Z -> M unit) g, (x <- ev ((sm_rows ms - 1)%Z * sm_rows ms + (sm_cols ms - 1)%Z)%C ;;
       v <- load8 (sm_data ms) x ;; k x v) e (putd s qd g) = UB).
  { intros k' g. destruct (ci (sm_rows ms - 1) * ci (sm_rows ms) + ci (sm_cols ms - 1))%C as [z|] eqn:EV; [|reflexivity].
    rewrite (bind_ret _ _ _ _ _ _ (ev_ok (Some z) z e (putd s qd g) eq_refl)). rewrite Ds. apply bind_ub. apply (load8_oob e _ qs (sm_rows ms * sm_cols ms) f); [now apply isb_putd_ne|].
    unfold ci, cmul, cop, chk in EV. destruct (in_int _); [|discriminate]. unfold cadd, cop, chk in EV.
    destruct (in_int _); [|discriminate]. injection EV as <-. lia. }
  unfold hypercv_corrosion, hypercv_expend.
  assert (nonnull src = true /\ nonnull k = true /\ nonnull dst = true) as (-> & -> & ->).
  { split; [destruct src; [reflexivity|discriminate]|]. split; [destruct k; [reflexivity|discriminate]|destruct dst; [reflexivity|discriminate]]. }
  rewrite !bind_assert by reflexivity. rewrite !(bind_ret _ _ _ _ _ _ (sget_ok src ms e s Hs)).
  assert (GK : s2get k e s = Ret (mkS2 w h d) s) by (unfold s2get; now rewrite Hk).
  rewrite !(bind_ret _ _ _ _ _ _ GK). cbv zeta. cbn [s2_width s2_height s2_data].
  replace ((sm_cols ms <? w) || (sm_rows ms <? h)) with false by lia.
  rewrite !bind_ret_l. rewrite !(bind_ret _ _ _ _ _ _ (sget_ok dst md e s Hd)).
  rewrite Dd. split.
  - eapply grid_ub with (i0 := sm_rows ms - 1) (j0 := sm_cols ms - 1); [exact Bd|lia|lia| |intros g; apply U].
    intros i j. apply eithw_bind; [apply eith_ev|]. intros x. apply eithw_bind; [apply eith_load8|]. intros v.
    destruct (negb (v =? 0)); [|eapply eithw_store8; eauto].
    apply eithw_bind; [apply eith_scan|]. intros flag. destruct (flag =? 0); [|eapply eithw_store8; eauto].
    apply eithw_bind; [apply eith_load8|]. intros v'. eapply eithw_store8; eauto.
  - eapply grid_ub with (i0 := sm_rows ms - 1) (j0 := sm_cols ms - 1); [exact Bd|lia|lia| |intros g; apply U].
    intros i j. apply eithw_bind; [apply eith_ev|]. intros x. apply eithw_bind; [apply eith_load8|]. intros v.
    destruct (v =? 0); [|apply eithw_bind; [apply eith_load8|]; intros v'; eapply eithw_store8; eauto].
    apply eithw_bind; [apply eith_scan|]. intros flag. destruct (flag =? 0); [|eapply eithw_store8; eauto].
    apply eithw_bind; [apply eith_load8|]. intros v'. eapply eithw_store8; eauto.
Qed.
