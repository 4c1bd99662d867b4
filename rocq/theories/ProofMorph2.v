(** * Proofs: morphology on images with more columns than rows. *)
From Verif Require Import Base Logic ModelCore ModelMorph SpecBase SpecCore SpecImage SpecImage2 SpecPixel SpecMatrix SpecFilter SpecMorph SpecMorph2
  ProofCore ProofLayout ProofHM ProofCopy ProofCore2 ProofImage3 ProofImage4 ProofBorder ProofPixel ProofGrad ProofLoop ProofMorph.
From Coq Require Import ZifyBool ZifyNat.
Ltac Zify.zify_post_hook ::= Z.div_mod_to_equations.
Open Scope Z_scope.

Section Scan.
  Variables (e : env) (s : st) (q qs : nat) (ns : Z) (fs : Z -> Z) (qe : nat) (ne : Z) (fe : Z -> Z) (R C w h : Z).
  Hypothesis Hs : isb s qs ns fs.
  Hypothesis He : isb s qe ne fe.
  Hypothesis Hqs : qs <> q.
  Hypothesis Hqe : qe <> q.
  Hypothesis HR : 0 < R <= C.
  Hypothesis HC : C <= 1000000000.
  Hypothesis Hmax : R * C <= 2147483551.
  Hypothesis Hns : R * C <= ns.
  Hypothesis Hne : w * h <= ne.
  Hypothesis Hw : 0 < w <= C.
  Hypothesis Hh : 0 < h <= R.
  Variables i j : Z.
  Hypothesis Hi : 0 <= i < R.
  Hypothesis Hj : 0 <= j < C.

  Definition wbad (m n : Z) : Prop :=
    fits R C w h i j /\ fe (m * w + n) mod 256 = 1 /\ fs ((i - h / 2 + m) * R + (j - w / 2 + n)) mod 256 = 0.
  Definition wbadb (m n : Z) : bool :=
    fitsb R C w h i j && (fe (m * w + n) mod 256 =? 1) && (fs ((i - h / 2 + m) * R + (j - w / 2 + n)) mod 256 =? 0).
  Lemma wbadb_iff m n : wbadb m n = true <-> wbad m n.
  Proof. unfold wbadb, wbad. rewrite <- fitsb_iff. destruct (fitsb R C w h i j); lia. Qed.

  Definition wcell (m n flag : Z) : M Z :=
      b <- window_inside i j R C w h ;;
      if b : bool then
        k <- ev (m * w + n)%C ;;
        x <- load8 (Some qe) k ;;
        if x =? 1 then
          y <- ev ((i - h / 2 + m) * R + j - w / 2 + n)%C ;;
          v <- load8 (Some qs) y ;;
          ret (if v =? 0 then 1 else flag)
        else ret flag
      else ret flag.
  Lemma wscan_cell m n flag : 0 <= m < h -> 0 <= n < w ->
    rdv e s q (wcell m n flag) (if wbadb m n then 1 else flag).
  Proof.
    intros Hm Hn. unfold wcell.
    eapply rdv_bind; [apply window_inside_ok; auto; lia|]. unfold wbadb.
    destruct (fitsb R C w h i j) eqn:F; [|apply rdv_ret]. apply fitsb_iff in F. destruct F as (F1 & F2 & F3 & F4).
    cbn [andb].
    assert (B1 : 0 <= m * w + n < w * h) by (clear - Hm Hn; nia).
    assert (B1' : 0 <= m * w < w * h) by (clear - Hm Hn; nia).
    assert (B1'' : w * h <= 2147483551) by (clear - Hw Hh Hmax; nia).
    eapply rdv_bind; [apply rdv_ev; unfold ci; rewrite cmul_ok by lia; apply cadd_ok; lia|].
    eapply rdv_bind; [eapply rdv_load8; eauto; lia|].
    destruct (fe (m * w + n) mod 256 =? 1) eqn:E1; [|apply rdv_ret]. cbn [andb].
    assert (G1 : 0 <= i - h / 2 + m < R) by lia. assert (G2 : 0 <= j - w / 2 + n < C) by lia.
    assert (B3 : 0 <= (i - h / 2 + m) * R <= R * C - C) by (clear - G1 G2 HR; nia).
    assert (B2 : 0 <= (i - h / 2 + m) * R + (j - w / 2 + n) < R * C) by lia.
    eapply rdv_bind.
    { apply rdv_ev. rewrite !half_c by lia. unfold ci.
      rewrite (csub_ok i) by lia. rewrite (cadd_ok (i - h / 2)) by lia. rewrite cmul_ok by lia.
      rewrite (cadd_ok _ j) by lia. rewrite csub_ok by lia. rewrite cadd_ok by lia.
      replace ((i - h / 2 + m) * R + j - w / 2 + n) with ((i - h / 2 + m) * R + (j - w / 2 + n)) by lia. reflexivity. }
    eapply rdv_bind; [eapply rdv_load8; eauto; lia|].
    apply rdv_ret.
  Qed.

  Definition wflag : Z := foldZ 0 h (fun m flag => foldZ 0 w (fun n flag => if wbadb m n then 1 else flag) flag) 0.
  Lemma wscan_ok : rdv e s q (window_scan (Some qs) (Some qe) i j R C w h) wflag
    /\ (wflag = 0 \/ wflag = 1) /\ (wflag = 1 <-> exists m n, 0 <= m < h /\ 0 <= n < w /\ wbad m n).
  Proof.
    change (window_scan (Some qs) (Some qe) i j R C w h) with (forS 0 h (fun m flag => forS 0 w (wcell m) flag) 0).
    destruct (rdv_forS_inv e s q 0 h (fun m flag => forS 0 w (wcell m) flag)
       (fun m flag => foldZ 0 w (fun n flag => if wbadb m n then 1 else flag) flag)
       (fun m flag => (flag = 0 \/ flag = 1) /\ (flag = 1 <-> exists m' n, 0 <= m' < m /\ 0 <= n < w /\ wbad m' n)) 0) as [W I].
    - lia.
    - intros m y Hm [I1 I2].
      destruct (rdv_forS_inv e s q 0 w (wcell m) (fun n flag => if wbadb m n then 1 else flag)
        (fun n flag => (flag = 0 \/ flag = 1)
           /\ (flag = 1 <-> (exists m' n', 0 <= m' < m /\ 0 <= n' < w /\ wbad m' n') \/ (exists n', 0 <= n' < n /\ wbad m n'))) y) as [W [J1 J2]].
      + lia.
      + intros n z Hn [J1 J2]. split; [apply wscan_cell; auto|].
        destruct (wbadb m n) eqn:B.
        * apply wbadb_iff in B. split; [auto|]. split; auto. intros _. right. exists n. split; [lia|exact B].
        * split; [exact J1|]. rewrite J2. split; (intros [X|(n' & Hn' & X)]; [left; exact X|right]).
          -- exists n'. split; [lia|exact X].
          -- exists n'. split; [|exact X]. assert (n' = n \/ n' < n) as [->|] by lia; [|lia].
             apply wbadb_iff in X. congruence.
      + split; [exact I1|]. rewrite I2. split; [intros X; left; exact X|]. intros [X|(n' & Hn' & _)]; [exact X|lia].
      + split; [exact W|]. split; [exact J1|]. rewrite J2. split.
        * intros [(m' & n' & H1 & H2 & H3)|(n' & H1 & H2)]; [exists m', n'|exists m, n']; (split; [lia|]); split; auto.
        * intros (m' & n' & H1 & H2 & H3). assert (m' = m \/ m' < m) as [->|] by lia; [right|left].
          -- exists n'. auto.
          -- exists m', n'. split; [lia|auto].
    - split; [auto|]. split; [lia|]. intros (m' & n' & H1 & _). lia.
    - split; [exact W|]. exact I.
  Qed.
End Scan.

(** ** Rows stored one over the other *)
Section Over.
  Variables (e : env) (s : st) (q : nat) (n : Z) (d : Z -> Z) (R C : Z) (body : Z -> Z -> M unit) (V : Z -> Z -> Z).
  Hypothesis I : isb s q n d.
  Hypothesis HR : 0 < R <= C.
  Hypothesis Hb : forall i j, 0 <= i < R -> 0 <= j < C -> wr e s q (body i j) (fun x => x = i * R + j) (fun _ => V i j).

  (** After i rows. *)
  Definition upto (i : Z) (f : Z -> Z) : Prop :=
    (forall x, 0 <= x < (i - 1) * R + C -> 0 < i ->
       f x mod 256 = V (Z.min (x / R) (i - 1)) (x - Z.min (x / R) (i - 1) * R))
    /\ (forall x, ~ (0 <= x < (i - 1) * R + C /\ 0 < i) -> f x = d x).

  Lemma over_row i f : 0 <= i < R -> exists f', for_ 0 C (body i) e (putd s q f) = Ret tt (putd s q f')
    /\ (forall x, i * R <= x < i * R + C -> f' x mod 256 = V i (x - i * R))
    /\ (forall x, ~ i * R <= x < i * R + C -> f' x = f x).
  Proof.
    intros Hi.
    assert (W : wr e s q (for_ 0 C (body i)) (fun x => exists j, 0 <= j < C /\ x = i * R + j) (fun x => V i (x - i * R))).
    { apply wr_for. intros j Hj g. destruct (Hb i j Hi Hj g) as (g' & E & A & _ & B). exists g'.
      split; [exact E|]. cbv beta in *. split; [|split].
      - intros p ->. rewrite A by reflexivity. f_equal. lia.
      - intros p. destruct (Z.eq_dec p (i * R + j)) as [->|N]; [left|right; apply B; exact N].
        rewrite A by reflexivity. f_equal. lia.
      - exact B. }
    destruct (W f) as (f' & E & A & _ & B). exists f'. split; [exact E|]. split.
    - intros x Hx. apply A. exists (x - i * R). split; lia.
    - intros x Hx. apply B. intros (j & Hj & ->). lia.
  Qed.

  Lemma over_run : exists f', for_ 0 R (fun i => for_ 0 C (fun j => body i j)) e s = Ret tt (putd s q f')
    /\ (forall x, 0 <= x < (R - 1) * R + C -> f' x mod 256 = V (last_row R x) (x - last_row R x * R))
    /\ (forall x, ~ 0 <= x < (R - 1) * R + C -> f' x = d x).
  Proof.
    destruct (for_inv e 0 R (fun i => for_ 0 C (fun j => body i j))
      (fun i s1 => exists f, s1 = putd s q f /\ upto i f) s) as (s' & E & f & -> & U1 & U2); [lia| | |].
    - exists d. split; [symmetry; eapply putd_id; exact I|]. split; [intros; lia|reflexivity].
    - intros i s1 Hi (f & -> & U1 & U2). destruct (over_row i f Hi) as (f' & E & A & B).
      exists (putd s q f'). split; [exact E|]. exists f'. split; [reflexivity|]. split.
      + intros x Hx _. replace (i + 1 - 1) with i in * by lia.
        destruct (Z_lt_ge_dec x (i * R)) as [L|G].
        * assert (D : x / R < i) by (apply Z.div_lt_upper_bound; lia).
          assert (0 < i) by (clear - L Hx HR; nia).
          rewrite B by lia. rewrite U1 by lia. rewrite !Z.min_l by lia. reflexivity.
        * assert (D : i <= x / R) by (apply Z.div_le_lower_bound; lia).
          rewrite A by lia. rewrite Z.min_r by lia. reflexivity.
      + intros x Hx. replace (i + 1 - 1) with i in * by lia.
        assert (0 <= i * R) by (clear - Hi HR; nia).
        rewrite B by lia. apply U2. lia.
    - exists f. split; [exact E|]. split; [intros x Hx; apply U1; lia|]. intros x Hx. apply U2. lia.
  Qed.
End Over.

Section Wide.
  Variables (e : env) (s : st) (src dst k d : ptr) (ms md : smat) (w h : Z) (E P : Z -> Z -> Z).
  Hypothesis Is : image s src ms 1.
  Hypothesis Id : image s dst md 1.
  Hypothesis C1 : sm_chan ms = 1.
  Hypothesis C2 : sm_chan md = 1.
  Hypothesis ER : sm_rows md = sm_rows ms.
  Hypothesis EC : sm_cols md = sm_cols ms.
  Hypothesis Hwide : sm_rows ms <= sm_cols ms.
  Hypothesis Hbig : sm_cols ms <= 1000000000.
  Hypothesis G : overlapping s (sm_data ms) (sm_rows ms) (sm_cols ms) P.
  Hypothesis El : element s k w h d E.
  Hypothesis Hw : w <= sm_cols ms.
  Hypothesis Hh : h <= sm_rows ms.
  Hypothesis N1 : sm_data ms <> sm_data md.
  Hypothesis N2 : d <> sm_data md.
  Local Notation R := (sm_rows ms).
  Local Notation C := (sm_cols ms).

  Lemma wide_setup : exists qs ns fs qd nd fd qe ne fe,
    pixels s ms qs ns fs /\ pixels s md qd nd fd /\ d = Some qe /\ isb s qe ne fe /\ qs <> qd /\ qe <> qd
    /\ s2_at s k = Some (mkS2 w h d) /\ 0 < w /\ 0 < h
    /\ (forall i j, 0 <= i < R -> 0 <= j < C -> fs (i * R + j) mod 256 = P i j)
    /\ (forall i j, 0 <= i < R -> 0 <= j < C ->
       rdv e s qd (window_scan (Some qs) (Some qe) i j R C w h) (wflag fs fe R C w h i j)
       /\ (wflag fs fe R C w h i j = 0 \/ wflag fs fe R C w h i j = 1)
       /\ (wflag fs fe R C w h i j = 1 <-> fits R C w h i j /\ some_clear w h E P i j)).
  Proof.
    destruct (image_pixels _ _ _ Is) as (qs & ns & fs & Ps). destruct (image_pixels _ _ _ Id) as (qd & nd & fd & Pd).
    destruct (element_isb _ _ _ _ _ _ El) as (qe & ne & fe & De & Ie & Le & Ee).
    destruct El as (Ek & Hw0 & Hh0 & _).
    pose proof (px_data _ _ _ _ _ Ps) as Ds. pose proof (px_data _ _ _ _ _ Pd) as Dd.
    assert (qs <> qd) by congruence. assert (qe <> qd) by congruence.
    pose proof (px_R _ _ _ _ _ Ps) as HR. pose proof (px_max _ _ _ _ _ Ps) as Hmax. pose proof (px_n _ _ _ _ _ Ps) as Hns.
    rewrite C1, Z.mul_1_r in Hmax, Hns.
    assert (PV : forall i j, 0 <= i < R -> 0 <= j < C -> fs (i * R + j) mod 256 = P i j).
    { intros i j Hi Hj. pose proof (G i j Hi Hj) as X. rewrite Ds in X.
      rewrite (byte_at_isb_all _ _ _ _ _ (px_isb _ _ _ _ _ Ps)) in X.
      destruct (inb (i * R + j) ns); [now injection X|discriminate]. }
    exists qs, ns, fs, qd, nd, fd, qe, ne, fe. repeat (split; [assumption|]).
    intros i j Hi Hj.
    destruct (wscan_ok e s qd qs ns fs qe ne fe R C w h) with (i := i) (j := j) as (A & B & CC);
      try assumption; try lia; [exact (px_isb _ _ _ _ _ Ps)|]. split; [exact A|]. split; [exact B|]. rewrite CC.
    assert (V : forall m n, 0 <= m < h -> 0 <= n < w -> fits R C w h i j ->
        fs ((i - h / 2 + m) * R + (j - w / 2 + n)) mod 256 = P (i - h / 2 + m) (j - w / 2 + n)).
    { intros m n Hm Hn (F1 & F2 & F3 & F4). apply PV; lia. }
    split.
    - intros (m & n & Hm & Hn & F & B1 & B2). split; [exact F|]. exists m, n. split; [exact Hm|]. split; [exact Hn|].
      rewrite <- V, <- Ee by assumption. split; assumption.
    - intros (F & m & n & Hm & Hn & B1 & B2). exists m, n. split; [exact Hm|]. split; [exact Hn|].
      split; [exact F|]. rewrite V, Ee by assumption. split; assumption.
  Qed.

  Lemma wide_index i j : 0 <= i < R -> 0 <= j < C -> R * C <= 2147483551 ->
    0 <= i * R + j < R * C /\ (i * R + j)%C = Some (i * R + j).
  Proof.
    intros Hi Hj Hm. assert (0 <= i * R <= R * C - C) by (clear - Hi Hj Hwide; nia).
    split; [lia|]. unfold ci. rewrite cmul_ok by lia. apply cadd_ok. lia.
  Qed.

  Lemma wide_painted qd nd fd f' V : pixels s md qd nd fd ->
    (forall x, 0 <= x < (R - 1) * R + C -> f' x mod 256 = V (last_row R x) (x - last_row R x * R)) ->
    (forall x, ~ 0 <= x < (R - 1) * R + C -> f' x = fd x) ->
    painted_overlapping s (sm_data md) R C V (putd s qd f').
  Proof.
    intros Pd A B. pose proof (px_isb _ _ _ _ _ Pd) as I. pose proof (px_n _ _ _ _ _ Pd) as N.
    rewrite C2, ER, EC, Z.mul_1_r in N. pose proof (px_R _ _ _ _ _ Pd) as HR. rewrite ER in HR.
    rewrite (px_data _ _ _ _ _ Pd). split; [|split; [|apply only_written_putd]].
    - intros x Hx. rewrite (byte_at_putd_eq _ _ _ _ _ _ I).
      assert ((R - 1) * R + C <= R * C) by (clear - HR Hwide; nia).
      replace (inb x nd) with true by (unfold inb; lia). now rewrite A.
    - intros x Hx. rewrite (byte_at_putd_eq _ _ _ _ _ _ I), (byte_at_isb_all _ _ _ _ _ I). now rewrite B.
  Qed.

  Lemma wide_corrosion : exists s' V, hypercv_corrosion src dst k e s = Ret tt s'
    /\ painted_overlapping s (sm_data md) R C V s' /\ library_erosion R C w h E P V.
  Proof.
    destruct wide_setup as (qs & ns & fs & qd & nd & fd & qe & ne & fe & Ps & Pd & De & Ie & D1 & D2 & Ek & Hw0 & Hh0 & PV & SC).
    pose proof (px_data _ _ _ _ _ Ps) as Ds. pose proof (px_data _ _ _ _ _ Pd) as Dd.
    pose proof (px_R _ _ _ _ _ Ps) as HR. pose proof (px_max _ _ _ _ _ Ps) as Hmax. pose proof (px_n _ _ _ _ _ Ps) as Hns.
    rewrite C1, Z.mul_1_r in Hmax, Hns. pose proof (px_n _ _ _ _ _ Pd) as Nd. rewrite C2, Z.mul_1_r, ER, EC in Nd.
    set (V := fun i j => let v := fs (i * R + j) mod 256 in if v =? 0 then 0 else if wflag fs fe R C w h i j =? 0 then v else 0).
    destruct (over_run e s qd nd fd R C (fun i j =>
        x <- ev (i * R + j)%C ;;
        v <- load8 (sm_data ms) x ;;
        if negb (v =? 0) then
          flag <- window_scan (sm_data ms) d i j R C w h ;;
          if flag =? 0 then
            v <- load8 (sm_data ms) x ;;
            store8 (sm_data md) x v
          else store8 (sm_data md) x 0
        else store8 (sm_data md) x 0) V) as (f' & RUN & A1 & A2); [exact (px_isb _ _ _ _ _ Pd)|lia| |].
    - intros i j Hi Hj. destruct (wide_index i j Hi Hj ltac:(lia)) as (Hx & X). destruct (SC i j Hi Hj) as (A & B & _).
      rewrite Ds, Dd, De. pose proof (px_isb _ _ _ _ _ Ps) as Bs. pose proof (px_isb _ _ _ _ _ Pd) as Bd.
      eapply wr_bind; [apply rdv_ev; exact X|].
      eapply wr_bind; [apply (rdv_load8 e s qd qs ns fs); [assumption|exact Bs|lia]|].
      unfold V. cbv zeta.
      destruct (fs (i * R + j) mod 256 =? 0) eqn:E0; cbn [negb].
      + apply (wr_store8 e s qd nd fd); [exact Bd|lia|]. reflexivity.
      + eapply wr_bind; [exact A|]. destruct (wflag fs fe R C w h i j =? 0).
        * eapply wr_bind; [apply (rdv_load8 e s qd qs ns fs); [assumption|exact Bs|lia]|].
          apply (wr_store8 e s qd nd fd); [exact Bd|lia|]. lia.
        * apply (wr_store8 e s qd nd fd); [exact Bd|lia|]. reflexivity.
    - exists (putd s qd f'), V. split.
      { unfold hypercv_corrosion.
        assert (nonnull src = true /\ nonnull k = true /\ nonnull dst = true) as (-> & -> & ->).
        { destruct Is as [Hh1 _ _ _ _ _ _]. destruct Id as [Hh2 _ _ _ _ _ _].
          split; [destruct src; [reflexivity|discriminate]|]. split; [destruct k; [reflexivity|discriminate]|destruct dst; [reflexivity|discriminate]]. }
        rewrite bind_assert by reflexivity. rewrite bind_assert by reflexivity.
        rewrite (bind_ret _ _ _ _ _ _ (sget_ok src ms e s (im_hdr _ _ _ _ Is))).
        unfold s2get at 1. unfold bind at 1. rewrite Ek. cbv zeta. cbn [s2_width s2_height s2_data].
        replace ((C <? w) || (R <? h)) with false by lia.
        rewrite bind_ret_l. rewrite (bind_ret _ _ _ _ _ _ (sget_ok dst md e s (im_hdr _ _ _ _ Id))).
        exact RUN. }
      split; [eapply wide_painted; eauto|].
      intros i j Hi Hj. destruct (SC i j Hi Hj) as (_ & B & CC).
      unfold V. cbv zeta. rewrite PV by assumption.
      assert (AS : fits R C w h i j -> (wflag fs fe R C w h i j = 0 <-> all_set w h E P i j)).
      { intros F. split.
        - intros Z0 m n Hm Hn E1 P0. assert (wflag fs fe R C w h i j = 1); [|lia]. apply CC. split; [exact F|]. exists m, n. auto.
        - intros A. destruct B as [B|B]; [exact B|]. apply CC in B. destruct B as (_ & m & n & Hm & Hn & E1 & P0).
          exfalso. exact (A m n Hm Hn E1 P0). }
      split; [|split].
      + intros F. specialize (AS F). destruct (P i j =? 0) eqn:E0; [lia|].
        destruct (wflag fs fe R C w h i j =? 0) eqn:E1; [|split; [lia|intros (_ & A); apply AS in A; lia]].
        split; [|lia]. intros _. split; [lia|]. apply AS. lia.
      + destruct (P i j =? 0); [auto|]. destruct (wflag fs fe R C w h i j =? 0); auto.
      + intros NF. destruct (P i j =? 0) eqn:E0; [lia|]. destruct B as [-> |B]; [reflexivity|]. apply CC in B. tauto.
  Qed.

  Lemma wide_expend : exists s' V, hypercv_expend src dst k e s = Ret tt s'
    /\ painted_overlapping s (sm_data md) R C V s' /\ library_dilation R C w h E P V.
  Proof.
    destruct wide_setup as (qs & ns & fs & qd & nd & fd & qe & ne & fe & Ps & Pd & De & Ie & D1 & D2 & Ek & Hw0 & Hh0 & PV & SC).
    pose proof (px_data _ _ _ _ _ Ps) as Ds. pose proof (px_data _ _ _ _ _ Pd) as Dd.
    pose proof (px_R _ _ _ _ _ Ps) as HR. pose proof (px_max _ _ _ _ _ Ps) as Hmax. pose proof (px_n _ _ _ _ _ Ps) as Hns.
    rewrite C1, Z.mul_1_r in Hmax, Hns. pose proof (px_n _ _ _ _ _ Pd) as Nd. rewrite C2, Z.mul_1_r, ER, EC in Nd.
    set (V := fun i j => let v := fs (i * R + j) mod 256 in if v =? 0 then if wflag fs fe R C w h i j =? 0 then v else 1 else v).
    destruct (over_run e s qd nd fd R C (fun i j =>
        x <- ev (i * R + j)%C ;;
        v <- load8 (sm_data ms) x ;;
        if v =? 0 then
          flag <- window_scan (sm_data ms) d i j R C w h ;;
          if flag =? 0 then
            v <- load8 (sm_data ms) x ;;
            store8 (sm_data md) x v
          else store8 (sm_data md) x 1
        else
          v <- load8 (sm_data ms) x ;;
          store8 (sm_data md) x v) V) as (f' & RUN & A1 & A2); [exact (px_isb _ _ _ _ _ Pd)|lia| |].
    - intros i j Hi Hj. destruct (wide_index i j Hi Hj ltac:(lia)) as (Hx & X). destruct (SC i j Hi Hj) as (A & B & _).
      rewrite Ds, Dd, De. pose proof (px_isb _ _ _ _ _ Ps) as Bs. pose proof (px_isb _ _ _ _ _ Pd) as Bd.
      eapply wr_bind; [apply rdv_ev; exact X|].
      eapply wr_bind; [apply (rdv_load8 e s qd qs ns fs); [assumption|exact Bs|lia]|].
      unfold V. cbv zeta.
      destruct (fs (i * R + j) mod 256 =? 0) eqn:E0.
      + eapply wr_bind; [exact A|]. destruct (wflag fs fe R C w h i j =? 0).
        * eapply wr_bind; [apply (rdv_load8 e s qd qs ns fs); [assumption|exact Bs|lia]|].
          apply (wr_store8 e s qd nd fd); [exact Bd|lia|]. lia.
        * apply (wr_store8 e s qd nd fd); [exact Bd|lia|]. reflexivity.
      + eapply wr_bind; [apply (rdv_load8 e s qd qs ns fs); [assumption|exact Bs|lia]|].
        apply (wr_store8 e s qd nd fd); [exact Bd|lia|]. lia.
    - exists (putd s qd f'), V. split.
      { unfold hypercv_expend.
        assert (nonnull src = true /\ nonnull k = true /\ nonnull dst = true) as (-> & -> & ->).
        { destruct Is as [Hh1 _ _ _ _ _ _]. destruct Id as [Hh2 _ _ _ _ _ _].
          split; [destruct src; [reflexivity|discriminate]|]. split; [destruct k; [reflexivity|discriminate]|destruct dst; [reflexivity|discriminate]]. }
        rewrite bind_assert by reflexivity. rewrite bind_assert by reflexivity.
        rewrite (bind_ret _ _ _ _ _ _ (sget_ok src ms e s (im_hdr _ _ _ _ Is))).
        unfold s2get at 1. unfold bind at 1. rewrite Ek. cbv zeta. cbn [s2_width s2_height s2_data].
        replace ((C <? w) || (R <? h)) with false by lia.
        rewrite bind_ret_l. rewrite (bind_ret _ _ _ _ _ _ (sget_ok dst md e s (im_hdr _ _ _ _ Id))).
        exact RUN. }
      split; [eapply wide_painted; eauto|].
      intros i j Hi Hj. destruct (SC i j Hi Hj) as (_ & B & CC).
      unfold V. cbv zeta. rewrite PV by assumption.
      split; [|split].
      + intros H1. destruct (P i j =? 0) eqn:E0; [lia|reflexivity].
      + intros H1 F. rewrite H1, Z.eqb_refl. destruct B as [B|B]; rewrite B; cbn.
        * split; [|auto]. split; [discriminate|]. intros X. assert (wflag fs fe R C w h i j = 1) by (apply CC; auto). lia.
        * split; [|auto]. split; [|reflexivity]. intros _. apply CC in B. tauto.
      + intros NF. destruct (P i j =? 0) eqn:E0; [|reflexivity]. destruct B as [B|B]; [rewrite B; reflexivity|].
        apply CC in B. tauto.
  Qed.
End Wide.

Theorem corrosion_wide : forall e s src dst k d ms md w h E P, image s src ms 1 -> image s dst md 1 ->
  sm_chan ms = 1 -> sm_chan md = 1 -> sm_rows md = sm_rows ms -> sm_cols md = sm_cols ms -> sm_rows ms <= sm_cols ms ->
  sm_cols ms <= 1000000000 -> overlapping s (sm_data ms) (sm_rows ms) (sm_cols ms) P ->
  element s k w h d E -> w <= sm_cols ms -> h <= sm_rows ms -> sm_data ms <> sm_data md -> d <> sm_data md ->
  exists s' V, hypercv_corrosion src dst k e s = Ret tt s'
    /\ painted_overlapping s (sm_data md) (sm_rows ms) (sm_cols ms) V s'
    /\ library_erosion (sm_rows ms) (sm_cols ms) w h E P V.
Proof. intros. eapply wide_corrosion; eauto. Qed.
Theorem expend_wide : forall e s src dst k d ms md w h E P, image s src ms 1 -> image s dst md 1 ->
  sm_chan ms = 1 -> sm_chan md = 1 -> sm_rows md = sm_rows ms -> sm_cols md = sm_cols ms -> sm_rows ms <= sm_cols ms ->
  sm_cols ms <= 1000000000 -> overlapping s (sm_data ms) (sm_rows ms) (sm_cols ms) P ->
  element s k w h d E -> w <= sm_cols ms -> h <= sm_rows ms -> sm_data ms <> sm_data md -> d <> sm_data md ->
  exists s' V, hypercv_expend src dst k e s = Ret tt s'
    /\ painted_overlapping s (sm_data md) (sm_rows ms) (sm_cols ms) V s'
    /\ library_dilation (sm_rows ms) (sm_cols ms) w h E P V.
Proof. intros. eapply wide_expend; eauto. Qed.

(** The pixel at the bottom right is then never stored. *)
Lemma wide_corner s md R C V s' : sm_rows md = R -> sm_cols md = C -> sm_chan md = 1 -> 1 < R < C ->
  painted_overlapping s (sm_data md) R C V s' -> pix s' md (R - 1) (C - 1) 0 = pix s md (R - 1) (C - 1) 0.
Proof.
  intros ER EC C1 H (_ & B & _). unfold pix, pixel_byte. rewrite EC, C1, !Z.mul_1_r, !Z.add_0_r. apply B. nia.
Qed.
Theorem wide_corner_kept : forall e s src dst k d ms md w h E P, image s src ms 1 -> image s dst md 1 ->
  sm_chan ms = 1 -> sm_chan md = 1 -> sm_rows md = sm_rows ms -> sm_cols md = sm_cols ms -> 1 < sm_rows ms < sm_cols ms ->
  sm_cols ms <= 1000000000 -> overlapping s (sm_data ms) (sm_rows ms) (sm_cols ms) P ->
  element s k w h d E -> w <= sm_cols ms -> h <= sm_rows ms -> sm_data ms <> sm_data md -> d <> sm_data md ->
  exists s' s'', hypercv_corrosion src dst k e s = Ret tt s' /\ hypercv_expend src dst k e s = Ret tt s''
    /\ pix s' md (sm_rows ms - 1) (sm_cols ms - 1) 0 = pix s md (sm_rows ms - 1) (sm_cols ms - 1) 0
    /\ pix s'' md (sm_rows ms - 1) (sm_cols ms - 1) 0 = pix s md (sm_rows ms - 1) (sm_cols ms - 1) 0.
Proof.
  intros. destruct (corrosion_wide e s src dst k d ms md w h E P) as (s1 & V1 & A1 & B1 & _); auto; [lia|].
  destruct (expend_wide e s src dst k d ms md w h E P) as (s2 & V2 & A2 & B2 & _); auto; [lia|].
  exists s1, s2. split; [exact A1|]. split; [exact A2|]. split; eapply wide_corner; eauto; lia.
Qed.
