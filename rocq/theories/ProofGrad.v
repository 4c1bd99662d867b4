(** * Proofs: Sobel edges and Laplacian. *)
From Verif Require Import Base Logic ModelCore ModelFloat ModelConv ModelBorder ModelFilter SpecBase SpecCore SpecImage SpecImage2 SpecPixel SpecNum SpecMatrix SpecFilter ProofCore ProofLayout ProofHM ProofCopy ProofCore2 ProofImage3 ProofImage4 ProofBorder ProofPixel ProofFloat ProofFloat2 ProofConv.
From Coq Require Import Floats.SpecFloat ZifyBool ZifyNat.
Ltac Zify.zify_post_hook ::= Z.div_mod_to_equations.
Open Scope Z_scope.

(** ** Border indices *)
Definition good_index (ty len lo hi : Z) (ix : Z -> Z) : Prop :=
  forall p, lo <= p <= hi -> 0 <= ix p < len /\ forall e s, border_index p len ty e s = Ret (ix p) s.

Lemma good_source x len lo hi : 1 <= len <= 2147483647 -> (forall p, lo <= p <= hi -> computable x len p) ->
  good_index (mode_of x) len lo hi (source_index x len).
Proof.
  intros Hl Hc p Hp. split; [now apply source_range|]. intros e s. unfold border_index.
  destruct ((p <? 0) || (p >=? len)) eqn:E; [apply border_ok; auto|].
  unfold ret. f_equal. symmetry. apply source_inside. lia.
Qed.

Lemma good_near x len : 1 <= len <= 2147483646 -> good_index (mode_of x) len (-1) len (source_index x len).
Proof. intros H. apply good_source; [lia|]. intros p Hp. unfold computable, INT_MIN, INT_MAX. destruct x; lia. Qed.

Lemma good_const len lo hi : 2 <= len <= 2147483647 -> -2147483648 <= lo -> hi <= 2147483647 ->
  good_index 0 len lo hi (index_one len).
Proof.
  intros Hl H1 H2 p Hp. unfold index_one. split; [destruct ((0 <=? p) && (p <? len)) eqn:?; lia|].
  intros e s. unfold border_index.
  destruct ((p <? 0) || (p >=? len)) eqn:E.
  - rewrite border_const by lia. unfold inb. reflexivity.
  - now replace ((0 <=? p) && (p <? len)) with true by lia.
Qed.

(** ** Accumulating loops with an invariant *)
Lemma rdv_forS_inv {S} e s0 q lo hi (body : Z -> S -> M S) g (I : Z -> S -> Prop) x : lo <= hi ->
  (forall i y, lo <= i < hi -> I i y -> rdv e s0 q (body i y) (g i y) /\ I (i + 1) (g i y)) -> I lo x ->
  rdv e s0 q (forS lo hi body x) (foldZ lo hi g x) /\ I hi (foldZ lo hi g x).
Proof.
  intros Hle H Hx. unfold forS, foldZ. remember (Z.to_nat (hi - lo)) as n eqn:En.
  assert (Hn : hi = lo + Z.of_nat n) by lia. clear En Hle. revert lo x H Hx Hn.
  induction n as [|n IH]; intros lo x H Hx Hn.
  - cbn. split; [intros f; reflexivity|]. now replace hi with lo by lia.
  - cbn [iterS foldN]. destruct (H lo x ltac:(lia) Hx) as [E I1].
    destruct (IH (lo + 1) (g lo x)) as [E2 I2]; [intros; apply H; auto; lia|auto|lia|].
    split; auto. eapply rdv_bind; eauto.
Qed.

Lemma foldZ3 {S} (g : Z -> S -> S) x : foldZ 0 3 g x = g 2 (g 1 (g 0 x)).
Proof. reflexivity. Qed.

(** ** Reading a neighbour *)
Definition near (ms : smat) (fs ixr ixc : Z -> Z) (i j : Z) : Z := fs (ixr i * sm_cols ms + ixc j) mod 256.

Lemma near_range ms fs ixr ixc i j : 0 <= near ms fs ixr ixc i j < 256.
Proof. unfold near. lia. Qed.

Section Window.
  Variables (s : st) (ms : smat) (qs : nat) (ns : Z) (fs : Z -> Z) (ty : Z) (ixr ixc : Z -> Z) (q : nat).
  Hypothesis Hp : pixels s ms qs ns fs.
  Hypothesis Hch : sm_chan ms = 1.
  Hypothesis Hr : good_index ty (sm_rows ms) (-1) (sm_rows ms) ixr.
  Hypothesis Hc : good_index ty (sm_cols ms) (-1) (sm_cols ms) ixc.
  Hypothesis Hq : qs <> q.

  Lemma read_near {A} e i j m n (k : Z -> M A) v : 0 <= i < sm_rows ms -> 0 <= j < sm_cols ms ->
    0 <= m < 3 -> 0 <= n < 3 ->
    rdv e s q (k (near ms fs ixr ixc (i + m - 1) (j + n - 1))) v ->
    rdv e s q (a <- ev (i + m - 1)%C ;;
      index_m <- border_index a (sm_rows ms) ty ;;
      b <- ev (j + n - 1)%C ;;
      index_n <- border_index b (sm_cols ms) ty ;;
      x <- ev (index_m * sm_cols ms + index_n)%C ;;
      v <- load8 (sm_data ms) x ;; k v) v.
  Proof.
    intros Hi Hj Hm Hn K. destruct Hp as [D I R C _ N Mx]. rewrite Hch in *. rewrite !Z.mul_1_r in *.
    assert (B : sm_rows ms <= 2147483551 /\ sm_cols ms <= 2147483551).
    { clear - R C Mx. nia. }
    destruct (Hr (i + m - 1) ltac:(lia)) as [Rr Er]. destruct (Hc (j + n - 1) ltac:(lia)) as [Rc Ec].
    eapply rdv_bind; [apply rdv_ev; unfold ci; rewrite cadd_ok by lia; rewrite csub_ok by lia; reflexivity|].
    eapply rdv_bind; [intros f; apply Er|].
    eapply rdv_bind; [apply rdv_ev; unfold ci; rewrite cadd_ok by lia; rewrite csub_ok by lia; reflexivity|].
    eapply rdv_bind; [intros f; apply Ec|].
    eapply rdv_bind; [apply rdv_ev; apply (idx2_c (sm_rows ms) (sm_cols ms)); auto; lia|].
    rewrite D. eapply rdv_bind; [eapply rdv_load8; eauto|exact K].
    clear - Rr Rc N. nia.
  Qed.
End Window.

(** ** Writing a one-channel image pixel by pixel *)
Lemma paint_run e s md qd nd fd (body : Z -> Z -> M unit) v :
  pixels s md qd nd fd -> sm_chan md = 1 ->
  (forall i j, 0 <= i < sm_rows md -> 0 <= j < sm_cols md -> 0 <= v i j < 256) ->
  (forall i j spec, 0 <= i < sm_rows md -> 0 <= j < sm_cols md -> spec (i * sm_cols md + j) = v i j ->
     wr e s qd (body i j) (fun x => x = i * sm_cols md + j) spec) ->
  exists s', for_ 0 (sm_rows md) (fun i => for_ 0 (sm_cols md) (fun j => body i j)) e s = Ret tt s'
    /\ painted s md v s' /\ written s (sm_data md) s'.
Proof.
  intros P Hch Hv Hb. destruct P as [D I R C Ch N Mx]. rewrite Hch in *. rewrite Z.mul_1_r in *.
  rewrite D in *.
  assert (W : wr e s qd (for_ 0 (sm_rows md) (fun i => for_ 0 (sm_cols md) (fun j => body i j)))
      (fun x => 0 <= x < sm_rows md * sm_cols md * 1) (fun x => v (x / sm_cols md) (x mod sm_cols md))).
  { apply wr_grid; [auto|lia|]. intros i j Hi Hj.
    eapply wr_iff; [apply (Hb i j); auto|]; cbv beta.
    - destruct (radix2 i j (sm_cols md) Hj) as [-> ->]. reflexivity.
    - intros x. split; [intros ->; exists 0; split; lia|]. intros (k & Hk & ->). lia. }
  destruct (wr_run _ _ _ _ _ _ _ _ I W) as (f' & E & A & B).
  exists (putd s qd f'). split; [exact E|]. split; [|eapply written_putd; eauto].
  split; [|split].
  - intros i j Hi Hj. unfold pix, pixel_byte. rewrite D, Hch, Z.mul_1_r, Z.add_0_r.
    replace (((i * sm_cols md + j) * 1 + 0)) with (i * sm_cols md + j) by lia.
    assert (Hx : 0 <= i * sm_cols md + j < sm_rows md * sm_cols md * 1) by nia.
    rewrite (byte_at_isb _ _ _ _ _ (isb_putd_eq _ _ _ _ f' I)) by lia.
    pose proof (radix2 i j (sm_cols md) Hj) as [E1 E2].
    rewrite A by exact Hx. now rewrite E1, E2.
  - intros x Hx. rewrite D, (byte_at_putd_eq _ _ _ _ _ _ I), (byte_at_isb_all _ _ _ _ _ I).
    now rewrite B by lia.
  - rewrite D. apply only_written_putd.
Qed.

(** ** Sobel *)
Ltac weights :=
  repeat match goal with
  | |- context [sobel_gx ?a ?b] => let v := eval vm_compute in (sobel_gx a b) in change (sobel_gx a b) with v
  | |- context [sobel_gy ?a ?b] => let v := eval vm_compute in (sobel_gy a b) in change (sobel_gy a b) with v
  end.

Definition sob (P : Z -> Z -> Z) (i j m : Z) (g : Z * Z) : Z * Z :=
  foldZ 0 3 (fun n (g : Z * Z) => (fst g + sobel_gx m n * P (i + m - 1) (j + n - 1),
                                   snd g + sobel_gy m n * P (i + m - 1) (j + n - 1))) g.

Lemma sob_values P i j : foldZ 0 3 (sob P i j) (0, 0) = (derivative_x P i j, - derivative_y P i j).
Proof.
  unfold sob. rewrite !foldZ3. cbn [fst snd]. weights. unfold derivative_x, derivative_y.
  replace (i + 1 - 1) with i by lia. replace (j + 1 - 1) with j by lia.
  replace (i + 0 - 1) with (i - 1) by lia. replace (j + 0 - 1) with (j - 1) by lia.
  replace (i + 2 - 1) with (i + 1) by lia. replace (j + 2 - 1) with (j + 1) by lia. f_equal; ring.
Qed.

Lemma sobel_weight m n v : 0 <= m < 3 -> 0 <= n < 3 -> 0 <= v < 256 ->
  -510 <= sobel_gx m n * v <= 510 /\ -510 <= sobel_gy m n * v <= 510.
Proof.
  intros Hm Hn Hv. assert (m = 0 \/ m = 1 \/ m = 2) as Cm by lia. assert (n = 0 \/ n = 1 \/ n = 2) as Cn by lia.
  destruct Cm as [-> |[-> | ->]], Cn as [-> |[-> | ->]]; weights; lia.
Qed.

Lemma sobel_run e s src dst ms md qs ns fs qd nd fd ty ixr ixc thr :
  sm_at s src = Some ms -> sm_at s dst = Some md -> pixels s ms qs ns fs -> pixels s md qd nd fd ->
  sm_chan ms = 1 -> sm_chan md = 1 -> sm_rows ms = sm_rows md -> sm_cols ms = sm_cols md -> qs <> qd ->
  border_mode ty = true ->
  good_index ty (sm_rows ms) (-1) (sm_rows ms) ixr -> good_index ty (sm_cols ms) (-1) (sm_cols ms) ixc ->
  exists s', hypercv_sobel src dst thr ty e s = Ret tt s'
    /\ painted s md (edge thr (near ms fs ixr ixc)) s' /\ written s (sm_data md) s'.
Proof.
  intros Hs Hd Ps Pd C1 C2 ER EC Hne Hb Gr Gc. unfold hypercv_sobel.
  rewrite (bind_ret _ _ _ _ _ _ (sget_ok src ms e s Hs)).
  rewrite (bind_ret _ _ _ _ _ _ (sget_ok dst md e s Hd)).
  rewrite bind_assert by lia. rewrite bind_assert by auto. rewrite bind_assert by lia. cbv zeta.
  rewrite ER, EC.
  apply (paint_run e s md qd nd fd); auto.
  - intros i j _ _. unfold edge. destruct (_ >? _); lia.
  - intros i j spec Hi Hj Hspec.
    destruct (rdv_forS_inv e s qd 0 3 (fun m (g : Z * Z) =>
        forS 0 3 (fun n (g : Z * Z) =>
          let (gradx, grady) := g in
          a <- ev (i + m - 1)%C ;;
          index_m <- border_index a (sm_rows md) ty ;;
          b <- ev (j + n - 1)%C ;;
          index_n <- border_index b (sm_cols md) ty ;;
          x <- ev (index_m * sm_cols md + index_n)%C ;;
          v <- load8 (sm_data ms) x ;;
          gradx' <- ev (gradx + sobel_gx m n * v)%C ;;
          grady' <- ev (grady + sobel_gy m n * v)%C ;;
          ret (gradx', grady')) g) (sob (near ms fs ixr ixc) i j)
        (fun m g => Z.abs (fst g) <= 1530 * m /\ Z.abs (snd g) <= 1530 * m) (0, 0)) as [W _].
    + lia.
    + intros m y Hm Hy. unfold sob.
      destruct (rdv_forS_inv e s qd 0 3 (fun n (g : Z * Z) =>
          let (gradx, grady) := g in
          a <- ev (i + m - 1)%C ;;
          index_m <- border_index a (sm_rows md) ty ;;
          b <- ev (j + n - 1)%C ;;
          index_n <- border_index b (sm_cols md) ty ;;
          x <- ev (index_m * sm_cols md + index_n)%C ;;
          v <- load8 (sm_data ms) x ;;
          gradx' <- ev (gradx + sobel_gx m n * v)%C ;;
          grady' <- ev (grady + sobel_gy m n * v)%C ;;
          ret (gradx', grady'))
        (fun n (g : Z * Z) => (fst g + sobel_gx m n * near ms fs ixr ixc (i + m - 1) (j + n - 1),
                                   snd g + sobel_gy m n * near ms fs ixr ixc (i + m - 1) (j + n - 1)))
        (fun n g => Z.abs (fst g) <= 1530 * m + 510 * n /\ Z.abs (snd g) <= 1530 * m + 510 * n) y) as [W I].
      * lia.
      * intros n [gx gy] Hn [B1 B2]. cbn [fst snd] in *.
        pose proof (near_range ms fs ixr ixc (i + m - 1) (j + n - 1)) as Hv.
        destruct (sobel_weight m n _ Hm Hn Hv) as [W1 W2].
        split; [|lia]. rewrite <- ER, <- EC.
        apply (read_near s ms qs ns fs ty ixr ixc qd Ps C1 Gr Gc Hne); auto; try lia.
        eapply rdv_bind; [apply rdv_ev; unfold ci; rewrite cmul_ok by lia; rewrite cadd_ok by lia; reflexivity|].
        eapply rdv_bind; [apply rdv_ev; unfold ci; rewrite cmul_ok by lia; rewrite cadd_ok by lia; reflexivity|].
        apply rdv_ret.
      * lia.
      * split; [exact W|]. lia.
    + cbn. lia.
    + eapply wr_bind; [exact W|]. rewrite sob_values. cbv iota zeta.
      pose proof (px_n _ _ _ _ _ Pd) as N. pose proof (px_max _ _ _ _ _ Pd) as Mx. rewrite C2, Z.mul_1_r in *.
      eapply wr_bind; [apply rdv_ev; apply (idx2_c (sm_rows md)); auto; lia|].
      rewrite (px_data _ _ _ _ _ Pd). eapply wr_store8; [exact (px_isb _ _ _ _ _ Pd)|nia|].
      rewrite Hspec. unfold edge. rewrite Z.abs_opp.
      replace (if Z.abs (derivative_x (near ms fs ixr ixc) i j) >? Z.abs (derivative_y (near ms fs ixr ixc) i j)
               then Z.abs (derivative_x (near ms fs ixr ixc) i j) else Z.abs (derivative_y (near ms fs ixr ixc) i j))
        with (Z.max (Z.abs (derivative_x (near ms fs ixr ixc) i j)) (Z.abs (derivative_y (near ms fs ixr ixc) i j)))
        by (destruct (_ >? _) eqn:?; lia).
      destruct (_ >? thr); reflexivity.
Qed.

(** ** Laplacian *)
Definition fint (x : sf) (z : Z) : Prop := fl_ok x /\ sf_num x = Some (z * sf_one).

Lemma fint_Z z : Z.abs z <= 16777216 -> fint (fl_of_Z z) z.
Proof. apply fl_of_Z_ok. Qed.
Lemma fint_add x y a b : fint x a -> fint y b -> Z.abs (a + b) <= 16777216 -> fint (fl_add x y) (a + b).
Proof. intros. apply (add_int 24 128 ltac:(lia) ltac:(lia) ltac:(lia) x y a b); auto. Qed.
Lemma fint_mul x y a b : fint x a -> fint y b -> Z.abs (a * b) <= 16777216 -> fint (fl_mul x y) (a * b).
Proof. intros. apply (mul_int 24 128 ltac:(lia) ltac:(lia) ltac:(lia) x y a b); auto. Qed.

Definition laplace_scale (k_size : Z) : Z := if k_size =? 2 then 2 else 1.
Definition laplace_weight (m n : Z) : Z :=
  nth (Z.to_nat (m * 3 + n)) [0; 1; 0; 1; -4; 1; 0; 1; 0] 0.

Lemma laplace_kernel_int k m n : 0 <= m < 3 -> 0 <= n < 3 ->
  fint (laplace_kernel k m n) (laplace_weight m n * laplace_scale k) /\ -4 <= laplace_weight m n <= 1.
Proof.
  intros Hm Hn. assert (m = 0 \/ m = 1 \/ m = 2) as Cm by lia. assert (n = 0 \/ n = 1 \/ n = 2) as Cn by lia.
  assert (K : forall w, -4 <= w <= 1 -> fint (if k =? 2 then fl_mul (fl_of_Z w) (fl_of_Z 2) else fl_of_Z w)
                (w * laplace_scale k)).
  { intros w Hw. unfold laplace_scale. destruct (k =? 2).
    - apply fint_mul; try apply fint_Z; lia.
    - rewrite Z.mul_1_r. apply fint_Z; lia. }
  destruct Cm as [-> |[-> | ->]], Cn as [-> |[-> | ->]];
    match goal with |- fint _ (?w * _) /\ _ => let v := eval vm_compute in w in change w with v; split; [apply (K v)|]; lia end.
Qed.

Definition lap_row (P : Z -> Z -> Z) (k i j m : Z) (sum : sf) : sf :=
  foldZ 0 3 (fun n sum => fl_add sum (fl_mul (laplace_kernel k m n) (fl_of_Z (P (i + m - 1) (j + n - 1))))) sum.

Lemma lap_step P k i j m n sum z : (forall i j, 0 <= P i j < 256) -> 0 <= m < 3 -> 0 <= n < 3 ->
  fint sum z -> Z.abs z <= 2040 * (m * 3 + n) ->
  fint (fl_add sum (fl_mul (laplace_kernel k m n) (fl_of_Z (P (i + m - 1) (j + n - 1)))))
       (z + laplace_weight m n * laplace_scale k * P (i + m - 1) (j + n - 1))
  /\ Z.abs (z + laplace_weight m n * laplace_scale k * P (i + m - 1) (j + n - 1)) <= 2040 * (m * 3 + n + 1).
Proof.
  intros HP Hm Hn Hs Hz. destruct (laplace_kernel_int k m n Hm Hn) as [K Hw].
  specialize (HP (i + m - 1) (j + n - 1)). set (v := P _ _) in *. set (w := laplace_weight m n) in *.
  assert (Hk : laplace_scale k = 1 \/ laplace_scale k = 2) by (unfold laplace_scale; destruct (k =? 2); auto).
  assert (B : Z.abs (w * laplace_scale k * v) <= 2040) by (destruct Hk as [-> | ->]; nia).
  split; [|lia]. apply fint_add; auto; [|lia]. apply fint_mul; auto; [|lia]. apply fint_Z. lia.
Qed.

Lemma lap_sum P k i j : (forall i j, 0 <= P i j < 256) ->
  fint (foldZ 0 3 (lap_row P k i j) (fl_of_Z 0)) (laplace_scale k * laplace P i j)
  /\ Z.abs (laplace_scale k * laplace P i j) <= 18360.
Proof.
  intros HP. unfold lap_row. rewrite !foldZ3.
  assert (F0 : fint (fl_of_Z 0) 0 /\ Z.abs 0 <= 2040 * (0 * 3 + 0)) by (split; [apply fint_Z|]; lia).
  destruct F0 as [F0 B0].
  destruct (lap_step P k i j 0 0 _ _ HP ltac:(lia) ltac:(lia) F0 B0) as [F1 B1]. clear F0 B0.
  destruct (lap_step P k i j 0 1 _ _ HP ltac:(lia) ltac:(lia) F1 B1) as [F2 B2]. clear F1 B1.
  destruct (lap_step P k i j 0 2 _ _ HP ltac:(lia) ltac:(lia) F2 B2) as [F3 B3]. clear F2 B2.
  destruct (lap_step P k i j 1 0 _ _ HP ltac:(lia) ltac:(lia) F3 B3) as [F4 B4]. clear F3 B3.
  destruct (lap_step P k i j 1 1 _ _ HP ltac:(lia) ltac:(lia) F4 B4) as [F5 B5]. clear F4 B4.
  destruct (lap_step P k i j 1 2 _ _ HP ltac:(lia) ltac:(lia) F5 B5) as [F6 B6]. clear F5 B5.
  destruct (lap_step P k i j 2 0 _ _ HP ltac:(lia) ltac:(lia) F6 B6) as [F7 B7]. clear F6 B6.
  destruct (lap_step P k i j 2 1 _ _ HP ltac:(lia) ltac:(lia) F7 B7) as [F8 B8]. clear F7 B7.
  destruct (lap_step P k i j 2 2 _ _ HP ltac:(lia) ltac:(lia) F8 B8) as [F9 B9]. clear F8 B8.
  match type of F9 with fint _ ?z => assert (E : z = laplace_scale k * laplace P i j) end.
  { repeat match goal with
    | |- context [laplace_weight ?a ?b] =>
        let v := eval vm_compute in (laplace_weight a b) in change (laplace_weight a b) with v
    end.
    unfold laplace. generalize (laplace_scale k). intros c.
    replace (i + 1 - 1) with i by lia. replace (j + 1 - 1) with j by lia.
    replace (i + 0 - 1) with (i - 1) by lia. replace (j + 0 - 1) with (j - 1) by lia.
    replace (i + 2 - 1) with (i + 1) by lia. replace (j + 2 - 1) with (j + 1) by lia. ring. }
  rewrite E in *. split; auto.
Qed.

Lemma sat_int x z : fint x z -> saturate_cast_float2uchar x = clamp 0 255 z.
Proof.
  intros [V N]. apply (saturate_ok x (z * sf_one)); auto.
  unfold nearest_even. pose proof sf_one_pos. split; [nia|]. intros H2. exfalso. nia.
Qed.

Lemma laplacian_run e s src dst ms md qs ns fs qd nd fd ty ixr ixc k :
  sm_at s src = Some ms -> sm_at s dst = Some md -> pixels s ms qs ns fs -> pixels s md qd nd fd ->
  sm_chan ms = 1 -> sm_chan md = 1 -> sm_rows ms = sm_rows md -> sm_cols ms = sm_cols md -> qs <> qd ->
  0 < k ->
  good_index ty (sm_rows ms) (-1) (sm_rows ms) ixr -> good_index ty (sm_cols ms) (-1) (sm_cols ms) ixc ->
  exists s', hypercv_laplacian src dst k ty e s = Ret tt s'
    /\ painted s md (fun i j => clamp 0 255 (laplace_scale k * laplace (near ms fs ixr ixc) i j)) s'
    /\ written s (sm_data md) s'.
Proof.
  intros Hs Hd Ps Pd C1 C2 ER EC Hne Hk Gr Gc. unfold hypercv_laplacian.
  assert (nonnull src = true /\ nonnull dst = true) as [-> ->].
  { split; [destruct src|destruct dst]; auto; discriminate. }
  rewrite bind_assert by reflexivity. rewrite bind_assert by lia.
  rewrite (bind_ret _ _ _ _ _ _ (sget_ok src ms e s Hs)). cbv zeta.
  rewrite (bind_ret _ _ _ _ _ _ (sget_ok dst md e s Hd)).
  rewrite ER, EC. pose proof (near_range ms fs ixr ixc) as HP.
  apply (paint_run e s md qd nd fd); auto.
  - intros i j _ _. unfold clamp. lia.
  - intros i j spec Hi Hj Hspec.
    eapply wr_bind.
    { apply rdv_forS with (g := lap_row (near ms fs ixr ixc) k i j). intros m y Hm. unfold lap_row.
      apply rdv_forS. intros n z Hn. rewrite <- ER, <- EC.
      apply (read_near s ms qs ns fs ty ixr ixc qd Ps C1 Gr Gc Hne); auto; try lia. apply rdv_ret. }
    pose proof (px_n _ _ _ _ _ Pd) as N. pose proof (px_max _ _ _ _ _ Pd) as Mx. rewrite C2, Z.mul_1_r in *.
    eapply wr_bind; [apply rdv_ev; apply (idx2_c (sm_rows md)); auto; lia|].
    rewrite (px_data _ _ _ _ _ Pd). eapply wr_store8; [exact (px_isb _ _ _ _ _ Pd)|nia|].
    rewrite Hspec. rewrite (sat_int _ _ (proj1 (lap_sum _ k i j HP))). unfold clamp. lia.
Qed.

(** ** The statements about images *)
Lemma near_grey s ms qs ns fs P a b : pixels s ms qs ns fs -> sm_chan ms = 1 -> grey s ms P ->
  0 <= a < sm_rows ms -> 0 <= b < sm_cols ms -> fs (a * sm_cols ms + b) mod 256 = P a b.
Proof.
  intros Ps C1 G Ha Hb. specialize (G a b Ha Hb).
  rewrite (pix_val _ _ _ _ _ a b 0 Ps) in G by (unfold in_image; lia).
  injection G as G. rewrite C1, Z.mul_1_r, Z.add_0_r in G. exact G.
Qed.

Lemma painted_ext s md v v' s' :
  (forall i j, 0 <= i < sm_rows md -> 0 <= j < sm_cols md -> v i j = v' i j) -> painted s md v s' -> painted s md v' s'.
Proof. intros H (A & B & C). split; auto. intros i j Hi Hj. rewrite A, H; auto. Qed.

Lemma edge_ext thr P P' i j :
  (forall a b, i - 1 <= a <= i + 1 -> j - 1 <= b <= j + 1 -> P a b = P' a b) -> edge thr P i j = edge thr P' i j.
Proof. intros H. unfold edge, derivative_x, derivative_y. rewrite !(H _ _) by lia. reflexivity. Qed.

Lemma laplace_ext P P' i j :
  (forall a b, i - 1 <= a <= i + 1 -> j - 1 <= b <= j + 1 -> P a b = P' a b) -> laplace P i j = laplace P' i j.
Proof. intros H. unfold laplace. rewrite !(H _ _) by lia. reflexivity. Qed.

Lemma sides ms s q n f : pixels s ms q n f -> sm_chan ms = 1 ->
  1 <= sm_rows ms <= 2147483551 /\ 1 <= sm_cols ms <= 2147483551.
Proof. intros [D I R C Ch N Mx] E. rewrite E in *. clear - R C Mx. nia. Qed.

Lemma data_ne ms md (qs qd : nat) : sm_data ms = Some qs -> sm_data md = Some qd -> sm_data ms <> sm_data md -> qs <> qd.
Proof. congruence. Qed.

Theorem sobel_exact : forall e s src dst ms md x P thr, image s src ms 1 -> image s dst md 1 ->
  sm_chan ms = 1 -> sm_chan md = 1 -> sm_rows ms = sm_rows md -> sm_cols ms = sm_cols md ->
  sm_data ms <> sm_data md -> grey s ms P ->
  exists s', hypercv_sobel src dst thr (mode_of x) e s = Ret tt s' /\ painted s md (edge thr (beyond x ms P)) s'.
Proof.
  intros e s src dst ms md x P thr Hs Hd C1 C2 ER EC Hne G.
  destruct (image_pixels _ _ _ Hs) as (qs & ns & fs & Ps). destruct (image_pixels _ _ _ Hd) as (qd & nd & fd & Pd).
  destruct (sides _ _ _ _ _ Ps C1) as [Br Bc].
  destruct (sobel_run e s src dst ms md qs ns fs qd nd fd (mode_of x) (source_index x (sm_rows ms))
              (source_index x (sm_cols ms)) thr) as (s' & E & A & _); auto.
  - exact (im_hdr _ _ _ _ Hs).
  - exact (im_hdr _ _ _ _ Hd).
  - eapply data_ne; [apply (px_data _ _ _ _ _ Ps)|apply (px_data _ _ _ _ _ Pd)|auto].
  - destruct x; reflexivity.
  - apply good_near. lia.
  - apply good_near. lia.
  - exists s'. split; auto. eapply painted_ext; [|exact A]. intros i j Hi Hj. apply edge_ext.
    intros a b _ _. unfold near, beyond. eapply near_grey; eauto; apply source_range; lia.
Qed.

Theorem sobel_constant : forall e s src dst ms md P thr, image s src ms 1 -> image s dst md 1 ->
  sm_chan ms = 1 -> sm_chan md = 1 -> sm_rows ms = sm_rows md -> sm_cols ms = sm_cols md ->
  sm_data ms <> sm_data md -> grey s ms P -> 2 <= sm_rows ms -> 2 <= sm_cols ms ->
  exists s', hypercv_sobel src dst thr 0 e s = Ret tt s' /\ painted s md (edge thr (beyond_one ms P)) s'.
Proof.
  intros e s src dst ms md P thr Hs Hd C1 C2 ER EC Hne G HR HC.
  destruct (image_pixels _ _ _ Hs) as (qs & ns & fs & Ps). destruct (image_pixels _ _ _ Hd) as (qd & nd & fd & Pd).
  destruct (sides _ _ _ _ _ Ps C1) as [Br Bc].
  destruct (sobel_run e s src dst ms md qs ns fs qd nd fd 0 (index_one (sm_rows ms))
              (index_one (sm_cols ms)) thr) as (s' & E & A & _); auto.
  - exact (im_hdr _ _ _ _ Hs).
  - exact (im_hdr _ _ _ _ Hd).
  - eapply data_ne; [apply (px_data _ _ _ _ _ Ps)|apply (px_data _ _ _ _ _ Pd)|auto].
  - apply good_const; lia.
  - apply good_const; lia.
  - exists s'. split; auto. eapply painted_ext; [|exact A]. intros i j Hi Hj. apply edge_ext.
    intros a b _ _. unfold near, beyond_one, index_one. eapply near_grey; eauto;
      destruct ((0 <=? _) && _) eqn:?; lia.
Qed.

Theorem laplacian_exact : forall e s src dst ms md x P k, image s src ms 1 -> image s dst md 1 ->
  sm_chan ms = 1 -> sm_chan md = 1 -> sm_rows ms = sm_rows md -> sm_cols ms = sm_cols md ->
  sm_data ms <> sm_data md -> grey s ms P -> 0 < k ->
  exists s', hypercv_laplacian src dst k (mode_of x) e s = Ret tt s'
    /\ painted s md (fun i j => clamp 0 255 ((if k =? 2 then 2 else 1) * laplace (beyond x ms P) i j)) s'.
Proof.
  intros e s src dst ms md x P k Hs Hd C1 C2 ER EC Hne G Hk.
  destruct (image_pixels _ _ _ Hs) as (qs & ns & fs & Ps). destruct (image_pixels _ _ _ Hd) as (qd & nd & fd & Pd).
  destruct (sides _ _ _ _ _ Ps C1) as [Br Bc].
  destruct (laplacian_run e s src dst ms md qs ns fs qd nd fd (mode_of x) (source_index x (sm_rows ms))
              (source_index x (sm_cols ms)) k) as (s' & E & A & _); auto.
  - exact (im_hdr _ _ _ _ Hs).
  - exact (im_hdr _ _ _ _ Hd).
  - eapply data_ne; [apply (px_data _ _ _ _ _ Ps)|apply (px_data _ _ _ _ _ Pd)|auto].
  - apply good_near. lia.
  - apply good_near. lia.
  - exists s'. split; auto. eapply painted_ext; [|exact A]. intros i j Hi Hj. cbv beta.
    unfold laplace_scale. do 2 f_equal. apply laplace_ext.
    intros a b _ _. unfold near, beyond. eapply near_grey; eauto; apply source_range; lia.
Qed.

Theorem laplacian_constant : forall e s src dst ms md P k, image s src ms 1 -> image s dst md 1 ->
  sm_chan ms = 1 -> sm_chan md = 1 -> sm_rows ms = sm_rows md -> sm_cols ms = sm_cols md ->
  sm_data ms <> sm_data md -> grey s ms P -> 0 < k -> 2 <= sm_rows ms -> 2 <= sm_cols ms ->
  exists s', hypercv_laplacian src dst k 0 e s = Ret tt s'
    /\ painted s md (fun i j => clamp 0 255 ((if k =? 2 then 2 else 1) * laplace (beyond_one ms P) i j)) s'.
Proof.
  intros e s src dst ms md P k Hs Hd C1 C2 ER EC Hne G Hk HR HC.
  destruct (image_pixels _ _ _ Hs) as (qs & ns & fs & Ps). destruct (image_pixels _ _ _ Hd) as (qd & nd & fd & Pd).
  destruct (sides _ _ _ _ _ Ps C1) as [Br Bc].
  destruct (laplacian_run e s src dst ms md qs ns fs qd nd fd 0 (index_one (sm_rows ms))
              (index_one (sm_cols ms)) k) as (s' & E & A & _); auto.
  - exact (im_hdr _ _ _ _ Hs).
  - exact (im_hdr _ _ _ _ Hd).
  - eapply data_ne; [apply (px_data _ _ _ _ _ Ps)|apply (px_data _ _ _ _ _ Pd)|auto].
  - apply good_const; lia.
  - apply good_const; lia.
  - exists s'. split; auto. eapply painted_ext; [|exact A]. intros i j Hi Hj. cbv beta.
    unfold laplace_scale. do 2 f_equal. apply laplace_ext.
    intros a b _ _. unfold near, beyond_one, index_one. eapply near_grey; eauto;
      destruct ((0 <=? _) && _) eqn:?; lia.
Qed.

(** ** Constant border: one row *)
Lemma first_read_ub {A} e s ms q f (k : Z -> M A) :
  bytes_at s (sm_data ms) = Some (q, sm_rows ms * sm_cols ms, f) -> sm_rows ms = 1 -> 1 <= sm_cols ms <= 2147483551 ->
  (a <- ev (0 + 0 - 1)%C ;;
   index_m <- border_index a (sm_rows ms) 0 ;;
   b <- ev (0 + 0 - 1)%C ;;
   index_n <- border_index b (sm_cols ms) 0 ;;
   x <- ev (index_m * sm_cols ms + index_n)%C ;;
   v <- load8 (sm_data ms) x ;; k v) e s = UB.
Proof.
  intros Hb HR HC. rewrite (bind_ret _ _ _ _ _ _ (ev_ok _ (-1) e s eq_refl)).
  assert (B : forall len, 1 <= len <= 2147483551 -> border_index (-1) len 0 e s = Ret 1 s).
  { intros len Hl. unfold border_index. change (-1 <? 0) with true. cbn [orb]. rewrite border_const by lia. reflexivity. }
  rewrite (bind_ret _ _ _ _ _ _ (B (sm_rows ms) ltac:(lia))).
  rewrite (bind_ret _ _ _ _ _ _ (ev_ok _ (-1) e s eq_refl)).
  rewrite (bind_ret _ _ _ _ _ _ (B _ HC)).
  assert (E : (1 * sm_cols ms + 1)%C = Some (sm_cols ms + 1)).
  { unfold ci. rewrite cmul_ok by lia. rewrite cadd_ok by lia. f_equal. lia. }
  rewrite (bind_ret _ _ _ _ _ _ (ev_ok _ _ e s E)).
  apply bind_ub. apply bytes_at_inv in Hb as [-> I]. eapply load8_oob; eauto. lia.
Qed.

Theorem sobel_constant_ub : forall e s src dst ms md q f thr, image s src ms 1 -> sm_at s dst = Some md ->
  sm_chan ms = 1 -> sm_rows ms = sm_rows md -> sm_cols ms = sm_cols md ->
  bytes_at s (sm_data ms) = Some (q, sm_rows ms * sm_cols ms, f) -> sm_rows ms = 1 ->
  hypercv_sobel src dst thr 0 e s = UB.
Proof.
  intros e s src dst ms md q f thr Hs Hd C1 ER EC Hb HR.
  destruct (image_pixels _ _ _ Hs) as (qs & ns & fs & Ps). destruct (sides _ _ _ _ _ Ps C1) as [Br Bc].
  unfold hypercv_sobel.
  rewrite (bind_ret _ _ _ _ _ _ (sget_ok src ms e s (im_hdr _ _ _ _ Hs))).
  rewrite (bind_ret _ _ _ _ _ _ (sget_ok dst md e s Hd)).
  rewrite bind_assert by lia. rewrite bind_assert by reflexivity. rewrite bind_assert by lia. cbv zeta.
  apply for_ub_first; [lia|]. apply for_ub_first; [lia|]. apply bind_ub.
  rewrite forS_first by lia. apply bind_ub. rewrite forS_first by lia. apply bind_ub.
  eapply first_read_ub; eauto.
Qed.

Theorem laplacian_constant_ub : forall e s src dst ms md q f k, image s src ms 1 -> sm_at s dst = Some md ->
  sm_chan ms = 1 -> 0 < k ->
  bytes_at s (sm_data ms) = Some (q, sm_rows ms * sm_cols ms, f) -> sm_rows ms = 1 ->
  hypercv_laplacian src dst k 0 e s = UB.
Proof.
  intros e s src dst ms md q f k Hs Hd C1 Hk Hb HR.
  destruct (image_pixels _ _ _ Hs) as (qs & ns & fs & Ps). destruct (sides _ _ _ _ _ Ps C1) as [Br Bc].
  unfold hypercv_laplacian. pose proof (im_hdr _ _ _ _ Hs) as Hh.
  assert (nonnull src = true /\ nonnull dst = true) as [-> ->].
  { split; [destruct src|destruct dst]; auto; discriminate. }
  rewrite bind_assert by reflexivity. rewrite bind_assert by lia.
  rewrite (bind_ret _ _ _ _ _ _ (sget_ok src ms e s Hh)). cbv zeta.
  rewrite (bind_ret _ _ _ _ _ _ (sget_ok dst md e s Hd)).
  apply for_ub_first; [lia|]. apply for_ub_first; [lia|]. apply bind_ub.
  rewrite forS_first by lia. apply bind_ub. rewrite forS_first by lia. apply bind_ub.
  eapply first_read_ub; eauto.
Qed.
