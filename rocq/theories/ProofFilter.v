(** * Proofs: 2-D filtering, integral image, median and mean blur. *)
From Verif Require Import Base Logic ModelCore ModelFloat ModelConv ModelBorder ModelMatrix ModelFilter SpecBase SpecCore SpecImage SpecImage2 SpecPixel SpecNum SpecMatrix SpecFilter ProofCore ProofLayout ProofHM ProofCopy ProofCore2 ProofImage3 ProofImage4 ProofBorder ProofPixel ProofFloat ProofWord ProofArr ProofFloat2 ProofConv ProofMath ProofMatrix ProofGrid ProofInvert ProofFold ProofGrad.
From Coq Require Import Floats.SpecFloat ZifyBool ZifyNat.
Ltac Zify.zify_post_hook ::= Z.div_mod_to_equations.
Open Scope Z_scope.

(** ** Median and mean blur *)
Theorem medianblur_exit : forall fuel e s src dst size, nonnull src = true -> hypercv_medianblur fuel src dst size e s = Exit.
Proof. intros fuel e s src dst size H. unfold hypercv_medianblur. rewrite H. apply bind_assert_false. reflexivity. Qed.

Theorem meanblur_exit : forall e s src dst size, nonnull src = true -> hypercv_meanblur src dst size e s = Exit.
Proof. intros e s src dst size H. unfold hypercv_meanblur. rewrite H. apply bind_assert_false. reflexivity. Qed.

Theorem medianblur_null : forall fuel e s dst size,
  hypercv_medianblur fuel None dst size e s = if Z.rem size 2 =? 1 then UB else Exit.
Proof.
  intros fuel e s dst size. unfold hypercv_medianblur. rewrite bind_assert by reflexivity.
  destruct (Z.rem size 2 =? 1); [rewrite bind_assert by reflexivity|apply bind_assert_false; reflexivity].
  apply bind_ub. reflexivity.
Qed.

Theorem meanblur_null : forall e s dst size, hypercv_meanblur None dst size e s = UB.
Proof. intros e s dst size. unfold hypercv_meanblur. rewrite bind_assert by reflexivity. apply bind_ub. reflexivity. Qed.

Lemma median_loop_never array size : forall fuel gap e s v s', 1 <= gap ->
  median_loop fuel array size gap e s <> Ret v s'.
Proof.
  induction fuel as [|fuel IH]; intros gap e s v s' Hg H; cbn [median_loop] in H; unfold bind in H.
  - destruct (ev (gap + 1)%C e s) as [g1 s1| | |] eqn:E1; try discriminate.
    replace (gap =? 0) with false in H by lia. discriminate.
  - destruct (ev (gap + 1)%C e s) as [g1 s1| | |] eqn:E1; try discriminate.
    replace (gap =? 0) with false in H by lia.
    assert (g1 = gap + 1) as ->.
    { unfold ev, ci, cadd in E1. cbn in E1. unfold chk in E1. destruct (in_int (gap + 1)); [congruence|discriminate]. }
    destruct (for_ (gap + 1) size _ e s1) as [u s2| | |]; try discriminate.
    match type of H with match ?x with _ => _ end = _ => destruct x as [g2 s3| | |] eqn:E2 end; try discriminate.
    apply IH in H; auto.
    unfold ev, ci, cdiv in E2. change (2 =? 0) with false in E2. cbv iota in E2. unfold chk in E2.
    destruct (in_int (Z.quot (gap + 1) 2)); [|discriminate]. injection E2 as <- _.
    rewrite Z.quot_div_nonneg by lia. lia.
Qed.

Theorem median_never : forall fuel array size e s v s', 2 <= size ->
  median_member fuel array size e s <> Ret v s'.
Proof.
  intros fuel array size e s v s' Hs H. unfold median_member, bind in H.
  destruct (ev (size / 2)%C e s) as [g s1| | |] eqn:E; try discriminate.
  destruct (median_loop fuel array size g e s1) as [u s2| | |] eqn:E2; try discriminate.
  apply median_loop_never in E2; auto.
  unfold ev, ci, cdiv in E. change (2 =? 0) with false in E. cbv iota in E. unfold chk in E.
  destruct (in_int (Z.quot size 2)); [|discriminate]. injection E as <- _.
  rewrite Z.quot_div_nonneg by lia. lia.
Qed.

(** ** 2-D filtering *)
Definition stepw (kw v w : Z) : Z := fl_word (fl_add (fl_of_bits w) (fl_mul (fl_of_bits kw) (fl_of_Z v))).

Lemma filter_add_run e s qd N g kernel KN kg qs ns fs d k x : arr s qd 0 4 N g -> arr s kernel 0 4 KN kg ->
  isb s qs ns fs -> 0 <= d < N -> 0 <= k < KN -> 0 <= x < ns ->
  exists s', filter_add (Some qd) (Some kernel) (Some qs) d k x e s = Ret tt s'
    /\ arr s' qd 0 4 N (fupd g d (stepw (kg k) (fs x mod 256) (g d))) /\ inside s qd 0 (N * 4) s'.
Proof.
  intros A K I Hd Hk Hx. unfold filter_add.
  rewrite (bind_ret _ _ _ _ _ _ (loadf_arr e s qd N g d A Hd)).
  rewrite (bind_ret _ _ _ _ _ _ (loadf_arr e s kernel KN kg k K Hk)).
  rewrite (bind_ret _ _ _ _ _ _ (load8_ok e s qs ns fs x I Hx)).
  apply storef_arr; auto.
Qed.

Section Filter.
  Variables (s : st) (qd kq qs : nat) (R C cn kr kc ns KN : Z) (kg fs : Z -> Z) (ty : Z) (ixr ixc : Z -> Z).
  Hypothesis (HR : 0 < R) (HC : 0 < C) (Hcn : cn = 1 \/ cn = 3).
  Hypothesis (Hkr : 0 < kr) (Hkc : 0 < kc) (Hk : kr * kc <= KN) (Hki : kr * kc <= 2147483647).
  Hypothesis (Hn : R * C * cn <= ns) (Hni : R * C * cn <= 2147483647).
  Hypothesis (Rk : R + kr <= 2147483647) (Ck : C + kc <= 2147483647).
  Hypothesis (K : arr s kq 0 4 KN kg) (I : isb s qs ns fs).
  Hypothesis (Nk : kq <> qd) (Ns : qs <> qd).
  Hypothesis Gr : good_index ty R (- (kr / 2)) (R + kr) ixr.
  Hypothesis Gc : good_index ty C (- (kc / 2)) (C + kc) ixc.

  Let value (i j m n c : Z) : Z := fs ((ixr (i + m - kr / 2) * C + ixc (j + n - kc / 2)) * cn + c) mod 256.
  Let cellstep (i j m n t w : Z) : Z :=
    if t / cn =? i * C + j then stepw (kg (m * kc + n)) (value i j m n (t mod cn)) w else w.

  Lemma cell_index i j c : 0 <= i < R -> 0 <= j < C -> 0 <= c < cn -> 0 <= (i * C + j) * cn + c < R * C * cn.
  Proof. apply pix_index. Qed.

  Lemma kernel_index m n : 0 <= m < kr -> 0 <= n < kc ->
    (m * kc + n)%C = Some (m * kc + n) /\ 0 <= m * kc + n < kr * kc.
  Proof.
    intros Hm Hn'. assert (0 <= m * kc + n < kr * kc) by (clear - Hm Hn'; nia). split; auto.
    assert (0 <= m * kc) by nia. unfold ci. rewrite (cmul_ok m kc) by lia. apply cadd_ok. lia.
  Qed.

  Lemma inner_run e i j m n s1 g1 : 0 <= i < R -> 0 <= j < C -> 0 <= m < kr -> 0 <= n < kc ->
    arr s1 qd 0 4 (R * C * cn) g1 -> inside s qd 0 (R * C * cn * 4) s1 ->
    exists s2, (b <- ev (j + n - kc / 2)%C ;;
          index_j <- border_index b C ty ;;
          if cn =? 1 then
            d <- ev (i * C + j)%C ;;
            k <- ev (m * kc + n)%C ;;
            x <- ev (ixr (i + m - kr / 2) * C + index_j)%C ;;
            filter_add (Some qd) (Some kq) (Some qs) d k x
          else if cn =? 3 then
            for_ 0 3 (fun c =>
              d <- ev (i * C * cn + j * cn + c)%C ;;
              k <- ev (m * kc + n)%C ;;
              x <- ev (ixr (i + m - kr / 2) * C * cn + index_j * cn + c)%C ;;
              filter_add (Some qd) (Some kq) (Some qs) d k x)
          else ret tt) e s1 = Ret tt s2
      /\ arr s2 qd 0 4 (R * C * cn) (fun t => cellstep i j m n t (g1 t)) /\ inside s1 qd 0 (R * C * cn * 4) s2.
  Proof.
    intros Hi Hj Hm Hn' A1 I1.
    destruct (Gr (i + m - kr / 2) ltac:(clear - Hi Hm Hkr; lia)) as [Rr _].
    destruct (Gc (j + n - kc / 2) ltac:(clear - Hj Hn' Hkc; lia)) as [Rc Ec].
    assert (Ej : (j + n - kc / 2)%C = Some (j + n - kc / 2)).
    { unfold ci. rewrite cadd_ok by lia. rewrite cdiv_ok; [|lia|rewrite Z.quot_div_nonneg by lia; lia].
      rewrite Z.quot_div_nonneg by lia. apply csub_ok. lia. }
    rewrite (bind_ret _ _ _ _ _ _ (ev_ok _ _ e s1 Ej)). rewrite (bind_ret _ _ _ _ _ _ (Ec e s1)).
    destruct (kernel_index m n Hm Hn') as [Ek Bk].
    assert (STEP : forall c s2 g2, 0 <= c < cn -> arr s2 qd 0 4 (R * C * cn) g2 -> inside s1 qd 0 (R * C * cn * 4) s2 ->
      exists s3, filter_add (Some qd) (Some kq) (Some qs) ((i * C + j) * cn + c) (m * kc + n)
          ((ixr (i + m - kr / 2) * C + ixc (j + n - kc / 2)) * cn + c) e s2 = Ret tt s3
        /\ arr s3 qd 0 4 (R * C * cn)
             (fupd g2 ((i * C + j) * cn + c) (stepw (kg (m * kc + n)) (value i j m n c) (g2 ((i * C + j) * cn + c))))
        /\ inside s2 qd 0 (R * C * cn * 4) s3).
    { intros c s2 g2 Hc A2 I2. pose proof (inside_trans _ _ _ _ _ _ I1 I2) as I12.
      apply (filter_add_run e s2 qd (R * C * cn) g2 kq KN kg qs ns fs); auto.
      - eapply arr_inside; [exact I12|exact K|auto].
      - eapply inside_old; [exact I12|auto|exact I].
      - now apply cell_index.
      - lia.
      - pose proof (cell_index (ixr (i + m - kr / 2)) (ixc (j + n - kc / 2)) c Rr Rc Hc). lia. }
    destruct Hcn as [E1|E3].
    - replace (cn =? 1) with true by lia.
      assert (E0 : forall a b, 0 <= a < R -> 0 <= b < C -> (a * C + b)%C = Some ((a * C + b) * cn + 0)).
      { intros a b Ha Hb. rewrite E1, Z.mul_1_r, Z.add_0_r. apply (idx2_c R); auto. lia. }
      rewrite (bind_ret _ _ _ _ _ _ (ev_ok _ _ e s1 (E0 i j Hi Hj))). rewrite (bind_ret _ _ _ _ _ _ (ev_ok _ _ e s1 Ek)).
      rewrite (bind_ret _ _ _ _ _ _ (ev_ok _ _ e s1 (E0 _ _ Rr Rc))).
      destruct (arr_isb _ _ _ _ _ _ A1) as (N1 & d1 & Hd1).
      destruct (STEP 0 s1 g1 ltac:(lia) A1 (inside_refl _ _ _ _ _ _ Hd1)) as (s2 & E2 & A2 & I2).
      exists s2. split; auto. split; auto. eapply arr_ext; [|exact A2]. intros t Ht. unfold fupd, cellstep.
      replace (t / cn) with t by (rewrite E1; symmetry; apply Z.div_1_r).
      replace (t mod cn) with 0 by (rewrite E1; symmetry; apply Z.mod_1_r).
      replace ((i * C + j) * cn + 0) with (i * C + j) by lia.
      destruct (Z.eqb_spec t (i * C + j)) as [-> |]; auto.
    - replace (cn =? 1) with false by lia. replace (cn =? 3) with true by lia.
      assert (E0 : forall a b c, 0 <= a < R -> 0 <= b < C -> 0 <= c < 3 ->
                (a * C * cn + b * cn + c)%C = Some ((a * C + b) * cn + c)).
      { intros a b c Ha Hb Hc. apply (idx_c R); auto; lia. }
      destruct (arr_for e s1 qd 0 4 (R * C * cn)
        (fun c g2 => fupd g2 ((i * C + j) * cn + c) (stepw (kg (m * kc + n)) (value i j m n c) (g2 ((i * C + j) * cn + c))))
        3 g1 (fun c =>
              d <- ev (i * C * cn + j * cn + c)%C ;;
              k <- ev (m * kc + n)%C ;;
              x <- ev (ixr (i + m - kr / 2) * C * cn + ixc (j + n - kc / 2) * cn + c)%C ;;
              filter_add (Some qd) (Some kq) (Some qs) d k x)) as (s2 & E2 & A2 & I2); auto; try lia.
      { intros c g2 s2 Hc A2 I2.
        rewrite (bind_ret _ _ _ _ _ _ (ev_ok _ _ e s2 (E0 i j c Hi Hj Hc))). rewrite (bind_ret _ _ _ _ _ _ (ev_ok _ _ e s2 Ek)).
        rewrite (bind_ret _ _ _ _ _ _ (ev_ok _ _ e s2 (E0 _ _ c Rr Rc Hc))).
        apply STEP; auto. lia. }
      exists s2. split; auto. split; auto. eapply arr_ext; [|exact A2]. intros t Ht.
      rewrite (foldz_cell 3 _ (fun w c => if t =? (i * C + j) * cn + c then stepw (kg (m * kc + n)) (value i j m n c) w else w)).
      2: lia.
      2:{ intros c g2 Hc. unfold fupd. destruct (Z.eqb_spec t ((i * C + j) * cn + c)) as [<- |]; auto. }
      unfold cellstep. rewrite E3.
      destruct (Z.eqb_spec (t / 3) (i * C + j)) as [E|E].
      + rewrite (foldz_ext 3 _ (fun w c => if c =? t mod 3 then stepw (kg (m * kc + n)) (value i j m n (t mod 3)) w else w)).
        * now rewrite foldz_once by lia.
        * intros w c Hc. clear - E Hc. revert E. generalize (i * C + j). intros u E.
          destruct (Z.eqb_spec t (u * 3 + c)) as [E1|E1], (Z.eqb_spec c (t mod 3)) as [E2|E2]; auto; try lia.
          now rewrite <- E2.
      + apply foldz_never. intros w c Hc. destruct (Z.eqb_spec t ((i * C + j) * 3 + c)); auto. lia.
  Qed.

  Lemma row_index e s1 i m : 0 <= i < R -> 0 <= m < kr ->
    ev (i + m - kr / 2)%C e s1 = Ret (i + m - kr / 2) s1
    /\ border_index (i + m - kr / 2) R ty e s1 = Ret (ixr (i + m - kr / 2)) s1.
  Proof.
    intros Hi Hm. split.
    - apply ev_ok. unfold ci. rewrite cadd_ok by lia. rewrite cdiv_ok; [|lia|rewrite Z.quot_div_nonneg by lia; lia].
      rewrite Z.quot_div_nonneg by lia. apply csub_ok. lia.
    - apply Gr. lia.
  Qed.

  Lemma loops_run e g : arr s qd 0 4 (R * C * cn) g ->
    exists s', for_ 0 R (fun i =>
      for_ 0 C (fun j =>
        for_ 0 kr (fun m =>
          a <- ev (i + m - kr / 2)%C ;;
          index_i <- border_index a R ty ;;
          for_ 0 kc (fun n =>
            b <- ev (j + n - kc / 2)%C ;;
            index_j <- border_index b C ty ;;
            if cn =? 1 then
              d <- ev (i * C + j)%C ;;
              k <- ev (m * kc + n)%C ;;
              x <- ev (index_i * C + index_j)%C ;;
              filter_add (Some qd) (Some kq) (Some qs) d k x
            else if cn =? 3 then
              for_ 0 3 (fun c =>
                d <- ev (i * C * cn + j * cn + c)%C ;;
                k <- ev (m * kc + n)%C ;;
                x <- ev (index_i * C * cn + index_j * cn + c)%C ;;
                filter_add (Some qd) (Some kq) (Some qs) d k x)
            else ret tt)))) e s = Ret tt s'
    /\ arr s' qd 0 4 (R * C * cn) (fun t => foldz kr (fun w m => foldz kc (fun w n =>
         stepw (kg (m * kc + n)) (value (t / cn / C) (t / cn mod C) m n (t mod cn)) w) w) (g t))
    /\ inside s qd 0 (R * C * cn * 4) s'.
  Proof.
    intros A.
    match goal with |- exists s', for_ 0 R ?body e s = _ /\ _ =>
      destruct (arr_for e s qd 0 4 (R * C * cn) (fun i g => foldz C (fun g j => foldz kr (fun g m => foldz kc (fun g n =>
                  fun t => cellstep i j m n t (g t)) g) g) g) R g body) as (s' & E & A' & I')
    end; [lia|exact A| |].
    - intros i g1 s1 Hi A1 I1.
      apply (arr_for e s1 qd 0 4 (R * C * cn) (fun j g => foldz kr (fun g m => foldz kc (fun g n =>
                  fun t => cellstep i j m n t (g t)) g) g)); [lia|exact A1|].
      intros j g2 s2 Hj A2 I2.
      apply (arr_for e s2 qd 0 4 (R * C * cn) (fun m g => foldz kc (fun g n =>
                  fun t => cellstep i j m n t (g t)) g)); [lia|exact A2|].
      intros m g3 s3 Hm A3 I3. destruct (row_index e s3 i m Hi Hm) as [E1 E2].
      rewrite (bind_ret _ _ _ _ _ _ E1). rewrite (bind_ret _ _ _ _ _ _ E2).
      apply (arr_for e s3 qd 0 4 (R * C * cn) (fun n g => fun t => cellstep i j m n t (g t))); [lia|exact A3|].
      intros n g4 s4 Hn4 A4 I4. apply inner_run; auto.
      eapply inside_trans; [exact I1|]. eapply inside_trans; [exact I2|]. eapply inside_trans; [exact I3|exact I4].
    - exists s'. split; [exact E|]. split; [|exact I']. eapply arr_ext; [|exact A'].
      intros t Ht.
      assert (Hcn0 : 0 < cn) by lia.
      destruct (grid_cover R C cn t HC Hcn0 Ht) as (i0 & j0 & c0 & Hi0 & Hj0 & Hc0 & Et).
      destruct (radix2 (i0 * C + j0) c0 cn Hc0) as [D1 D2]. destruct (radix2 i0 j0 C Hj0) as [D3 D4].
      rewrite Et. rewrite D1, D2, D3, D4. rewrite <- Et.
      rewrite (foldz_cell R _ (fun w i => foldz C (fun w j => foldz kr (fun w m => foldz kc (fun w n =>
                 cellstep i j m n t w) w) w) w)) by (try lia; intros; repeat (apply foldz_cell; [lia|intros]; cbv beta); reflexivity).
      rewrite (foldz_ext R _ (fun w i => if i =? i0 then foldz kr (fun w m => foldz kc (fun w n =>
         stepw (kg (m * kc + n)) (value i0 j0 m n c0) w) w) w else w)).
      { now rewrite foldz_once by lia. }
      intros w i Hi. destruct (Z.eqb_spec i i0) as [-> |Hne].
      + rewrite (foldz_ext C _ (fun w j => if j =? j0 then foldz kr (fun w m => foldz kc (fun w n =>
         stepw (kg (m * kc + n)) (value i0 j0 m n c0) w) w) w else w)).
        { now rewrite foldz_once by lia. }
        intros w1 j Hj. destruct (Z.eqb_spec j j0) as [-> |Hnj].
        * apply foldz_ext. intros w2 m Hm. apply foldz_ext. intros w3 n Hn3. unfold cellstep.
          rewrite Et, D1, D2, Z.eqb_refl. reflexivity.
        * apply foldz_never. intros w2 m Hm. apply foldz_never. intros w3 n Hn3. unfold cellstep.
          rewrite Et, D1. replace (i0 * C + j0 =? i0 * C + j) with false by lia. reflexivity.
      + apply foldz_never. intros w1 j Hj. apply foldz_never. intros w2 m Hm. apply foldz_never. intros w3 n Hn3.
        unfold cellstep. rewrite Et, D1.
        replace (i0 * C + j0 =? i * C + j) with false; auto.
        clear - Hne Hj Hj0. symmetry. apply Z.eqb_neq. intros H. apply Hne. nia.
  Qed.
End Filter.

Lemma fl_word_back x : fl_ok x -> fl_of_bits (fl_word x) = x.
Proof. intros V. unfold fl_word. rewrite Z.mod_small by (now apply bits_of_fl_range). now apply fl_bits_fl. Qed.

Lemma byte_float v : 0 <= v < 256 -> fl_ok (fl_of_Z v).
Proof. intros H. apply (fl_of_Z_ok v). lia. Qed.

(** The words computed by the loops, read as floats. *)
Lemma words_weighted kr kc kg value K Q i j w : 0 < kr -> 0 < kc -> 0 <= w < 4294967296 ->
  (forall m n, 0 <= m < kr -> 0 <= n < kc -> kg (m * kc + n) = K m n /\ 0 <= K m n < 4294967296
     /\ value m n = Q (i + m - kr / 2) (j + n - kc / 2) /\ 0 <= value m n < 256) ->
  fl_of_bits (foldz kr (fun w m => foldz kc (fun w n => stepw (kg (m * kc + n)) (value m n) w) w) w)
  = weighted kr kc K Q i j (fl_of_bits w).
Proof.
  intros Hkr Hkc Hw H. unfold weighted.
  apply (foldz_map fl_of_bits (fun w => 0 <= w < 4294967296) kr); auto; [lia|].
  intros x m Hm Hx.
  apply (foldz_map fl_of_bits (fun w => 0 <= w < 4294967296) kc _ (fun a n => fl_add a (fl_mul (fl_of_bits (K m n)) (fl_of_Z (Q (i + m - kr / 2) (j + n - kc / 2)))))); auto; [lia|].
  intros y n Hn Hy. destruct (H m n Hm Hn) as (E1 & B1 & E2 & B2). rewrite E1, <- E2. unfold stepw.
  assert (V : fl_ok (fl_add (fl_of_bits y) (fl_mul (fl_of_bits (K m n)) (fl_of_Z (value m n))))).
  { apply fl_add_ok; [now apply fl_of_bits_ok|]. apply fl_mul_ok; [now apply fl_of_bits_ok|now apply byte_float]. }
  split; [|now apply fl_word_back]. unfold fl_word. lia.
Qed.

Lemma colours_value s ms qs ns fs P i j c : pixels s ms qs ns fs -> colours s ms P -> in_image ms i j c ->
  fs ((i * sm_cols ms + j) * sm_chan ms + c) mod 256 = P i j c.
Proof. intros Ps G H. specialize (G i j c H). rewrite (pix_val _ _ _ _ _ i j c Ps H) in G. now injection G. Qed.

Lemma sm_at_putc_other s k c p : p <> Some k -> sm_at (putc s k c) p = sm_at s p.
Proof. intros. destruct p as [q|]; auto. unfold sm_at, putc; cbn. rewrite lupd_nth_ne; auto; congruence. Qed.

Lemma header_not_data s k m q n f : sm_at s (Some k) = Some m -> isb s q n f -> q <> k.
Proof.
  intros H I ->. apply sm_at_obj in H as (a & n' & r & H). apply isb_obj in I as (a' & r' & I). congruence.
Qed.

Lemma filter_run e s src dst kernel ms md cn qs ns fs x_ty ixr ixc kr kc K W P :
  sm_at s src = Some ms -> pixels s ms qs ns fs -> sm_at s dst = Some md -> sm_chan ms = cn -> cn = 1 \/ cn = 3 ->
  colours s ms P ->
  matrix s (sm_data md) 4 (sm_rows ms) (sm_cols ms * cn) W -> matrix s kernel 4 kr kc K ->
  sm_data ms <> sm_data md -> kernel <> sm_data md -> 0 < kr -> 0 < kc -> kr * kc <= 2147483647 ->
  sm_rows ms + kr <= 2147483647 -> sm_cols ms + kc <= 2147483647 ->
  good_index x_ty (sm_rows ms) (- (kr / 2)) (sm_rows ms + kr) ixr ->
  good_index x_ty (sm_cols ms) (- (kc / 2)) (sm_cols ms + kc) ixc ->
  exists s', hypercv_filter2D src dst kernel kr kc x_ty e s = Ret tt s'
    /\ accumulated s dst md (sm_rows ms) (sm_cols ms) cn kr kc K
         (fun c a b => P (ixr a) (ixc b) c) W s'.
Proof.
  intros Hs Ps Hd Ecn Hcn G MW MK N1 N2 Hkr Hkc Hki Rk Ck Gr Gc.
  pose proof Ps as [D I R C Ch N Mx]. rewrite Ecn in *.
  set (RR := sm_rows ms) in *. set (CC := sm_cols ms) in *.
  assert (HCc : 0 < CC * cn) by (clear - C Ch; nia).
  destruct (matrix_arr _ _ 4 RR (CC * cn) W ltac:(lia) R HCc MW) as (qd & Dd & A0).
  destruct (matrix_arr _ _ 4 kr kc K ltac:(lia) Hkr Hkc MK) as (kq & -> & K0).
  destruct dst as [kd|]; [|discriminate]. destruct src as [ks|]; [|discriminate].
  unfold hypercv_filter2D. rewrite bind_assert by reflexivity. rewrite bind_assert by reflexivity.
  rewrite (bind_ret _ _ _ _ _ _ (sget_ok (Some kd) md e s Hd)).
  set (md4 := mkSM (sm_rows md) (sm_cols md) 4 (sm_chan md) (sm_esize md) (sm_data md)).
  rewrite (bind_ret _ _ _ _ _ _ (set_header_ok_sm e s kd md (CSM md4) Hd)).
  assert (Hsd : Some ks <> Some kd).
  { intros E. rewrite E in Hs. rewrite Hs in Hd. injection Hd as ->. auto. }
  set (s1 := putc s kd (CSM md4)).
  assert (Hs1 : sm_at s1 (Some ks) = Some ms) by (unfold s1; rewrite sm_at_putc_other; auto).
  assert (Hd1 : sm_at s1 (Some kd) = Some md4) by (eapply sm_at_putc_eq; eauto).
  rewrite (bind_ret _ _ _ _ _ _ (sget_ok _ _ e s1 Hs1)). cbv zeta.
  rewrite (bind_ret _ _ _ _ _ _ (sget_ok _ _ e s1 Hd1)). rewrite Ecn. fold RR CC.
  assert (ISB : forall q n f, isb s q n f -> isb s1 q n f).
  { intros q n f Hq. unfold isb, s1. rewrite bytes_at_putc_ne; auto.
    pose proof (header_not_data s kd md q n f Hd Hq). congruence. }
  assert (ARR : forall q n g, arr s q 0 4 n g -> arr s1 q 0 4 n g).
  { intros q n g (M & d & Hq & Hrest). exists M, d. split; auto. }
  assert (A1 : arr s1 qd 0 4 (RR * CC * cn) (fun t => W (t / (CC * cn)) (t mod (CC * cn)))).
  { rewrite <- Z.mul_assoc. auto. }
  rewrite D. change (sm_data md4) with (sm_data md). rewrite Dd.
  assert (Nk : kq <> qd) by congruence. assert (Ns : qs <> qd) by congruence.
  destruct (loops_run s1 qd kq qs RR CC cn kr kc ns (kr * kc) (fun t => K (t / kc) (t mod kc)) fs x_ty ixr ixc)
    with (e := e) (g := fun t => W (t / (CC * cn)) (t mod (CC * cn))) as (s' & E & A' & I'); auto; try lia.
  exists s'. split; [exact E|]. clear E.
  set (h := fun t : Z => _) in A'.
  assert (OB : only_bytes s1 (Some qd) 0 (RR * (CC * cn) * 4) s').
  { apply inside_only. replace (RR * (CC * cn) * 4) with (RR * CC * cn * 4) by ring. exact I'. }
  destruct OB as (F1 & L1 & U1 & _ & B1).
  assert (Hkd : (kd < List.length (objs s1))%nat).
  { unfold s1, putc; cbn. rewrite lupd_length. apply sm_at_obj in Hd as (? & ? & ? & Hd). eapply nth_error_lt; eauto. }
  assert (Hqk : qd <> kd).
  { destruct A0 as (M & d & Hq & _). eapply header_not_data; eauto. }
  split; [|split; [|split; [|split]]].
  - fold md4. specialize (U1 kd Hkd ltac:(cbn; intuition congruence)). unfold sm_at in *. cbn. rewrite U1. exact Hd1.
  - exists (fun i j => h (i * (CC * cn) + j)). rewrite Dd. split.
    + apply arr_matrix. rewrite Z.mul_assoc. eapply arr_ext; [|exact A']. intros t Ht. cbv beta. f_equal.
      pose proof (Z.div_mod t (CC * cn) ltac:(lia)). lia.
    + intros i j c Hi Hj Hc. unfold h.
      replace (i * (CC * cn) + (j * cn + c)) with ((i * CC + j) * cn + c) by ring.
      destruct (radix2 (i * CC + j) c cn Hc) as [D1 D2]. destruct (radix2 i j CC Hj) as [D3 D4].
      rewrite D1, D2, D3, D4.
      assert (Hjc : 0 <= j * cn + c < CC * cn) by (clear - Hj Hc; nia).
      replace ((i * CC + j) * cn + c) with (i * (CC * cn) + (j * cn + c)) by ring.
      rewrite cell_div, cell_mod by exact Hjc.
      apply (words_weighted kr kc (fun t => K (t / kc) (t mod kc))
        (fun m n => fs ((ixr (i + m - kr / 2) * CC + ixc (j + n - kc / 2)) * cn + c) mod 256)); auto.
      * pose proof (arr_range _ _ _ _ _ _ (i * (CC * cn) + (j * cn + c)) A0 (cell_range _ _ _ _ Hi Hjc)) as B.
        cbv beta in B. rewrite cell_div, cell_mod in B by exact Hjc. exact B.
      * intros m n Hm Hn. rewrite cell_div, cell_mod by exact Hn. split; [reflexivity|].
        split.
        { pose proof (arr_range _ _ _ _ _ _ (m * kc + n) K0 (cell_range _ _ _ _ Hm Hn)) as B.
          cbv beta in B. rewrite cell_div, cell_mod in B by exact Hn. exact B. }
        split; [|lia]. cbv beta. unfold CC. rewrite <- Ecn. eapply colours_value; eauto.
        unfold in_image. rewrite Ecn. split; [|split; auto].
        -- apply Gr. clear - Hi Hm Hkr. lia.
        -- apply Gc. clear - Hj Hn Hkc. lia.
  - intros x Hx. rewrite Dd. rewrite B1 by exact Hx. unfold byte_at. unfold s1. rewrite bytes_at_putc_ne; auto. congruence.
  - intros k Hk Hni. cbn in Hni. rewrite Dd in Hni. rewrite U1.
    + unfold s1, putc; cbn. apply lupd_nth_ne. intros ->. tauto.
    + unfold s1, putc; cbn. now rewrite lupd_length.
    + cbn. tauto.
  - apply same_blocks_trans with s1; [apply same_blocks_putc|].
    destruct I' as (M & d & d' & _ & -> & _). apply same_blocks_putd.
Qed.

Theorem filter_exact : forall e s src dst kernel ms md x kr kc K W P, image s src ms 1 -> sm_at s dst = Some md ->
  sm_chan ms = 1 \/ sm_chan ms = 3 -> colours s ms P ->
  matrix s (sm_data md) 4 (sm_rows ms) (sm_cols ms * sm_chan ms) W -> matrix s kernel 4 kr kc K ->
  sm_data ms <> sm_data md -> kernel <> sm_data md -> 0 < kr -> 0 < kc -> kr * kc <= INT_MAX ->
  sm_rows ms + kr <= INT_MAX -> sm_cols ms + kc <= INT_MAX ->
  exists s', hypercv_filter2D src dst kernel kr kc (mode_of x) e s = Ret tt s'
    /\ accumulated s dst md (sm_rows ms) (sm_cols ms) (sm_chan ms) kr kc K
         (fun c => beyond x ms (fun a b => P a b c)) W s'.
Proof.
  unfold INT_MAX. intros e s src dst kernel ms md x kr kc K W P Hs Hd Hcn G MW MK N1 N2 Hkr Hkc Hki Rk Ck.
  destruct (image_pixels _ _ _ Hs) as (qs & ns & fs & Ps).
  pose proof (px_R _ _ _ _ _ Ps). pose proof (px_C _ _ _ _ _ Ps).
  apply (filter_run e s src dst kernel ms md (sm_chan ms) qs ns fs (mode_of x)
           (source_index x (sm_rows ms)) (source_index x (sm_cols ms)) kr kc K W P); auto.
  - exact (im_hdr _ _ _ _ Hs).
  - apply good_source; [lia|]. intros p Hp. unfold computable, INT_MIN, INT_MAX. destruct x; lia.
  - apply good_source; [lia|]. intros p Hp. unfold computable, INT_MIN, INT_MAX. destruct x; lia.
Qed.

Theorem filter_constant : forall e s src dst kernel ms md kr kc K W P, image s src ms 1 -> sm_at s dst = Some md ->
  sm_chan ms = 1 \/ sm_chan ms = 3 -> colours s ms P ->
  matrix s (sm_data md) 4 (sm_rows ms) (sm_cols ms * sm_chan ms) W -> matrix s kernel 4 kr kc K ->
  sm_data ms <> sm_data md -> kernel <> sm_data md -> 0 < kr -> 0 < kc -> kr * kc <= INT_MAX ->
  sm_rows ms + kr <= INT_MAX -> sm_cols ms + kc <= INT_MAX -> 2 <= sm_rows ms -> 2 <= sm_cols ms ->
  exists s', hypercv_filter2D src dst kernel kr kc 0 e s = Ret tt s'
    /\ accumulated s dst md (sm_rows ms) (sm_cols ms) (sm_chan ms) kr kc K
         (fun c => beyond_one ms (fun a b => P a b c)) W s'.
Proof.
  unfold INT_MAX. intros e s src dst kernel ms md kr kc K W P Hs Hd Hcn G MW MK N1 N2 Hkr Hkc Hki Rk Ck R2 C2.
  destruct (image_pixels _ _ _ Hs) as (qs & ns & fs & Ps).
  apply (filter_run e s src dst kernel ms md (sm_chan ms) qs ns fs 0
           (index_one (sm_rows ms)) (index_one (sm_cols ms)) kr kc K W P); auto.
  - exact (im_hdr _ _ _ _ Hs).
  - apply good_const; lia.
  - apply good_const; lia.
Qed.

(** *** Integer kernels *)
Lemma sumz_abs_le n (f g : Z -> Z) : 0 <= n -> (forall i, 0 <= i < n -> Z.abs (f i) <= g i) -> Z.abs (sumz n f) <= sumz n g.
Proof.
  intros Hn H. revert H. pattern n. apply natlike_ind; auto; [reflexivity|].
  intros k Hk IH H. unfold Z.succ in *. rewrite !sumz_S by lia. specialize (IH ltac:(intros; apply H; lia)).
  specialize (H k ltac:(lia)). lia.
Qed.

Lemma row_int n (kf : Z -> sf) (k q : Z -> Z) a z : 0 <= n -> fint a z ->
  (forall i, 0 <= i < n -> fint (kf i) (k i) /\ 0 <= q i < 256) ->
  Z.abs z + 255 * sumz n (fun i => Z.abs (k i)) <= 16777216 ->
  fint (foldz n (fun a i => fl_add a (fl_mul (kf i) (fl_of_Z (q i)))) a) (z + sumz n (fun i => k i * q i))
  /\ Z.abs (z + sumz n (fun i => k i * q i)) <= Z.abs z + 255 * sumz n (fun i => Z.abs (k i)).
Proof.
  intros Hn Ha. pattern n. apply natlike_ind; auto.
  - intros _ _. rewrite foldz_0, !sumz_0. rewrite Z.add_0_r. split; auto. lia.
  - intros m Hm IH H B. unfold Z.succ in *. rewrite foldz_S, !sumz_S in * by lia.
    destruct IH as [F1 B1]; [intros; apply H; lia|lia|].
    destruct (H m ltac:(lia)) as [Fk Bq].
    assert (Bm : Z.abs (k m * q m) <= 255 * Z.abs (k m)) by (rewrite Z.abs_mul; nia).
    rewrite Z.add_assoc. split; [|lia]. apply fint_add; auto; [|lia].
    apply fint_mul; auto; [apply fint_Z; lia|lia].
Qed.

Lemma sumz_nonneg n f : 0 <= n -> (forall i, 0 <= i < n -> 0 <= f i) -> 0 <= sumz n f.
Proof.
  intros Hn H. revert H. pattern n. apply natlike_ind; auto; [intros; reflexivity|].
  intros k Hk IH H. unfold Z.succ in *. rewrite sumz_S by lia. specialize (IH ltac:(intros; apply H; lia)).
  specialize (H k ltac:(lia)). lia.
Qed.

Lemma weighted_int kr kc K k Q i j a z : 0 <= kr -> 0 <= kc -> fint a z ->
  (forall m n, 0 <= m < kr -> 0 <= n < kc -> fint (fl_of_bits (K m n)) (k m n)) ->
  (forall a b, 0 <= Q a b < 256) ->
  Z.abs z + 255 * sumz kr (fun m => sumz kc (fun n => Z.abs (k m n))) <= 16777216 ->
  fint (weighted kr kc K Q i j a) (z + weighted_sum kr kc k Q i j).
Proof.
  intros Hkr Hkc Ha HK HQ. unfold weighted, weighted_sum. generalize (kr / 2), (kc / 2). intros hr hc.
  enough (G : Z.abs z + 255 * sumz kr (fun m => sumz kc (fun n => Z.abs (k m n))) <= 16777216 ->
    fint (foldz kr (fun a m => foldz kc (fun a n =>
      fl_add a (fl_mul (fl_of_bits (K m n)) (fl_of_Z (Q (i + m - hr) (j + n - hc))))) a) a)
      (z + sumz kr (fun m => sumz kc (fun n => k m n * Q (i + m - hr) (j + n - hc))))
    /\ Z.abs (z + sumz kr (fun m => sumz kc (fun n => k m n * Q (i + m - hr) (j + n - hc))))
       <= Z.abs z + 255 * sumz kr (fun m => sumz kc (fun n => Z.abs (k m n)))) by (intros; now apply G).
  revert HK. pattern kr. apply natlike_ind; auto.
  - intros _ _. rewrite foldz_0, !sumz_0, Z.add_0_r. split; auto. lia.
  - intros r Hr IH HK B. unfold Z.succ in *. rewrite foldz_S, !sumz_S in * by lia.
    pose proof (sumz_nonneg kc (fun n => Z.abs (k r n)) Hkc ltac:(intros; lia)).
    destruct IH as [F1 B1]; [intros; apply HK; lia|lia|].
    destruct (row_int kc (fun n => fl_of_bits (K r n)) (k r) (fun n => Q (i + r - hr) (j + n - hc)) _ _ Hkc F1) as [F2 B2].
    + intros n Hn. split; [apply HK; lia|apply HQ].
    + lia.
    + rewrite Z.add_assoc. split; auto. lia.
Qed.

Lemma word_at_range s p off n w : word_at s p off n = Some w -> 0 <= w < 256 ^ Z.of_nat n.
Proof.
  destruct n as [|k]; [intros [= <-]; cbn; lia|]. intros H.
  destruct (word_isb _ _ _ _ _ H) as (q & N & d & -> & I & H1 & H2).
  rewrite (word_at_isb s q N d) in H by auto. assert (E : w = word d off (S k)) by congruence. rewrite E. apply word_range.
Qed.

Theorem filter_integer : forall e s src dst kernel ms md x kr kc K k P, image s src ms 1 -> sm_at s dst = Some md ->
  sm_chan ms = 1 \/ sm_chan ms = 3 -> colours s ms P ->
  matrix s (sm_data md) 4 (sm_rows ms) (sm_cols ms * sm_chan ms) (fun _ _ => 0) -> matrix s kernel 4 kr kc K ->
  sm_data ms <> sm_data md -> kernel <> sm_data md -> 0 < kr -> 0 < kc -> kr * kc <= INT_MAX ->
  sm_rows ms + kr <= INT_MAX -> sm_cols ms + kc <= INT_MAX ->
  (forall m n, 0 <= m < kr -> 0 <= n < kc -> float_int (K m n) (k m n)) ->
  255 * sumz kr (fun m => sumz kc (fun n => Z.abs (k m n))) <= 16777216 ->
  exists s' W', hypercv_filter2D src dst kernel kr kc (mode_of x) e s = Ret tt s'
    /\ matrix s' (sm_data md) 4 (sm_rows ms) (sm_cols ms * sm_chan ms) W'
    /\ (forall i j c, in_image ms i j c ->
          float_int (W' i (j * sm_chan ms + c)) (weighted_sum kr kc k (beyond x ms (fun a b => P a b c)) i j)).
Proof.
  intros e s src dst kernel ms md x kr kc K k P Hs Hd Hcn G MW MK N1 N2 Hkr Hkc Hki Rk Ck HK B.
  destruct (filter_exact e s src dst kernel ms md x kr kc K (fun _ _ => 0) P) as (s' & E & _ & (W' & M' & V') & _); auto.
  exists s', W'. split; auto. split; auto. intros i j c (Hi & Hj & Hc). unfold float_int. rewrite V' by auto.
  destruct (image_pixels _ _ _ Hs) as (qs & ns & fs & Ps).
  assert (F : fint (weighted kr kc K (beyond x ms (fun a b => P a b c)) i j (fl_of_bits 0))
     (0 + weighted_sum kr kc k (beyond x ms (fun a b => P a b c)) i j)).
  { apply weighted_int; try lia.
    - split; reflexivity.
    - intros m n Hm Hn. split; [|now apply HK]. apply fl_of_bits_ok.
      exact (word_at_range _ _ _ _ _ (MK m n Hm Hn)).
    - intros a b. unfold beyond.
      assert (IM : in_image ms (source_index x (sm_rows ms) a) (source_index x (sm_cols ms) b) c).
      { pose proof (px_R _ _ _ _ _ Ps). pose proof (px_C _ _ _ _ _ Ps).
        split; [apply source_range; lia|]. split; [apply source_range; lia|auto]. }
      rewrite <- (colours_value _ _ _ _ _ _ _ _ _ Ps G IM). lia. }
  exact (proj2 F).
Qed.

(** *** Other numbers of channels *)
Lemma for_same e s lo hi body : lo <= hi -> (forall i, lo <= i < hi -> body i e s = Ret tt s) -> for_ lo hi body e s = Ret tt s.
Proof.
  intros Hle H. destruct (for_inv e lo hi body (fun _ s1 => s1 = s) s) as (s' & E & ->); auto.
  intros i s1 Hi ->. exists s. auto.
Qed.

Theorem filter_other : forall e s src dst kernel ms md x kr kc, image s src ms 1 -> sm_at s dst = Some md ->
  sm_chan ms <> 1 -> sm_chan ms <> 3 -> src <> dst -> kernel <> None -> 0 < kr -> 0 < kc ->
  sm_rows ms + kr <= INT_MAX -> sm_cols ms + kc <= INT_MAX ->
  exists s', hypercv_filter2D src dst kernel kr kc (mode_of x) e s = Ret tt s'
    /\ unchanged_except [dst] s s' /\ same_blocks s s'.
Proof.
  unfold INT_MAX. intros e s src dst kernel ms md x kr kc Hs Hd C1 C3 N1 Nk Hkr Hkc Rk Ck.
  destruct (image_pixels _ _ _ Hs) as (qs & ns & fs & Ps).
  pose proof (px_R _ _ _ _ _ Ps). pose proof (px_C _ _ _ _ _ Ps). pose proof (im_hdr _ _ _ _ Hs) as Hh.
  destruct dst as [kd|]; [|discriminate]. destruct src as [ks|]; [|discriminate]. destruct kernel as [kq|]; [|tauto].
  unfold hypercv_filter2D. rewrite bind_assert by reflexivity. rewrite bind_assert by reflexivity.
  rewrite (bind_ret _ _ _ _ _ _ (sget_ok (Some kd) md e s Hd)).
  set (md4 := mkSM (sm_rows md) (sm_cols md) 4 (sm_chan md) (sm_esize md) (sm_data md)).
  rewrite (bind_ret _ _ _ _ _ _ (set_header_ok_sm e s kd md (CSM md4) Hd)).
  set (s1 := putc s kd (CSM md4)).
  assert (Hs1 : sm_at s1 (Some ks) = Some ms) by (unfold s1; rewrite sm_at_putc_other; auto).
  assert (Hd1 : sm_at s1 (Some kd) = Some md4) by (eapply sm_at_putc_eq; eauto).
  rewrite (bind_ret _ _ _ _ _ _ (sget_ok _ _ e s1 Hs1)). cbv zeta.
  rewrite (bind_ret _ _ _ _ _ _ (sget_ok _ _ e s1 Hd1)).
  assert (Gr : good_index (mode_of x) (sm_rows ms) (- (kr / 2)) (sm_rows ms + kr) (source_index x (sm_rows ms))).
  { apply good_source; [lia|]. intros p Hp. unfold computable, INT_MIN, INT_MAX. destruct x; lia. }
  assert (Gc : good_index (mode_of x) (sm_cols ms) (- (kc / 2)) (sm_cols ms + kc) (source_index x (sm_cols ms))).
  { apply good_source; [lia|]. intros p Hp. unfold computable, INT_MIN, INT_MAX. destruct x; lia. }
  assert (EV : forall a b k len, 0 <= a < len -> 0 <= b < k -> len + k <= 2147483647 ->
    ev (a + b - k / 2)%C e s1 = Ret (a + b - k / 2) s1).
  { intros a b k len Ha Hb Hl. apply ev_ok. unfold ci. rewrite cadd_ok by lia.
    rewrite cdiv_ok; [|lia|rewrite Z.quot_div_nonneg by lia; lia].
    rewrite Z.quot_div_nonneg by lia. apply csub_ok. lia. }
  exists s1. split; [|split].
  - apply for_same; [lia|]. intros i Hi. apply for_same; [lia|]. intros j Hj. apply for_same; [lia|]. intros m Hm.
    rewrite (bind_ret _ _ _ _ _ _ (EV i m kr (sm_rows ms) Hi Hm Rk)).
    destruct (Gr (i + m - kr / 2) ltac:(lia)) as [_ E1]. rewrite (bind_ret _ _ _ _ _ _ (E1 e s1)).
    apply for_same; [lia|]. intros n Hn.
    rewrite (bind_ret _ _ _ _ _ _ (EV j n kc (sm_cols ms) Hj Hn Ck)).
    destruct (Gc (j + n - kc / 2) ltac:(lia)) as [_ E2]. rewrite (bind_ret _ _ _ _ _ _ (E2 e s1)).
    replace (sm_chan ms =? 1) with false by lia. replace (sm_chan ms =? 3) with false by lia. reflexivity.
  - intros k Hk Hni. unfold s1, putc; cbn. apply lupd_nth_ne. intros ->. apply Hni. now left.
  - apply same_blocks_putc.
Qed.

(** ** Integral image *)
Lemma sumz_ext n (f g : Z -> Z) : (forall i, 0 <= i < n -> f i = g i) -> sumz n f = sumz n g.
Proof.
  intros H. destruct (Z_le_gt_dec n 0) as [Hn|Hn].
  - unfold sumz. now replace (Z.to_nat n) with 0%nat by lia.
  - assert (K : 0 <= n) by lia. revert H. clear Hn. pattern n. apply natlike_ind; auto.
    intros k Hk IH H. unfold Z.succ in *. rewrite !sumz_S by lia. rewrite IH by (intros; apply H; lia). rewrite H by lia. reflexivity.
Qed.

Lemma block_row P i0 i1 j0 j1 : i0 <= i1 ->
  block_sum P i0 (i1 + 1) j0 j1 = block_sum P i0 i1 j0 j1 + sumz (j1 - j0) (fun b => P i1 (j0 + b)).
Proof.
  intros H. unfold block_sum. replace (i1 + 1 - i0) with (i1 - i0 + 1) by lia. rewrite sumz_S by lia.
  f_equal. apply sumz_ext. intros b _. now replace (i0 + (i1 - i0)) with i1 by lia.
Qed.

Lemma integral_step P i j : 0 < i -> 0 < j ->
  library_integral P i j = library_integral P (i - 1) j + library_integral P i (j - 1) + P i j - library_integral P (i - 1) (j - 1).
Proof.
  intros Hi Hj. unfold library_integral.
  replace (i - 1 + 1) with i by lia. replace (j - 1 + 1) with j by lia.
  rewrite !(block_row P 1 i) by lia. replace (j + 1 - 1) with (j - 1 + 1) by lia. rewrite sumz_S by lia.
  replace (1 + (j - 1)) with j by lia. ring.
Qed.

Lemma integral_edge P i j : 0 <= i -> 0 <= j -> i = 0 \/ j = 0 -> library_integral P i j = P i j.
Proof.
  intros Hi Hj [-> | ->]; unfold library_integral, block_sum.
  - change (0 + 1 - 1) with 0. rewrite sumz_0. lia.
  - rewrite (sumz_ext _ _ (fun _ => 0)) by (intros; apply sumz_0).
    assert (Z0 : forall n, 0 <= n -> sumz n (fun _ => 0) = 0).
    { intros n Hn. pattern n. apply natlike_ind; auto. intros k Hk IH. unfold Z.succ. rewrite sumz_S by lia. lia. }
    rewrite Z0 by lia. lia.
Qed.

Lemma sumz_bounds n f B : 0 <= n -> (forall i, 0 <= i < n -> 0 <= f i <= B) -> 0 <= sumz n f <= n * B.
Proof.
  intros Hn H. revert H. pattern n. apply natlike_ind; auto; [intros; cbn; lia|].
  intros k Hk IH H. unfold Z.succ in *. rewrite sumz_S by lia. specialize (IH ltac:(intros; apply H; lia)).
  specialize (H k ltac:(lia)). lia.
Qed.

Lemma integral_bounds P i j R C : 0 <= i < R -> 0 <= j < C -> (forall a b, 0 <= a < R -> 0 <= b < C -> 0 <= P a b < 256) ->
  -255 <= library_integral P i j <= 255 * (R * C) + 510.
Proof.
  intros Hi Hj HP. unfold library_integral.
  assert (B : 0 <= block_sum P 1 (i + 1) 1 (j + 1) <= (i + 1 - 1) * ((j + 1 - 1) * 255)).
  { unfold block_sum. apply sumz_bounds; [lia|]. intros a Ha. apply sumz_bounds; [lia|]. intros b Hb.
    specialize (HP (1 + a) (1 + b) ltac:(lia) ltac:(lia)). lia. }
  pose proof (HP i 0 ltac:(lia) ltac:(lia)). pose proof (HP 0 j ltac:(lia) ltac:(lia)). pose proof (HP 0 0 ltac:(lia) ltac:(lia)).
  assert ((i + 1 - 1) * ((j + 1 - 1) * 255) <= 255 * (R * C)) by (clear - Hi Hj; nia). lia.
Qed.

Lemma integral_run e s src dst ms md qs ns fs qd nd P :
  sm_at s src = Some ms -> pixels s ms qs ns fs -> sm_type ms = 1 -> sm_chan ms = 1 -> grey s ms P ->
  sm_at s dst = Some md -> sm_type md = 3 -> sm_chan md = 1 -> sm_data md = Some qd ->
  (exists fd, isb s qd nd fd) -> sm_rows ms * sm_cols ms * 4 <= nd -> qs <> qd ->
  510 * (sm_rows ms * sm_cols ms) + 2000 <= 2147483647 ->
  exists s', hypercv_integral src dst e s = Ret tt s'
    /\ matrix s' (sm_data md) 4 (sm_rows ms) (sm_cols ms) (fun i j => library_integral P i j mod 4294967296)
    /\ inside s qd 0 (sm_rows ms * sm_cols ms * 4) s'.
Proof.
  intros Hs Ps T1 C1 G Hd T3 Cd Dd (fd & Id) Hnd Hne Hsz.
  destruct src as [ks|]; [|discriminate]. destruct dst as [kd|]; [|discriminate].
  unfold hypercv_integral. rewrite bind_assert by reflexivity.
  rewrite (bind_ret _ _ _ _ _ _ (sget_ok _ _ e s Hs)). cbv zeta.
  rewrite bind_assert by lia. rewrite bind_assert by lia. cbn [nonnull]. rewrite bind_ret_l.
  rewrite (bind_ret _ _ _ _ _ _ (sget_ok _ _ e s Hd)). rewrite bind_assert by lia.
  pose proof (px_R _ _ _ _ _ Ps) as R. pose proof (px_C _ _ _ _ _ Ps) as C.
  pose proof (px_n _ _ _ _ _ Ps) as N. rewrite C1, Z.mul_1_r in N. pose proof (px_isb _ _ _ _ _ Ps) as I.
  rewrite Dd, (px_data _ _ _ _ _ Ps).
  set (RR := sm_rows ms) in *. set (CC := sm_cols ms) in *.
  pose proof (arr_of s qd nd fd 0 4 (RR * CC) Id ltac:(lia) ltac:(lia) ltac:(lia)) as A0.
  assert (HP : forall a b, 0 <= a < RR -> 0 <= b < CC -> 0 <= P a b < 256).
  { intros a b Ha Hb. rewrite <- (near_grey _ _ _ _ _ _ _ _ Ps C1 G Ha Hb). lia. }
  set (h := fun t => library_integral P (t / CC) (t mod CC) mod 4294967296).
  assert (Hh : forall i j, 0 <= j < CC -> h (i * CC + j) = library_integral P i j mod 4294967296).
  { intros i j Hj. unfold h. now rewrite cell_div, cell_mod by lia. }
  match goal with |- exists s', ?m e s = _ /\ _ =>
    destruct (grid_run e s qd 4 RR CC _ h (fun i j =>
      k <- ev (i * CC + j)%C ;;
      if (i =? 0) || (j =? 0) then
        v <- load8 (Some qs) k ;;
        storele (Some qd) (4 * k) 4 v
      else
        ka <- ev ((i - 1) * CC + j)%C ;;
        a <- loadle (Some qd) (4 * ka) 4 ;;
        kb <- ev (i * CC + j - 1)%C ;;
        b <- loadle (Some qd) (4 * kb) 4 ;;
        v <- load8 (Some qs) k ;;
        kc <- ev ((i - 1) * CC + j - 1)%C ;;
        c <- loadle (Some qd) (4 * kc) 4 ;;
        r <- ev (sgn 32 a + sgn 32 b + v - sgn 32 c)%C ;;
        storele (Some qd) (4 * k) 4 r) (Z.lt_le_incl _ _ R) (Z.lt_le_incl _ _ C) A0) as (s' & E & A' & I')
  end.
  - intros i j s1 Hi Hj A1 I1. set (t := i * CC + j) in *.
    pose proof (cell_range RR CC i j Hi Hj) as Ht. fold t in Ht.
    assert (It : isb s1 qs ns fs) by (eapply inside_old; [exact I1|auto|exact I]).
    assert (Ek : (i * CC + j)%C = Some t) by (apply (idx2_c RR); auto; lia).
    assert (Vt : fs t mod 256 = P i j) by (apply (near_grey s ms qs ns fs P i j Ps C1 G Hi Hj)).
    rewrite (bind_ret _ _ _ _ _ _ (ev_ok _ _ e s1 Ek)).
    assert (ST : forall v, v mod 4294967296 = h t -> exists s2, storele (Some qd) (4 * t) 4 v e s1 = Ret tt s2
       /\ arr s2 qd 0 4 (RR * CC) (upto (t + 1) h (fun i0 => word fd (0 + i0 * 4) (Z.to_nat 4)))
       /\ inside s1 qd 0 (RR * CC * 4) s2).
    { intros v Hv. destruct (arr_store e s1 qd 0 4 (RR * CC) _ t (4 * t) 4%nat v A1 Ht) as (s2 & E2 & A2 & I2); [lia|reflexivity|].
      exists s2. split; [exact E2|]. split; [eapply upto_step; [exact A2|exact Hv]|].
      eapply inside_weaken; [| |exact I2]; lia. }
    destruct ((i =? 0) || (j =? 0)) eqn:Eij.
    + rewrite (bind_ret _ _ _ _ _ _ (load8_ok e s1 qs ns fs t It ltac:(lia))). rewrite Vt. apply ST.
      unfold t. rewrite Hh by exact Hj. f_equal. symmetry. apply integral_edge; lia.
    + assert (Hi1 : 0 < i) by lia. assert (Hj1 : 0 < j) by lia.
      assert (PV : forall a b, 0 <= a < RR -> 0 <= b < CC -> a * CC + b < t ->
         loadle (Some qd) (4 * (a * CC + b)) 4 e s1 = Ret (library_integral P a b mod 4294967296) s1).
      { intros a b Ha Hb Hlt.
        rewrite (arr_load e s1 qd 0 4 (RR * CC) _ (a * CC + b) (4 * (a * CC + b)) 4%nat A1
                   (cell_range _ _ _ _ Ha Hb)) by lia.
        rewrite upto_lt by exact Hlt. now rewrite Hh. }
      pose proof (cell_range RR CC (i - 1) j ltac:(lia) Hj) as C2.
      pose proof (cell_range RR CC i (j - 1) Hi ltac:(lia)) as C3.
      pose proof (cell_range RR CC (i - 1) (j - 1) ltac:(lia) ltac:(lia)) as C4.
      assert (LT : (i - 1) * CC + j < t) by (unfold t; lia).
      assert (0 <= i * CC) by (clear - Hi1 C; nia). assert (0 <= (i - 1) * CC) by (clear - Hi1 C; nia).
      assert (E1 : ((i - 1) * CC + j)%C = Some ((i - 1) * CC + j)).
      { unfold ci. rewrite csub_ok by lia. rewrite (cmul_ok (i - 1) CC) by lia. apply cadd_ok. lia. }
      assert (E2 : (i * CC + j - 1)%C = Some (i * CC + (j - 1))).
      { unfold ci. rewrite (cmul_ok i CC) by lia. rewrite cadd_ok by lia. rewrite csub_ok by lia. f_equal. lia. }
      assert (E3 : ((i - 1) * CC + j - 1)%C = Some ((i - 1) * CC + (j - 1))).
      { unfold ci. rewrite csub_ok by lia. rewrite (cmul_ok (i - 1) CC) by lia. rewrite cadd_ok by lia. rewrite csub_ok by lia. f_equal. lia. }
      rewrite (bind_ret _ _ _ _ _ _ (ev_ok _ _ e s1 E1)).
      rewrite (bind_ret _ _ _ _ _ _ (PV (i - 1) j ltac:(lia) Hj LT)).
      rewrite (bind_ret _ _ _ _ _ _ (ev_ok _ _ e s1 E2)).
      rewrite (bind_ret _ _ _ _ _ _ (PV i (j - 1) Hi ltac:(lia) ltac:(unfold t; lia))).
      rewrite (bind_ret _ _ _ _ _ _ (load8_ok e s1 qs ns fs t It ltac:(lia))). rewrite Vt.
      rewrite (bind_ret _ _ _ _ _ _ (ev_ok _ _ e s1 E3)).
      rewrite (bind_ret _ _ _ _ _ _ (PV (i - 1) (j - 1) ltac:(lia) ltac:(lia) ltac:(unfold t; lia))).
      pose proof (integral_bounds P (i - 1) j RR CC ltac:(lia) Hj HP) as B1.
      pose proof (integral_bounds P i (j - 1) RR CC Hi ltac:(lia) HP) as B2.
      pose proof (integral_bounds P (i - 1) (j - 1) RR CC ltac:(lia) ltac:(lia) HP) as B3.
      pose proof (integral_bounds P i j RR CC Hi Hj HP) as B4.
      pose proof (integral_step P i j Hi1 Hj1) as SP. pose proof (HP i j Hi Hj) as BP.
      rewrite !sgn_id by (unfold int_range; lia).
      assert (E4 : (library_integral P (i - 1) j + library_integral P i (j - 1) + P i j - library_integral P (i - 1) (j - 1))%C
                   = Some (library_integral P i j)).
      { unfold ci. rewrite cadd_ok by lia. rewrite cadd_ok by lia. rewrite csub_ok by lia. f_equal. lia. }
      rewrite (bind_ret _ _ _ _ _ _ (ev_ok _ _ e s1 E4)). apply ST. unfold t. now rewrite Hh.
  - exists s'. split; [exact E|]. split; [|exact I']. apply arr_matrix. exact A'.
Qed.

Lemma block_col P i0 i1 j0 j1 : i0 <= i1 -> j0 <= j1 ->
  block_sum P i0 i1 j0 (j1 + 1) = block_sum P i0 i1 j0 j1 + sumz (i1 - i0) (fun a => P (i0 + a) j1).
Proof.
  intros Hi Hj. unfold block_sum. generalize (i1 - i0). intros n.
  assert (G : 0 <= n \/ n < 0) by lia. destruct G as [Hn|Hn].
  - pattern n. apply natlike_ind; auto. intros k Hk IH. unfold Z.succ. rewrite !(sumz_S k) by lia. rewrite IH.
    replace (j1 + 1 - j0) with (j1 - j0 + 1) by lia. rewrite sumz_S by lia.
    replace (j0 + (j1 - j0)) with j1 by lia. lia.
  - unfold sumz. replace (Z.to_nat n) with 0%nat by lia. reflexivity.
Qed.

Lemma block_first_row P i j : 0 <= i -> 0 <= j ->
  block_sum P 0 (i + 1) 0 (j + 1) = block_sum P 1 (i + 1) 1 (j + 1) + sumz i (fun a => P (1 + a) 0)
    + sumz j (fun b => P 0 (1 + b)) + P 0 0.
Proof.
  intros Hi Hj. revert j Hj. pattern i. apply natlike_ind; auto.
  - intros j Hj. change (0 + 1) with 1. replace (sumz 0 (fun a => P (1 + a) 0)) with 0 by (symmetry; apply sumz_0).
    assert (E : forall n, block_sum P 1 1 1 n = 0) by (intros; unfold block_sum; apply sumz_0).
    rewrite E. pattern j. apply natlike_ind; auto.
    intros k Hk IH. unfold Z.succ. rewrite block_col by lia. rewrite IH, sumz_S by lia.
      change (1 - 0) with (0 + 1). rewrite sumz_S, sumz_0 by lia. change (0 + 0) with 0.
      replace (1 + k) with (k + 1) by lia. lia.
  - intros u Hu IH j Hj. unfold Z.succ. rewrite (block_row P 0 (u + 1)), (block_row P 1 (u + 1)) by lia. rewrite IH by lia. rewrite (sumz_S u) by lia.
    replace (j + 1 - 0) with (j + 1) by lia. replace (j + 1 - 1) with j by lia.
    assert (S1 : forall f, sumz (j + 1) f = f 0 + sumz j (fun b => f (1 + b))).
    { intros f. pattern j. apply natlike_ind; auto.
      - rewrite sumz_S, !sumz_0 by lia. lia.
      - intros k Hk IH2. unfold Z.succ. rewrite (sumz_S (k + 1)) by lia. rewrite IH2, (sumz_S k) by lia.
        replace (1 + k) with (k + 1) by lia. lia. }
    rewrite S1. change (0 + 0) with 0. replace (1 + u) with (u + 1) by lia.
    rewrite (sumz_ext j (fun b => P (u + 1) (0 + (1 + b))) (fun b => P (u + 1) (1 + b))) by (intros; f_equal; lia). lia.
Qed.

Theorem integral_exact : forall e s src dst ms md P, image s src ms 1 -> image s dst md 4 ->
  sm_chan ms = 1 -> sm_chan md = 1 -> sm_type md = 3 -> sm_rows md = sm_rows ms -> sm_cols md = sm_cols ms ->
  sm_data ms <> sm_data md -> grey s ms P -> 510 * (sm_rows ms * sm_cols ms) + 2000 <= INT_MAX ->
  exists s', hypercv_integral src dst e s = Ret tt s'
    /\ matrix s' (sm_data md) 4 (sm_rows ms) (sm_cols ms) (fun i j => library_integral P i j mod 4294967296)
    /\ only_bytes s (sm_data md) 0 (sm_rows ms * sm_cols ms * 4) s'.
Proof.
  intros e s src dst ms md P Hs Hd C1 C2 T3 ER EC Hne G Hsz.
  destruct (image_pixels _ _ _ Hs) as (qs & ns & fs & Ps).
  pose proof (im_data _ _ _ _ Hd) as Rd. apply readable_isb in Rd as (qd & nd & fd & Dd & Id & Nd).
  destruct (integral_run e s src dst ms md qs ns fs qd nd P) as (s' & E & A & I'); auto.
  - exact (im_hdr _ _ _ _ Hs).
  - apply type_one. exact (im_type _ _ _ _ Hs).
  - exact (im_hdr _ _ _ _ Hd).
  - eauto.
  - rewrite ER, EC, C2 in Nd. lia.
  - eapply data_ne; [apply (px_data _ _ _ _ _ Ps)|exact Dd|auto].
  - exists s'. split; auto. split; auto. rewrite Dd. now apply inside_only.
Qed.

(** Rectangles away from the first row and column are right. *)
Theorem integral_rectangles : forall P i0 i1 j0 j1, 0 <= i0 <= i1 -> 0 <= j0 <= j1 ->
  library_integral P i1 j1 - library_integral P i0 j1 - library_integral P i1 j0 + library_integral P i0 j0
  = block_sum P (i0 + 1) (i1 + 1) (j0 + 1) (j1 + 1).
Proof.
  intros P i0 i1 j0 j1 Hi Hj. unfold library_integral.
  replace i1 with (i0 + (i1 - i0)) by lia. generalize (i1 - i0) (Zle_minus_le_0 _ _ (proj2 Hi)). intros n Hn.
  pattern n. apply natlike_ind; auto.
  - rewrite Z.add_0_r. unfold block_sum at 5. replace (i0 + 1 - (i0 + 1)) with 0 by lia. rewrite sumz_0. lia.
  - intros k Hk IH. unfold Z.succ. rewrite Z.add_assoc in *.
    rewrite !(block_row P _ (i0 + k + 1)) by lia.
    replace (j1 + 1 - 1) with j1 by lia. replace (j0 + 1 - 1) with j0 by lia. replace (j1 + 1 - (j0 + 1)) with (j1 - j0) by lia.
    assert (SP : sumz j1 (fun b => P (i0 + k + 1) (1 + b)) = sumz j0 (fun b => P (i0 + k + 1) (1 + b))
                 + sumz (j1 - j0) (fun b => P (i0 + k + 1) (j0 + 1 + b))).
    { replace j1 with (j0 + (j1 - j0)) at 1 by lia. generalize (j1 - j0) (Zle_minus_le_0 _ _ (proj2 Hj)). intros m Hm.
      pattern m. apply natlike_ind; auto.
      - rewrite Z.add_0_r, sumz_0. lia.
      - intros u Hu IHu. unfold Z.succ. rewrite Z.add_assoc, (sumz_S (j0 + u)), (sumz_S u) by lia. rewrite IHu.
        replace (1 + (j0 + u)) with (j0 + 1 + u) by lia. lia. }
    lia.
Qed.

(** With a zero first row and column everything is right. *)
Theorem integral_zero_border : forall P i j, 0 <= i -> 0 <= j ->
  (forall a, 0 <= a <= i -> P a 0 = 0) -> (forall b, 0 <= b <= j -> P 0 b = 0) ->
  library_integral P i j = block_sum P 0 (i + 1) 0 (j + 1).
Proof.
  intros P i j Hi Hj Ha Hb. rewrite block_first_row by lia. unfold library_integral.
  rewrite (Ha i), (Hb j), (Ha 0) by lia.
  assert (Z0 : forall n f, 0 <= n -> (forall t, 0 <= t < n -> f t = 0) -> sumz n f = 0).
  { intros n f Hn Hf. pose proof (sumz_bounds n f 0 Hn ltac:(intros t Ht; rewrite Hf; lia)). lia. }
  rewrite (Z0 i), (Z0 j) by (auto; intros; (rewrite Ha || rewrite Hb); lia). lia.
Qed.
