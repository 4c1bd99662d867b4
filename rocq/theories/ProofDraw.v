(** * Proofs: drawing (C52, C53). *)
From Verif Require Import Base Logic ModelCore ModelFloat ModelDraw SpecBase SpecNum SpecMatrix SpecDraw
  ProofCore ProofHM ProofWord ProofArr ProofGrid ProofMatrix ProofFloat ProofFloat2 ProofDiv.
From Coq Require Import ZifyBool ZifyNat Floats.SpecFloat.
Ltac Zify.zify_post_hook ::= Z.div_mod_to_equations.
Open Scope Z_scope.

Lemma rdv_loadle e s0 q p n d k : p <> q -> isb s0 p n d -> forall off, 0 <= off -> off + Z.of_nat k <= n ->
  rdv e s0 q (loadle (Some p) off k) (word d off k).
Proof. intros Hp H off H0 H1 f. apply loadle_ok with (N := n); auto. now apply isb_putd_ne. Qed.

Lemma only_bytes_putd s q n d d' lo hi : isb s q n d -> (forall p, ~ lo <= p < hi -> d' p = d p) ->
  only_bytes s (Some q) lo hi (putd s q d').
Proof. intros H H'. apply inside_only. exists n, d, d'. auto. Qed.

Lemma Some_inj {A} (x y : A) : Some x = Some y -> x = y. Proof. congruence. Qed.
Lemma mod3 a b : (a * 3 + b * 3) mod 3 = 0 /\ (a * 3 + b * 3 + 1) mod 3 = 1 /\ (a * 3 + b * 3 + 2) mod 3 = 2.
Proof. lia. Qed.

Lemma half_lo e size s0 q : -2147483648 < size <= 2147483647 ->
  rdv e s0 q (ev ((0 - size) / 2)%C) (- Z.quot size 2).
Proof.
  intros Sz. apply rdv_ev. unfold ci. rewrite csub_ok by lia. rewrite cdiv_ok; [f_equal; lia|lia|].
  assert (Z.quot (0 - size) 2 = - Z.quot size 2) by lia. lia.
Qed.
Lemma half_hi e size s0 q : -2147483648 < size <= 2147483647 -> rdv e s0 q (ev (size / 2)%C) (Z.quot size 2).
Proof. intros Sz. apply rdv_ev. unfold ci. apply cdiv_ok; lia. Qed.

Section Draw.
  Variables (e : env) (s : st) (p dst : ptr) (ms md : smat).
  Hypotheses (Is : image s p ms 1) (Id : image s dst md 1) (Ty : sm_type ms = 1).
  Hypotheses (Er : sm_rows ms = sm_rows md) (Ec : sm_cols ms = sm_cols md) (Eh : sm_chan ms = sm_chan md).
  Hypothesis (Ne : sm_data ms <> sm_data md).
  Notation R := (sm_rows md). Notation C := (sm_cols md). Notation ch := (sm_chan md).

  Lemma draw_open_run : exists q N d q' N' f,
    sm_data md = Some q /\ isb s q N d /\ R * C * ch <= N
    /\ sm_data ms = Some q' /\ isb s q' N' f /\ R * C * ch <= N' /\ q <> q'
    /\ draw_open p dst e s
       = Ret (ms, md) (putd s q (fun x => if (0 <=? x) && (x <? R * C * ch) then f (x - 0 + 0) else d x)).
  Proof.
    destruct (readable_isb _ _ _ (im_data _ _ _ _ Id)) as (q & N & d & E1 & H1 & L1).
    destruct (readable_isb _ _ _ (im_data _ _ _ _ Is)) as (q' & N' & f & E2 & H2 & L2).
    pose proof (im_rows _ _ _ _ Id). pose proof (im_cols _ _ _ _ Id). pose proof (im_chan _ _ _ _ Id).
    pose proof (im_size _ _ _ _ Id) as Hz. rewrite Z.mul_1_r in *. rewrite Er, Ec, Eh in L2.
    assert (Hne : q <> q') by congruence.
    exists q, N, d, q', N', f. do 7 (split; auto).
    unfold draw_open.
    assert (Pn : nonnull p = true).
    { pose proof (im_hdr _ _ _ _ Is) as Hh. destruct p; auto; discriminate. }
    assert (Dn : nonnull dst = true).
    { pose proof (im_hdr _ _ _ _ Id) as Hh. destruct dst; auto; discriminate. }
    rewrite Pn, Dn, bind_assert by reflexivity.
    rewrite (bind_ret _ _ _ _ _ _ (sget_ok _ _ e s (im_hdr _ _ _ _ Is))). rewrite bind_assert by lia.
    rewrite (bind_ret _ _ _ _ _ _ (sget_ok _ _ e s (im_hdr _ _ _ _ Id))). rewrite bind_assert by lia.
    rewrite Er, Ec, Eh.
    rewrite (bind_ret _ _ _ _ _ _ (ev_ok (R * C * ch)%C (R * C * ch) e s
      ltac:(unfold ci; rewrite cmul_ok by nia; rewrite cmul_ok by nia; reflexivity))).
    rewrite E1, E2. erewrite bind_ret; [reflexivity|].
    apply (memcpy_ok e s q N d q' N' f 0 0 (R * C * ch)); auto; try lia; nia.
  Qed.

  (** From the bytes written after the copy to the picture. *)
  Lemma drawn_bytes q N d q' N' f (P : Z -> Z -> Prop) (col : Z -> Z) g :
    sm_data md = Some q -> isb s q N d -> R * C * ch <= N ->
    sm_data ms = Some q' -> isb s q' N' f -> R * C * ch <= N' -> q <> q' ->
    (forall i j k, in_image md i j k ->
       (P i j -> g ((i * C + j) * ch + k) mod 256 = col k)
       /\ (~ P i j -> g ((i * C + j) * ch + k) = f ((i * C + j) * ch + k))) ->
    (forall x, ~ 0 <= x < R * C * ch -> g x = d x) ->
    drawn s ms md P col (putd s q g).
  Proof.
    intros E1 H1 L1 E2 H2 L2 Hne Hin Hout. split.
    - intros i j k Hk. destruct (Hin i j k Hk) as [A B]. destruct Hk as (Hi & Hj & Hk).
      assert (Ht : 0 <= (i * C + j) * ch + k < R * C * ch).
      { pose proof (cell_range R C i j Hi Hj). pose proof (cell_range (R * C) ch (i * C + j) k ltac:(lia) Hk). lia. }
      unfold pix, pixel_byte. rewrite E1, E2, Ec, Eh. rewrite !Z.mul_1_r, !Z.add_0_r.
      rewrite (byte_at_isb _ q N g) by (try lia; eapply isb_putd_eq; eauto).
      rewrite (byte_at_isb _ q' N' f) by (auto; lia). split; intros HP.
      + now rewrite A.
      + now rewrite B.
    - rewrite E1. eapply only_bytes_putd; eauto.
  Qed.

  (** ** The dots *)
  Variables (color : rgb) (size : Z).
  Hypotheses (Hr : 0 <= c_r color < 256) (Hg : 0 <= c_g color < 256) (Hb : 0 <= c_b color < 256).
  Notation h := (Z.quot size 2).

  Definition dot_bytes (x y i j : Z) (t : Z) : Prop :=
    (0 <= x + i < C /\ 0 <= y + j < R) /\ exists k, 0 <= k < ch /\ t = ((y + j) * C + (x + i)) * ch + k.

  Lemma dot_wr s0 q n d x y i j : ch = 1 \/ ch = 3 -> isb s0 q n d -> R * C * ch <= n -> R * C * ch <= 2147483647 ->
    -2147483648 <= x + i <= 2147483647 -> -2147483648 <= y + j <= 2147483647 ->
    wr e s0 q (draw_dot R C ch (Some q) color x y i j) (dot_bytes x y i j)
       (fun t => bgr ch (c_r color) (c_g color) (c_b color) (t mod ch)).
  Proof.
    intros Hch Hq Hn Hz Hx Hy. unfold draw_dot.
    eapply wr_bind; [apply rdv_ev; unfold ci; apply cadd_ok; lia|].
    destruct ((x + i >=? 0) && (x + i <? C)) eqn:Ex.
    2:{ eapply wr_iff; [apply wr_ret|]. unfold dot_bytes. intros t. split; [tauto|]. lia. }
    eapply wr_bind; [apply rdv_ev; unfold ci; apply cadd_ok; lia|].
    destruct ((y + j >=? 0) && (y + j <? R)) eqn:Ey.
    2:{ eapply wr_iff; [apply wr_ret|]. unfold dot_bytes. intros t. split; [tauto|]. lia. }
    set (X := x + i) in *. set (Y := y + j) in *. assert (HX : 0 <= X < C) by lia. assert (HY : 0 <= Y < R) by lia.
    pose proof (cell_range R C Y X HY HX) as Hc.
    destruct Hch as [Hch|Hch]; rewrite Hch in *; cbn [Z.eqb Pos.eqb].
    - eapply wr_bind; [apply rdv_ev; unfold ci; rewrite cmul_ok, cadd_ok by nia; reflexivity|].
      eapply wr_iff; [eapply wr_store8; [exact Hq|lia|]|].
      + unfold bgr. cbn [Z.eqb Pos.eqb]. apply Z.mod_small. lia.
      + intros t. unfold dot_bytes. rewrite Hch. fold X Y. split.
        * intros ->. split; [lia|]. exists 0. lia.
        * intros (_ & k & Hk & ->). lia.
    - assert (HB : (Y * C + X) * 3 + 2 < R * C * 3) by lia.
      eapply wr_bind; [apply rdv_ev; unfold ci; rewrite (cmul_ok Y C) by nia; rewrite (cmul_ok (Y * C) 3) by nia;
        rewrite (cmul_ok X 3) by nia; apply cadd_ok; nia|].
      eapply wr_iff.
      + apply wr_seq; [eapply wr_store8; [exact Hq|lia|]|].
        { unfold bgr. change (3 =? 3) with true. cbv iota. replace ((Y * C * 3 + X * 3) mod 3) with 0 by (symmetry; apply mod3). cbn [Z.eqb Pos.eqb]. apply Z.mod_small. lia. }
        eapply wr_bind; [apply rdv_ev; unfold ci; rewrite (cmul_ok Y C) by nia; rewrite (cmul_ok (Y * C) 3) by nia;
          rewrite (cmul_ok X 3) by nia; rewrite (cadd_ok (Y * C * 3)) by nia; apply cadd_ok; nia|].
        apply wr_seq; [eapply wr_store8; [exact Hq|lia|]|].
        { unfold bgr. change (3 =? 3) with true. cbv iota. replace ((Y * C * 3 + X * 3 + 1) mod 3) with 1 by (symmetry; apply mod3). cbn [Z.eqb Pos.eqb]. apply Z.mod_small. lia. }
        eapply wr_bind; [apply rdv_ev; unfold ci; rewrite (cmul_ok Y C) by nia; rewrite (cmul_ok (Y * C) 3) by nia;
          rewrite (cmul_ok X 3) by nia; rewrite (cadd_ok (Y * C * 3)) by nia; apply cadd_ok; nia|].
        eapply wr_store8; [exact Hq|lia|].
        unfold bgr. change (3 =? 3) with true. cbv iota. replace ((Y * C * 3 + X * 3 + 2) mod 3) with 2 by (symmetry; apply mod3). cbn [Z.eqb Pos.eqb]. apply Z.mod_small. lia.
      + intros t. unfold dot_bytes. rewrite Hch. fold X Y. split.
        * intros [->|[->| ->]]; (split; [lia|]); [exists 0|exists 1|exists 2]; lia.
        * intros (_ & k & Hk & ->). lia.
  Qed.

  Lemma dot_other s0 x y i j : ch <> 1 -> ch <> 3 -> 
    -2147483648 <= x + i <= 2147483647 -> -2147483648 <= y + j <= 2147483647 ->
    draw_dot R C ch (sm_data md) color x y i j e s0 = Ret tt s0.
  Proof.
    intros H1 H3 Hx Hy. unfold draw_dot.
    rewrite (bind_ret _ _ _ _ _ _ (ev_ok _ (x + i) e s0 (cadd_ok x i Hx))).
    destruct ((x + i >=? 0) && (x + i <? C)); [|reflexivity].
    rewrite (bind_ret _ _ _ _ _ _ (ev_ok _ (y + j) e s0 (cadd_ok y j Hy))).
    destruct ((y + j >=? 0) && (y + j <? R)); [|reflexivity].
    replace (ch =? 3) with false by lia. now replace (ch =? 1) with false by lia.
  Qed.

  Variables (v : ptr) (pts : list (Z * Z)).
  Hypotheses (Hv : points_at s v pts) (Vd : v <> sm_data md) (Sz : -2147483648 < size <= 2147483647).
  Hypothesis (Hfit : forall x y, In (x, y) pts -> int_range (x - Z.abs h) /\ int_range (x + Z.abs h)
                                 /\ int_range (y - Z.abs h) /\ int_range (y + Z.abs h)).

  (** The coordinates of point k, whatever is in the destination. *)
  Lemma point_read q k : sm_data md = Some q -> 0 <= k < Z.of_nat (List.length pts) ->
    exists x y, In (x, y) pts /\ nth_error pts (Z.to_nat k) = Some (x, y)
      /\ rdv e s q (loadle v (8 * k) 4) (x mod 4294967296) /\ rdv e s q (loadle v (8 * k + 4) 4) (y mod 4294967296)
      /\ sgn 32 (x mod 4294967296) = x /\ sgn 32 (y mod 4294967296) = y.
  Proof.
    intros Eq Hk. destruct (nth_error pts (Z.to_nat k)) as [[x y]|] eqn:En.
    2:{ apply nth_error_None in En. lia. }
    exists x, y. split; [eapply nth_error_In; eauto|]. split; auto.
    destruct (Hv _ _ _ En) as (Rx & Ry & Wx & Wy). rewrite Z2Nat.id in * by lia.
    destruct (word_isb _ _ _ _ _ Wx) as (qv & N & d & Ev & I & O1 & O2).
    destruct (word_isb _ _ _ _ _ Wy) as (qv' & N' & d' & Ev' & I' & O3 & O4).
    assert (qv' = qv) by congruence. subst qv'. unfold isb in I, I'. rewrite I in I'. injection I' as <- <-.
    fold (isb s qv N d) in I.
    rewrite Ev in *. rewrite (word_at_isb s qv N d) in Wx, Wy by auto. apply Some_inj in Wx, Wy.
    rewrite <- Wx, <- Wy. split; [apply rdv_loadle with (n := N); auto; congruence|].
    split; [apply rdv_loadle with (n := N); auto; congruence|]. rewrite Wx, Wy.
    split; apply sgn_id; auto.
  Qed.

  Lemma rdv_putd {A} s0 q g (m : M A) a : rdv e s0 q m a -> rdv e (putd s0 q g) q m a.
  Proof. intros H f. rewrite putd_putd. apply H. Qed.

  Lemma points_run : ch = 1 \/ ch = 3 ->
    exists s', draw_POINT p dst v (Z.of_nat (List.length pts)) color size e s = Ret tt s'
      /\ drawn s ms md (near_points pts h) (bgr ch (c_r color) (c_g color) (c_b color)) s'.
  Proof.
    intros Hch. destruct draw_open_run as (q & N & d & q' & N' & f & E1 & H1 & L1 & E2 & H2 & L2 & Hne & Ho).
    set (d1 := fun x => if (0 <=? x) && (x <? R * C * ch) then f (x - 0 + 0) else d x) in *.
    unfold draw_POINT. rewrite (bind_ret _ _ _ _ _ _ Ho). cbv iota beta. rewrite Er, Ec, Eh, E1.
    pose proof (isb_putd_eq _ _ _ _ d1 H1) as H1'.
    pose proof (im_size _ _ _ _ Id) as Hz. rewrite Z.mul_1_r in Hz.
    pose proof (im_rows _ _ _ _ Id) as HR. pose proof (im_cols _ _ _ _ Id) as HC. pose proof (im_chan _ _ _ _ Id) as HH.
    match goal with |- exists s', ?m e _ = _ /\ _ => destruct (wr_run e (putd s q d1) q N d1 m
      (fun t => exists k, 0 <= k < Z.of_nat (List.length pts) /\ exists i, - h <= i < h + 1 /\ exists j, - h <= j < h + 1
              /\ exists x y, nth_error pts (Z.to_nat k) = Some (x, y) /\ dot_bytes x y i j t)
      (fun t => bgr ch (c_r color) (c_g color) (c_b color) (t mod ch)) H1') as (g & Eg & A & B) end.
    { apply wr_for. intros k Hk.
      destruct (point_read q k E1 Hk) as (x & y & Hin & En & Rx & Ry & Sx & Sy).
      destruct (Hfit x y Hin) as (F1 & F2 & F3 & F4). unfold int_range in *.
      eapply wr_bind; [apply rdv_putd; exact Rx|]. eapply wr_bind; [apply rdv_putd; exact Ry|].
      eapply wr_bind; [apply half_lo; auto|]. eapply wr_bind; [apply half_hi; auto|]. rewrite Sx, Sy.
      apply wr_for. intros i Hi. apply wr_for. intros j Hj.
      eapply wr_iff; [eapply dot_wr; eauto; lia|].
      intros t. split; [intros; exists x, y; auto|]. intros (x' & y' & En' & Hd). rewrite En in En'. injection En' as <- <-. auto. }
    rewrite putd_putd in Eg. exists (putd s q g). split; [exact Eg|].
    eapply drawn_bytes; eauto.
    - intros i j k (Hi & Hj & Hk).
      assert (Ht : 0 <= (i * C + j) * ch + k < R * C * ch).
      { pose proof (cell_range R C i j Hi Hj). pose proof (cell_range (R * C) ch (i * C + j) k ltac:(lia) Hk). lia. }
      split.
      + intros (x & y & Hin & Hx & Hy). rewrite A.
        * now rewrite cell_mod by lia.
        * apply In_nth_error in Hin as [n En]. exists (Z.of_nat n).
          assert (n < List.length pts)%nat by (apply nth_error_Some; congruence). split; [lia|].
          exists (j - x). split; [lia|]. exists (i - y). split; [lia|]. exists x, y. rewrite Nat2Z.id. split; auto.
          unfold dot_bytes. replace (x + (j - x)) with j by lia. replace (y + (i - y)) with i by lia. split; [lia|eauto].
      + intros Hn. rewrite B.
        * unfold d1. replace ((0 <=? (i * C + j) * ch + k) && ((i * C + j) * ch + k <? R * C * ch)) with true by lia. f_equal. lia.
        * intros (n & Hn' & a & Ha & b & Hb' & x & y & En & (Hx & Hy) & k' & Hk' & Et). apply Hn.
          assert (i * C + j = (y + b) * C + (x + a) /\ k = k') as [Et' <-].
          { split.
            - rewrite <- (cell_div ch (i * C + j) k) by lia. rewrite Et. apply cell_div. lia.
            - rewrite <- (cell_mod ch (i * C + j) k) by lia. rewrite Et. apply cell_mod. lia. }
          assert (i = y + b).
          { rewrite <- (cell_div C i j) by lia. rewrite Et'. apply cell_div. lia. }
          assert (j = x + a).
          { rewrite <- (cell_mod C i j) by lia. rewrite Et'. apply cell_mod. lia. }
          exists x, y. split; [eapply nth_error_In; eauto|]. lia.
    - intros x Hx. rewrite B.
      + unfold d1. now replace ((0 <=? x) && (x <? R * C * ch)) with false by lia.
      + intros (n & Hn' & a & Ha & b & Hb' & x0 & y & En & (Hx0 & Hy) & k' & Hk' & Et). apply Hx. subst x.
        pose proof (cell_range R C (y + b) (x0 + a) Hy Hx0).
        pose proof (cell_range (R * C) ch ((y + b) * C + (x0 + a)) k' ltac:(lia) Hk'). lia.
  Qed.

  Lemma points_copy : ch <> 1 -> ch <> 3 ->
    exists s', draw_POINT p dst v (Z.of_nat (List.length pts)) color size e s = Ret tt s'
      /\ drawn s ms md (fun _ _ => False) (fun _ => 0) s'.
  Proof.
    clear Hr Hg Hb. intros Hc1 Hc3. destruct draw_open_run as (q & N & d & q' & N' & f & E1 & H1 & L1 & E2 & H2 & L2 & Hne & Ho).
    set (d1 := fun x => if (0 <=? x) && (x <? R * C * ch) then f (x - 0 + 0) else d x) in *.
    unfold draw_POINT. rewrite (bind_ret _ _ _ _ _ _ Ho). cbv iota beta. rewrite Er, Ec, Eh.
    exists (putd s q d1). split.
    - match goal with |- for_ 0 _ ?b e _ = _ => 
        destruct (for_inv e 0 (Z.of_nat (List.length pts)) b (fun _ s1 => s1 = putd s q d1) (putd s q d1)) as (s' & Es & Hs') end;
        [lia|reflexivity| |rewrite Es; now subst s'].
      intros k s1 Hk ->. exists (putd s q d1). split; auto.
      destruct (point_read q k E1 Hk) as (x & y & Hin & En & Rx & Ry & Sx & Sy).
      destruct (Hfit x y Hin) as (F1 & F2 & F3 & F4). unfold int_range in *.
      rewrite (bind_ret _ _ _ _ _ _ (Rx d1)), (bind_ret _ _ _ _ _ _ (Ry d1)).
      rewrite (bind_ret _ _ _ _ _ _ (half_lo e size s q Sz d1)), (bind_ret _ _ _ _ _ _ (half_hi e size s q Sz d1)). rewrite Sx, Sy.
      destruct (Z_lt_ge_dec h (- h)) as [|Hhh]; [apply for_empty; lia|].
      match goal with |- for_ _ _ ?b e _ = _ => 
        destruct (for_inv e (- h) (h + 1) b (fun _ s1 => s1 = putd s q d1) (putd s q d1)) as (s' & Es & Hs') end;
        [lia|reflexivity| |rewrite Es; now subst s'].
      intros i s1 Hi ->. exists (putd s q d1). split; auto.
      match goal with |- for_ _ _ ?b e _ = _ => 
        destruct (for_inv e (- h) (h + 1) b (fun _ s1 => s1 = putd s q d1) (putd s q d1)) as (s' & Es & Hs') end;
        [lia|reflexivity| |rewrite Es; now subst s'].
      intros j s1 Hj ->. exists (putd s q d1). split; auto. apply dot_other; auto; lia.
    - eapply drawn_bytes; eauto.
      + intros i j k (Hi & Hj & Hk).
        assert (Ht : 0 <= (i * C + j) * ch + k < R * C * ch).
        { pose proof (cell_range R C i j Hi Hj). pose proof (cell_range (R * C) ch (i * C + j) k ltac:(lia) Hk). lia. }
        split; [tauto|]. intros _. unfold d1.
        replace ((0 <=? (i * C + j) * ch + k) && ((i * C + j) * ch + k <? R * C * ch)) with true by lia. f_equal. lia.
      + intros x Hx. unfold d1. now replace ((0 <=? x) && (x <? R * C * ch)) with false by lia.
  Qed.
End Draw.

Section Line.
  Variables (e : env) (s : st) (p dst : ptr) (ms md : smat).
  Hypotheses (Is : image s p ms 1) (Id : image s dst md 1) (Ty : sm_type ms = 1).
  Hypotheses (Er : sm_rows ms = sm_rows md) (Ec : sm_cols ms = sm_cols md) (Eh : sm_chan ms = sm_chan md).
  Hypothesis (Ne : sm_data ms <> sm_data md).
  Variables (x1 y1 x2 y2 thickness : Z) (color : rgb).
  Hypotheses (Dx : int_range (x2 - x1)) (Dy : int_range (y2 - y1)).
  Notation R := (sm_rows md). Notation C := (sm_cols md). Notation ch := (sm_chan md).
  Notation h := (Z.quot thickness 2).
  Notation kk := (fl_div (fl_of_Z (x2 - x1)) (fl_of_Z (y2 - y1))).

  Lemma line_k_ok s0 q : rdv e s0 q (line_k x1 y1 x2 y2) kk.
  Proof.
    unfold int_range in *. unfold line_k. eapply rdv_bind; [apply rdv_ev; unfold ci; apply csub_ok; lia|].
    eapply rdv_bind; [apply rdv_ev; unfold ci; apply csub_ok; lia|]. apply rdv_ret.
  Qed.

  Lemma line_row_spec j z : library_row x1 y1 x2 y2 j = Some z -> int_range z ->
    line_row kk (line_b x1 y1 kk) j = Some z.
  Proof.
    unfold library_row, line_row, line_b, int_of_sf, int_range. cbv zeta. intros -> H. now apply chk_ok.
  Qed.

  Hypotheses (Sz : -2147483648 < thickness <= 2147483647) (Ft : C + Z.abs h <= 2147483647).
  Hypothesis (Hrows : forall j, 0 <= j < C -> exists z, library_row x1 y1 x2 y2 j = Some z /\ int_range z).

  Definition line_bytes (i j t : Z) : Prop :=
    library_row x1 y1 x2 y2 j = Some i /\ exists u k, - h <= u < h + 1 /\ 0 <= j + u < C /\ 0 <= k < ch
      /\ t = (i * C + (j + u)) * ch + k.

  Lemma span_wr s0 q n d i j : ch = 3 -> isb s0 q n d -> R * C * ch <= n -> R * C * ch <= 2147483647 ->
    0 <= i < R -> 0 <= j < C ->
    0 <= c_r color < 256 -> 0 <= c_g color < 256 -> 0 <= c_b color < 256 ->
    wr e s0 q (r <- ev (line_row kk (line_b x1 y1 kk) j) ;;
               if i =? r then line_span C ch (Some q) color thickness i j else ret tt)
       (line_bytes i j) (fun t => rgb_order (c_r color) (c_g color) (c_b color) (t mod ch)).
  Proof.
    intros Hch Hq Hn Hz Hi Hj Hr Hg Hb. destruct (Hrows j Hj) as (z & Ez & Rz).
    eapply wr_bind; [apply rdv_ev, line_row_spec; eauto|].
    destruct (Z.eqb_spec i z) as [<-|Hne].
    2:{ eapply wr_iff; [apply wr_ret|]. unfold line_bytes. intros t. split; [tauto|]. intros (E & _). congruence. }
    unfold line_span. rewrite Hch in *.
    eapply wr_bind; [apply half_lo; auto|]. eapply wr_bind; [apply half_hi; auto|].
    eapply wr_iff with (P := fun t => exists u, - h <= u < h + 1 /\ (0 <= j + u < C) /\ exists k, 0 <= k < 3
      /\ t = (i * C + (j + u)) * 3 + k).
    2:{ intros t. unfold line_bytes. rewrite Hch. split.
        - intros (u & Hu & Hju & k & Hk & ->). split; auto. exists u, k. auto.
        - intros (_ & u & k & Hu & Hju & Hk & ->). exists u. split; auto. split; auto. exists k. auto. }
    apply wr_for. intros u Hu.
    eapply wr_bind; [apply rdv_ev; unfold ci; apply cadd_ok; lia|].
    destruct ((j + u >=? 0) && (j + u <? C)) eqn:Ex.
    2:{ eapply wr_iff; [apply wr_ret|]. intros t. split; [tauto|]. lia. }
    set (X := j + u) in *. assert (HX : 0 <= X < C) by lia. change (3 =? 3) with true. cbv iota.
    pose proof (cell_range R C i X Hi HX) as Hc.
    assert (HB : (i * C + X) * 3 + 2 < R * C * 3) by lia.
    eapply wr_bind; [apply rdv_ev; unfold ci; rewrite (cmul_ok i C) by nia; rewrite (cmul_ok (i * C) 3) by nia;
      rewrite (cmul_ok X 3) by nia; apply cadd_ok; nia|].
    eapply wr_iff.
    - apply wr_seq; [eapply wr_store8; [exact Hq|lia|]|].
      { unfold rgb_order. replace ((i * C * 3 + X * 3) mod 3) with 0 by (symmetry; apply mod3). cbn [Z.eqb Pos.eqb]. apply Z.mod_small. lia. }
      eapply wr_bind; [apply rdv_ev; unfold ci; rewrite (cmul_ok i C) by nia; rewrite (cmul_ok (i * C) 3) by nia;
        rewrite (cmul_ok X 3) by nia; rewrite (cadd_ok (i * C * 3)) by nia; apply cadd_ok; nia|].
      apply wr_seq; [eapply wr_store8; [exact Hq|lia|]|].
      { unfold rgb_order. replace ((i * C * 3 + X * 3 + 1) mod 3) with 1 by (symmetry; apply mod3). cbn [Z.eqb Pos.eqb]. apply Z.mod_small. lia. }
      eapply wr_bind; [apply rdv_ev; unfold ci; rewrite (cmul_ok i C) by nia; rewrite (cmul_ok (i * C) 3) by nia;
        rewrite (cmul_ok X 3) by nia; rewrite (cadd_ok (i * C * 3)) by nia; apply cadd_ok; nia|].
      eapply wr_store8; [exact Hq|lia|].
      unfold rgb_order. replace ((i * C * 3 + X * 3 + 2) mod 3) with 2 by (symmetry; apply mod3). cbn [Z.eqb Pos.eqb]. apply Z.mod_small. lia.
    - intros t. split.
      + intros [->|[->| ->]]; (split; [lia|]); [exists 0|exists 1|exists 2]; lia.
      + intros (_ & k & Hk & ->). lia.
  Qed.

  Lemma line_run : ch = 3 -> 0 <= c_r color < 256 -> 0 <= c_g color < 256 -> 0 <= c_b color < 256 ->
    exists s', draw_line p dst x1 y1 x2 y2 color thickness e s = Ret tt s'
      /\ drawn s ms md (library_line x1 y1 x2 y2 C h) (rgb_order (c_r color) (c_g color) (c_b color)) s'.
  Proof.
    intros Hch Hr Hg Hb.
    destruct (draw_open_run e s p dst ms md) as (q & N & d & q' & N' & f & E1 & H1 & L1 & E2 & H2 & L2 & Hne & Ho); auto.
    set (d1 := fun x => if (0 <=? x) && (x <? R * C * ch) then f (x - 0 + 0) else d x) in *.
    unfold draw_line. rewrite (bind_ret _ _ _ _ _ _ Ho). cbv iota beta.
    rewrite (bind_ret _ _ _ _ _ _ (line_k_ok s q d1)). cbv zeta. rewrite Er, Ec, Eh, E1.
    pose proof (isb_putd_eq _ _ _ _ d1 H1) as H1'.
    pose proof (im_size _ _ _ _ Id) as Hz. rewrite Z.mul_1_r in Hz.
    pose proof (im_rows _ _ _ _ Id) as HR. pose proof (im_cols _ _ _ _ Id) as HC. pose proof (im_chan _ _ _ _ Id) as HH.
    match goal with |- exists s', ?m e _ = _ /\ _ => destruct (wr_run e (putd s q d1) q N d1 m
      (fun t => exists i, 0 <= i < R /\ exists j, 0 <= j < C /\ line_bytes i j t)
      (fun t => rgb_order (c_r color) (c_g color) (c_b color) (t mod ch)) H1') as (g & Eg & A & B) end.
    { apply wr_for. intros i Hi. apply wr_for. intros j Hj. eapply span_wr; eauto. lia. }
    rewrite putd_putd in Eg. exists (putd s q g). split; [exact Eg|].
    eapply drawn_bytes; eauto.
    - intros i j k (Hi & Hj & Hk).
      assert (Ht : 0 <= (i * C + j) * ch + k < R * C * ch).
      { pose proof (cell_range R C i j Hi Hj). pose proof (cell_range (R * C) ch (i * C + j) k ltac:(lia) Hk). lia. }
      split.
      + intros (j' & Hj' & Hd & Hrow). rewrite A.
        * now rewrite cell_mod by lia.
        * exists i. split; auto. exists j'. split; auto. split; auto. exists (j - j'), k.
          replace (j' + (j - j')) with j by lia. repeat split; auto; lia.
      + intros Hn. rewrite B.
        * unfold d1. replace ((0 <=? (i * C + j) * ch + k) && ((i * C + j) * ch + k <? R * C * ch)) with true by lia. f_equal. lia.
        * intros (i' & Hi' & j' & Hj' & Hrow & u & k' & Hu & Hju & Hk' & Et). apply Hn.
          assert (i * C + j = i' * C + (j' + u) /\ k = k') as [Et' <-].
          { split.
            - rewrite <- (cell_div ch (i * C + j) k) by lia. rewrite Et. apply cell_div. lia.
            - rewrite <- (cell_mod ch (i * C + j) k) by lia. rewrite Et. apply cell_mod. lia. }
          assert (i = i').
          { rewrite <- (cell_div C i j) by lia. rewrite Et'. apply cell_div. lia. }
          assert (j = j' + u).
          { rewrite <- (cell_mod C i j) by lia. rewrite Et'. apply cell_mod. lia. }
          exists j'. subst i'. split; auto. split; [lia|auto].
    - intros x Hx. rewrite B.
      + unfold d1. now replace ((0 <=? x) && (x <? R * C * ch)) with false by lia.
      + intros (i' & Hi' & j' & Hj' & Hrow & u & k' & Hu & Hju & Hk' & Et). apply Hx. subst x.
        pose proof (cell_range R C i' (j' + u) Hi' Hju).
        pose proof (cell_range (R * C) ch (i' * C + (j' + u)) k' ltac:(lia) Hk'). lia.
  Qed.

  (** One channel: nothing is drawn. *)
  Lemma line_grey : ch = 1 ->
    exists s', draw_line p dst x1 y1 x2 y2 color thickness e s = Ret tt s'
      /\ drawn s ms md (fun _ _ => False) (fun _ => 0) s'.
  Proof.
    intros Hch.
    destruct (draw_open_run e s p dst ms md) as (q & N & d & q' & N' & f & E1 & H1 & L1 & E2 & H2 & L2 & Hne & Ho); auto.
    set (d1 := fun x => if (0 <=? x) && (x <? R * C * ch) then f (x - 0 + 0) else d x) in *.
    unfold draw_line. rewrite (bind_ret _ _ _ _ _ _ Ho). cbv iota beta.
    rewrite (bind_ret _ _ _ _ _ _ (line_k_ok s q d1)). cbv zeta. rewrite Er, Ec, Eh.
    pose proof (isb_putd_eq _ _ _ _ d1 H1) as H1'.
    pose proof (im_size _ _ _ _ Id) as Hz. rewrite Z.mul_1_r in Hz.
    pose proof (im_rows _ _ _ _ Id) as HR. pose proof (im_cols _ _ _ _ Id) as HC.
    exists (putd s q d1). split.
    - match goal with |- for_ 0 _ ?b e _ = _ => 
        destruct (for_inv e 0 R b (fun _ s1 => s1 = putd s q d1) (putd s q d1)) as (s' & Es & Hs') end;
        [lia|reflexivity| |rewrite Es; now subst s'].
      intros i s1 Hi ->. exists (putd s q d1). split; auto.
      match goal with |- for_ _ _ ?b e _ = _ => 
        destruct (for_inv e 0 C b (fun _ s1 => s1 = putd s q d1) (putd s q d1)) as (s' & Es & Hs') end;
        [lia|reflexivity| |rewrite Es; now subst s'].
      intros j s1 Hj ->. exists (putd s q d1). split; auto.
      destruct (Hrows j Hj) as (z & Ez & Rz).
      rewrite (bind_ret _ _ _ _ _ _ (ev_ok _ _ _ _ (line_row_spec j z Ez Rz))).
      destruct (Z.eqb_spec i z) as [<-|]; [|reflexivity].
      unfold line_span.
      rewrite (bind_ret _ _ _ _ _ _ (half_lo e thickness s q Sz d1)), (bind_ret _ _ _ _ _ _ (half_hi e thickness s q Sz d1)).
      destruct (Z_lt_ge_dec h (- h)) as [|Hhh]; [apply for_empty; lia|].
      match goal with |- for_ _ _ ?b e _ = _ => 
        destruct (for_inv e (- h) (h + 1) b (fun _ s1 => s1 = putd s q d1) (putd s q d1)) as (s' & Es & Hs') end;
        [lia|reflexivity| |rewrite Es; now subst s'].
      intros u s1 Hu ->. exists (putd s q d1). split; auto.
      rewrite (bind_ret _ _ _ _ _ _ (ev_ok (j + u)%C (j + u) e _ (cadd_ok j u ltac:(lia)))).
      destruct ((j + u >=? 0) && (j + u <? C)) eqn:Ex; [|reflexivity].
      rewrite Hch. cbn [Z.eqb Pos.eqb].
      assert (Hx : 0 <= j + u < C) by lia. pose proof (cell_range R C i (j + u) Hi Hx) as Hc.
      rewrite (bind_ret _ _ _ _ _ _ (ev_cell e _ R C i (j + u) Hi Hx ltac:(nia))).
      rewrite E1. erewrite bind_ret; [reflexivity|]. eapply load8_ok; eauto. nia.
    - eapply drawn_bytes; eauto.
      + intros i j k (Hi & Hj & Hk).
        assert (Ht : 0 <= (i * C + j) * ch + k < R * C * ch).
        { pose proof (cell_range R C i j Hi Hj). pose proof (cell_range (R * C) ch (i * C + j) k ltac:(lia) Hk). lia. }
        split; [tauto|]. intros _. unfold d1.
        replace ((0 <=? (i * C + j) * ch + k) && ((i * C + j) * ch + k <? R * C * ch)) with true by lia. f_equal. lia.
      + intros x Hx. unfold d1. now replace ((0 <=? x) && (x <? R * C * ch)) with false by lia.
  Qed.
End Line.

(** ** Horizontal lines *)
Lemma fl_of_Z_cases z : (exists sg, fl_of_Z z = S754_zero sg) \/ (exists sg m ex, fl_of_Z z = S754_finite sg m ex)
  \/ exists sg, fl_of_Z z = S754_infinity sg.
Proof.
  pose proof (normalize_rounded 24 128 ltac:(lia) ltac:(lia) ltac:(lia) z 0 false 1074 ltac:(unfold emin; lia) ltac:(lia)) as H.
  fold (fl_of_Z z) in H. unfold rounded in H. destruct (_ <? _).
  - destruct H as [_ H]. destruct (fl_of_Z z); try discriminate; eauto 6.
  - rewrite H. eauto.
Qed.

Lemma horizontal_row x1 y1 x2 : line_row (fl_div (fl_of_Z (x2 - x1)) (fl_of_Z (y1 - y1)))
    (line_b x1 y1 (fl_div (fl_of_Z (x2 - x1)) (fl_of_Z (y1 - y1)))) 0 = None.
Proof.
  replace (y1 - y1) with 0 by lia. change (fl_of_Z 0) with (S754_zero false).
  unfold line_row, line_b. change (fl_of_Z 0) with (S754_zero false).
  assert (H : forall k b, fl_mul (S754_zero false) k = S754_nan ->
    int_of_sf (db_add (db_of_fl (fl_add (fl_mul (S754_zero false) k) b)) (dlit 1 2)) = None).
  { intros k b ->. reflexivity. }
  apply H. destruct (fl_of_Z_cases (x2 - x1)) as [(sg & ->)|[(sg & m & ex & ->)|(sg & ->)]]; reflexivity.
Qed.

Lemma horizontal_ub e s p dst ms md x1 y1 x2 color thickness : image s p ms 1 -> image s dst md 1 -> sm_type ms = 1 ->
  sm_rows ms = sm_rows md -> sm_cols ms = sm_cols md -> sm_chan ms = sm_chan md -> sm_data ms <> sm_data md ->
  int_range (x2 - x1) -> draw_line p dst x1 y1 x2 y1 color thickness e s = UB.
Proof.
  intros Is Id Ty Er Ec Eh Ne Dx.
  destruct (draw_open_run e s p dst ms md) as (q & N & d & q' & N' & f & E1 & H1 & L1 & E2 & H2 & L2 & Hne & Ho); auto.
  unfold draw_line. rewrite (bind_ret _ _ _ _ _ _ Ho). cbv iota beta.
  assert (Dy : int_range (y1 - y1)) by (unfold int_range; lia).
  rewrite (bind_ret _ _ _ _ _ _ (line_k_ok e x1 y1 x2 y1 Dx Dy s q _)). cbv zeta.
  pose proof (im_rows _ _ _ _ Is). pose proof (im_cols _ _ _ _ Is).
  apply for_ub_first; [lia|]. apply for_ub_first; [lia|]. apply bind_ub. rewrite horizontal_row. reflexivity.
Qed.

(** ** Lines whose inverse slope is a small integer *)
Lemma half_ok : db_ok (dlit 1 2) /\ sf_num (dlit 1 2) = Some (2 ^ 1073).
Proof. split; vm_compute; reflexivity. Qed.

Lemma integer_rows x1 y1 x2 y2 k j : x2 - x1 = k * (y2 - y1) -> y1 <> y2 -> -1 <= k <= 1 ->
  Z.abs x1 <= 2 ^ 21 -> Z.abs x2 <= 2 ^ 21 -> Z.abs y1 <= 2 ^ 21 -> Z.abs y2 <= 2 ^ 21 -> 0 <= j <= 2 ^ 21 ->
  library_row x1 y1 x2 y2 j = Some (Z.quot (2 * (y1 + k * (j - x1)) + 1) 2).
Proof.
  intros Ek Hy Hk. change (2 ^ 21) with 2097152. intros B1 B2 B3 B4 Hj. unfold library_row. cbv zeta.
  assert (P24 : 2 ^ 24 = 16777216) by reflexivity.
  assert (I : forall z, Z.abs z <= 16777216 -> isint 24 128 (fl_of_Z z) z) by (intros z Hz; apply fl_of_Z_ok; auto).
  assert (Ik : isint 24 128 (fl_div (fl_of_Z (x2 - x1)) (fl_of_Z (y2 - y1))) k).
  { apply (div_int 24 128 ltac:(lia) ltac:(lia) ltac:(lia) ltac:(lia) _ _ (x2 - x1) (y2 - y1)); try apply I; try lia. }
  set (kf := fl_div _ _) in *. clearbody kf.
  assert (K1 : Z.abs (k * x1) <= 2097152) by (assert (k = -1 \/ k = 0 \/ k = 1) as [->|[->| ->]] by lia; lia).
  assert (K2 : Z.abs (j * k) <= 2097152) by (assert (k = -1 \/ k = 0 \/ k = 1) as [->|[->| ->]] by lia; lia).
  assert (Ib : isint 24 128 (fl_sub (fl_of_Z y1) (fl_mul kf (fl_of_Z x1))) (y1 - k * x1)).
  { apply (sub_int 24 128); try lia; [apply I; lia|]. apply (mul_int 24 128); try lia; auto. apply I; lia. }
  set (b := fl_sub _ _) in *. clearbody b.
  assert (Ij : isint 24 128 (fl_add (fl_mul (fl_of_Z j) kf) b) (j * k + (y1 - k * x1))).
  { apply (add_int 24 128); try lia; auto. apply (mul_int 24 128); try lia; auto. apply I; lia. }
  set (t := fl_add _ _) in *. clearbody t. set (v := j * k + (y1 - k * x1)) in *.
  replace (y1 + k * (j - x1)) with v by (unfold v; ring).
  destruct Ij as [Vt Nt]. destruct (db_of_fl_ok t Vt) as [Vd Nd]. rewrite Nt in Nd.
  destruct half_ok as [Vh Nh].
  pose proof (SFadd_num 53 1024 ltac:(lia) ltac:(lia) ltac:(lia) _ _ _ _ Vd Vh Nd Nh) as R.
  assert (Hv : Z.abs (2 * v + 1) <= 16777216) by (unfold v; lia).
  destruct (rounded_exact 53 1024 1074 (v * sf_one + 2 ^ 1073) (2 * v + 1) (-1) (db_add (db_of_fl t) (dlit 1 2)) ltac:(lia) ltac:(lia) ltac:(lia)
     ltac:(unfold emin; lia) ltac:(unfold emin; lia)) as [Vs Ns]; auto.
  - rewrite sf_one_eq. change (-1 + 1074) with 1073. change 1074 with (1 + 1073). rewrite pow_split by lia. change (2 ^ 1) with 2. ring.
  - apply Z.le_trans with 16777216; auto. change 16777216 with (2 ^ 24). apply pow_le. lia.
  - change (-1 + 1074) with 1073. apply Z.le_lt_trans with (2 ^ 24 * 2 ^ 1073).
    + apply Z.mul_le_mono_nonneg_r; [apply Z.lt_le_incl, pow_pos; lia|]. rewrite P24. auto.
    + rewrite <- pow_split by lia. apply pow_lt. lia.
  - rewrite (db_trunc _ _ Vs Ns). f_equal. rewrite sf_one_eq. change (-1 + 1074) with 1073. change 1074 with (1 + 1073).
    rewrite pow_split by lia. change (2 ^ 1) with 2. apply Z.quot_mul_cancel_r; [lia|]. pose proof (pow_pos 1073 ltac:(lia)). lia.
Qed.


Section Steep.
  Variables (e : env) (s : st) (p dst : ptr) (ms md : smat).
  Hypotheses (Is : image s p ms 1) (Id : image s dst md 1) (Ty : sm_type ms = 1).
  Hypotheses (Er : sm_rows ms = sm_rows md) (Ec : sm_cols ms = sm_cols md) (Eh : sm_chan ms = sm_chan md).
  Hypothesis (Ne : sm_data ms <> sm_data md).
  Variables (x1 y1 x2 y2 thickness : Z) (color : rgb).
  Hypotheses (Hch : sm_chan md = 3) (Sm : small_coords x1 y1 x2 y2) (Hy : y1 <> y2) (HC : sm_cols md <= 2097152).
  Hypothesis (Sz : -2147483648 < thickness <= 2147483647) (Ft : sm_cols md + Z.abs (Z.quot thickness 2) <= 2147483647).
  Hypotheses (Hr : 0 <= c_r color < 256) (Hg : 0 <= c_g color < 256) (Hb : 0 <= c_b color < 256).

  Lemma steep_run k : -1 <= k <= 1 -> x2 - x1 = k * (y2 - y1) ->
    exists s', draw_line p dst x1 y1 x2 y2 color thickness e s = Ret tt s'
      /\ drawn s ms md (fun i j => exists j', 0 <= j' < sm_cols md /\ Z.abs (j - j') <= Z.quot thickness 2
                                  /\ i = Z.quot (2 * (y1 + k * (j' - x1)) + 1) 2)
           (rgb_order (c_r color) (c_g color) (c_b color)) s'.
  Proof.
    intros Hk Ek. destruct Sm as (B1 & B2 & B3 & B4).
    assert (Rw : forall j, 0 <= j < sm_cols md -> library_row x1 y1 x2 y2 j = Some (Z.quot (2 * (y1 + k * (j - x1)) + 1) 2)).
    { intros j Hj. apply integer_rows; auto; change (2 ^ 21) with 2097152; lia. }
    destruct (line_run e s p dst ms md Is Id Ty Er Ec Eh Ne x1 y1 x2 y2 thickness color) as (s' & E & D & O); auto.
    - unfold int_range. lia.
    - unfold int_range. lia.
    - intros j Hj. rewrite Rw by auto. eexists. split; [reflexivity|]. unfold int_range.
      assert (Z.abs (k * (j - x1)) <= 4194304) by (assert (k = -1 \/ k = 0 \/ k = 1) as [->|[->| ->]] by lia; lia).
      lia.
    - exists s'. split; [exact E|]. split; [|exact O].
      assert (Q : forall i j, library_line x1 y1 x2 y2 (sm_cols md) (Z.quot thickness 2) i j <->
        exists j', 0 <= j' < sm_cols md /\ Z.abs (j - j') <= Z.quot thickness 2 /\ i = Z.quot (2 * (y1 + k * (j' - x1)) + 1) 2).
      { intros i j. unfold library_line. split; intros (j' & Hj' & Hd & Hi); exists j'; repeat split; auto; try lia.
        - rewrite Rw in Hi by auto. congruence.
        - rewrite Rw by auto. congruence. }
      intros i j c Hc. destruct (D i j c Hc) as [D1 D2]. split; intros HP; [apply D1, Q|apply D2; rewrite Q]; auto.
  Qed.

  Lemma vertical_run : x1 = x2 -> 0 <= y1 -> 0 <= thickness ->
    exists s', draw_line p dst x1 y1 x2 y2 color thickness e s = Ret tt s'
      /\ drawn s ms md (fun i j => i = y1) (rgb_order (c_r color) (c_g color) (c_b color)) s'.
  Proof.
    intros Ex Hy1 Ht. destruct (steep_run 0) as (s' & E & D & O); [lia|lia|].
    exists s'. split; [exact E|]. split; [|exact O].
    assert (Qt : 0 <= Z.quot thickness 2) by lia.
    intros i j c Hc. pose proof Hc as (Hi & Hj & _). destruct (D i j c Hc) as [D1 D2]. split; intros HP.
    - apply D1. exists j. split; auto. split; [lia|]. rewrite HP. lia.
    - apply D2. intros (j' & _ & _ & Hq). apply HP. rewrite Hq. lia.
  Qed.

  Lemma diagonal_run : Z.abs (x2 - x1) = Z.abs (y2 - y1) -> 0 <= thickness ->
    exists s' P, draw_line p dst x1 y1 x2 y2 color thickness e s = Ret tt s'
      /\ drawn s ms md P (rgb_order (c_r color) (c_g color) (c_b color)) s'
      /\ forall i j, in_image md i j 0 -> on_segment x1 y1 x2 y2 i j -> P i j.
  Proof.
    intros Ed Ht. assert (exists k, (k = 1 \/ k = -1) /\ x2 - x1 = k * (y2 - y1)) as (k & Hk & Ek).
    { assert (x2 - x1 = y2 - y1 \/ x2 - x1 = - (y2 - y1)) as [H|H] by lia; [exists 1|exists (-1)]; lia. }
    destruct (steep_run k) as (s' & E & D); [lia|auto|]. eexists s', _. split; [exact E|]. split; [exact D|].
    intros i j (Hi & Hj & _) Hs. exists j. split; auto.
    assert (Qt : 0 <= Z.quot thickness 2) by lia. split; [lia|].
    assert (i = y1 + k * (j - x1)).
    { unfold on_segment in Hs. cbv zeta in Hs. rewrite Ed, Z.leb_refl in Hs. destruct Hs as [_ Hs].
      rewrite Ek in Hs. replace ((i - y1) * (k * (y2 - y1)) - (j - x1) * (y2 - y1)) with (((i - y1) * k - (j - x1)) * (y2 - y1)) in Hs by ring.
      rewrite Z.abs_mul in Hs. assert (Z.abs ((i - y1) * k - (j - x1)) = 0).
      { set (a := Z.abs ((i - y1) * k - (j - x1))) in *. assert (0 <= a) by (unfold a; lia). set (d := Z.abs (y2 - y1)) in *.
        assert (0 < d) by (unfold d; lia). clearbody a d. clear - Hs H H0. nia. }
      destruct Hk as [->| ->]; lia. }
    lia.
  Qed.
End Steep.
