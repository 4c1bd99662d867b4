(** * Proofs: covariance of the bands. *)
From Verif Require ProofCem.
From Verif Require Import Base ModelFloat ModelDouble ModelCore ModelImage ModelMatrix ModelPca SpecBase SpecCore SpecImage SpecImage2 SpecNum SpecMatrix SpecCxx SpecPca
  Logic ProofCore ProofLayout ProofCore2 ProofHM ProofCopy ProofImage3 ProofWord ProofArr ProofGrid ProofFold ProofMatrix ProofInvert ProofFloat ProofFloat2 ProofFilter ProofCorr ProofFlip
  ProofSpectral4 ProofSpectral5.
From Coq Require Import Floats.SpecFloat ZifyBool ZifyNat.
Ltac Zify.zify_post_hook ::= Z.div_mod_to_equations.
Open Scope Z_scope.

Lemma only_word s p lo hi s' q off k w : only_bytes s p lo hi s' -> q <> p -> word_at s q off (S k) = Some w -> word_at s' q off (S k) = Some w.
Proof.
  intros (_ & _ & U & _) Hq W. destruct (word_isb s q off k w W) as (n & N & d & -> & I & A & B).
  pose proof (isb_lt _ _ _ _ I) as Lt. assert (I1 : isb s' n N d).
  { unfold isb in *. rewrite (nth_bytes_at s s' n); [exact I|]. apply U; [exact Lt|]. intros [E|[]]. congruence. }
  rewrite (word_at_isb s' n N d (S k) I1) by lia. rewrite <- W. rewrite (word_at_isb s n N d (S k) I) by lia. reflexivity.
Qed.
Lemma only_matrix s p lo hi s' q r c X : only_bytes s p lo hi s' -> q <> p -> matrix s q 4 r c X -> matrix s' q 4 r c X.
Proof. intros O Hq H i j Hi Hj. apply (only_word s p lo hi s' q _ 3 _ O Hq). exact (H i j Hi Hj). Qed.
Lemma old_matrix s s' q r c X : old_unchanged s s' -> matrix s q 4 r c X -> matrix s' q 4 r c X.
Proof. intros O H i j Hi Hj. apply (word_old s s' q _ 3 _ O). exact (H i j Hi Hj). Qed.

Definition centre_loop (x mean : ptr) (n b : Z) : M unit :=
  for_ 0 n (fun i =>
    for_ 0 b (fun j =>
      k <- ev (i * b + j)%C ;;
      a <- loadf x k ;;
      m <- loadf mean i ;;
      storef x k (fl_sub a m))).

Lemma centre_run e s x mean n b X Mn : 0 < n -> 0 < b -> n * b <= 2147483647 -> x <> mean ->
  matrix s x 4 n b X -> matrix s mean 4 1 n (fun _ => Mn) ->
  exists q s', x = Some q /\ centre_loop x mean n b e s = Ret tt s' /\ inside s q 0 (n * b * 4) s'
    /\ matrix s' x 4 n b (fun t j => fl_word (float_minus (X t j) (Mn t))).
Proof.
  intros Hn Hb HB Hne MX MM.
  destruct (matrix_arr s x 4 n b X ltac:(lia) Hn Hb MX) as (q & -> & A).
  destruct (matrix_arr s mean 4 1 n _ ltac:(lia) ltac:(lia) Hn MM) as (qm & -> & Am). rewrite Z.mul_1_l in Am.
  assert (Nq : qm <> q) by congruence.
  set (D := fun t => fl_word (float_minus (X (t / b) (t mod b)) (Mn (t / b)))).
  set (g := fun t => X (t / b) (t mod b)) in A. cbv beta in A.
  set (I := fun k s1 => inside s q 0 (n * b * 4) s1 /\ arr s1 q 0 4 (n * b) (fun t => if t <? k then D t else g t)).
  assert (I0 : I 0 s).
  { split; [destruct (arr_isb _ _ _ _ _ _ A) as (N & d & Hd); eapply inside_refl; eauto|].
    eapply arr_ext; [|exact A]. intros i Hi. replace (i <? 0) with false by lia. reflexivity. }
  assert (G : exists s', centre_loop (Some q) (Some qm) n b e s = Ret tt s' /\ I (n * b) s').
  { unfold centre_loop. apply (for_inv e 0 n _ (fun i s1 => I (i * b) s1) s); [lia|rewrite Z.mul_0_l; exact I0|].
    intros i s1 Hi I1. replace ((i + 1) * b) with (i * b + b) by ring.
    apply (for_inv e 0 b _ (fun j s1 => I (i * b + j) s1) s1); [lia|rewrite Z.add_0_r; exact I1|].
    intros j s2 Hj (I2 & A2). pose proof (cell_range n b i j Hi Hj) as Hc.
    rewrite (bind_ret _ _ e s2 (i * b + j) s2).
    2:{ assert (0 <= i * b) by (apply Z.mul_nonneg_nonneg; lia). unfold ci. rewrite cmul_ok by lia. rewrite cadd_ok by lia. reflexivity. }
    rewrite (bind_ret _ _ _ _ _ _ (loadf_arr e s2 q (n * b) _ _ A2 Hc)). cbv beta. rewrite Z.ltb_irrefl.
    assert (Am2 : arr s2 qm 0 4 n (fun t => Mn (t mod n))) by (eapply arr_inside; [exact I2|exact Am|auto]).
    rewrite (bind_ret _ _ _ _ _ _ (loadf_arr e s2 qm n _ i Am2 Hi)). cbv beta.
    destruct (storef_arr e s2 q (n * b) _ (i * b + j) (fl_sub (fl_of_bits (g (i * b + j))) (fl_of_bits (Mn (i mod n)))) A2 Hc) as (s3 & E3 & A3 & I3).
    exists s3. split; [exact E3|]. split; [eapply inside_trans; eauto|].
    eapply arr_ext; [|exact A3]. intros t Ht. unfold fupd. destruct (Z.eqb_spec t (i * b + j)) as [->|Ne].
    - replace (i * b + j <? i * b + (j + 1)) with true by lia. unfold D, g, float_minus.
      rewrite cell_div, cell_mod by lia. rewrite (Z.mod_small i n) by lia. reflexivity.
    - replace (t <? i * b + (j + 1)) with (t <? i * b + j) by lia. reflexivity. }
  destruct G as (s' & E & I' & A'). exists q, s'. split; [reflexivity|]. split; [exact E|]. split; [exact I'|].
  apply arr_matrix. eapply arr_ext; [|exact A']. intros t Ht. cbv beta. replace (t <? n * b) with true by lia. reflexivity.
Qed.

Lemma hdr_inside s q lo hi s' p m : inside s q lo hi s' -> sm_at s p = Some m -> sm_at s' p = Some m.
Proof. 
  intros (N & d & d' & H & -> & A) Hm. destruct p as [p|]; [|discriminate Hm].
  destruct (Nat.eq_dec p q) as [->|Ne].
  - apply isb_obj in H as (a & r & H). unfold sm_at in Hm. rewrite H in Hm. discriminate Hm.
  - unfold sm_at in *. now rewrite objs_putd_ne by auto.
Qed.

Lemma word_at_ext s s' p p' : forall k off off', (forall t, 0 <= t < Z.of_nat k -> byte_at s' p' (off' + t) = byte_at s p (off + t)) -> word_at s' p' off' k = word_at s p off k.
Proof.
  induction k as [|k IH]; intros off off' H; [reflexivity|]. cbn [word_at].
  pose proof (H 0 ltac:(lia)) as H0. rewrite !Z.add_0_r in H0. rewrite H0.
  rewrite (IH (off + 1) (off' + 1)); [reflexivity|]. intros t Ht.
  replace (off' + 1 + t) with (off' + (1 + t)) by ring. replace (off + 1 + t) with (off + (1 + t)) by ring. apply H. lia.
Qed.

Lemma store8_putd e s q i v s' : store8 (Some q) i v e s = Ret tt s' -> exists d, s' = putd s q d.
Proof.
  unfold store8. destruct (bytes_at s (Some q)) as [[[q' n'] d']|] eqn:E; [|discriminate]. destruct (inb i n'); [|discriminate].
  intros H. injection H as <-. apply bytes_at_inv in E as ([= <-] & I'). eexists. reflexivity.
Qed.
Lemma storele_putd e q k : forall s off v s', (exists d, s = putd s q d) -> storele (Some q) off k v e s = Ret tt s' -> exists d, s' = putd s q d.
Proof.
  induction k as [|k IH]; intros s off v s' H0 H; cbn [storele] in H.
  - injection H as <-. exact H0.
  - unfold bind in H at 1. destruct (store8 (Some q) off (v mod 256) e s) as [u s1| | |] eqn:E; try discriminate. destruct u.
    apply store8_putd in E as (d & ->). destruct (IH _ _ _ _ ltac:(exists d; now rewrite putd_putd) H) as (d' & ->). rewrite putd_putd. eauto.
Qed.
Lemma mul_putd e es mac x y q m k n N d s s' : isb s q N d -> MulMatrix_with es mac x y (Some q) m k n e s = Ret tt s' -> exists d', s' = putd s q d'.
Proof.
  intros I H. assert (S0 : exists d, s = putd s q d) by (exists d; symmetry; eapply putd_id; eauto). revert H. unfold MulMatrix_with.
  apply (ProofCem.for_keep e 0 m _ (fun s1 => exists d', s1 = putd s q d')); [|exact S0]. intros i s1 s2 _ H1.
  apply (ProofCem.for_keep e 0 n _ (fun s1 => exists d', s1 = putd s q d')); [|exact H1]. clear s1 s2 H1. intros j s1 s2 _ H1.
  apply (ProofCem.for_keep e 0 k _ (fun s1 => exists d', s1 = putd s q d')); [|exact H1]. clear s1 s2 H1. intros t s1 s2 _ (d1 & ->) H.
  do 3 (ProofCem.stepb H; apply ProofCem.ev_same in E as ->). do 3 (ProofCem.stepb H; apply ProofCem.loadle_same in E as ->). ProofCem.stepb H. apply ProofCem.ev_same in E as ->.
  destruct (storele_putd e q _ _ _ _ _ ltac:(exists d1; now rewrite putd_putd) H) as (d' & ->). rewrite putd_putd. eauto.
Qed.

Theorem cov_code : forall e s x mx mean mm res mr n b X Mn W, env_ok e -> heap_ok s -> e_addr e (List.length (objs s)) mod 64 <> 48 ->
  pixels_at s x mx n b X -> sm_at s mean = Some mm -> sm_cols mm * sm_rows mm = n -> matrix s (sm_data mm) 4 1 n (fun _ => Mn) ->
  sm_at s res = Some mr -> matrix s (sm_data mr) 4 b b W -> b * b <= 2147483647 ->
  sm_data mx <> sm_data mm -> sm_data mx <> sm_data mr ->
  exists s' V, cal_covariance_matrix x mean res e s = Ret tt s'
    /\ matrix s' (sm_data mx) 4 n b (fun t j => fl_word (float_minus (X t j) (Mn t)))
    /\ matrix s' (sm_data mr) 4 b b V
    /\ (forall i j, 0 <= i < b -> 0 <= j < b -> fl_of_bits (V i j) = cov_sum n X Mn (W i j) i j)
    /\ no_leak s s' /\ unchanged_except [sm_data mx; sm_data mr] s s' /\ files s' = files s.
Proof.
  intros e s x mx mean mm res mr n b X Mn W He Hs H48 (IM & TX & CX & RX & COX & MX) Hm Hn MM Hr MR Hbb N1 N2.
  pose proof (im_hdr _ _ _ _ IM) as Hx. pose proof (im_rows _ _ _ _ IM) as HR. pose proof (im_cols _ _ _ _ IM) as HC. pose proof (im_size _ _ _ _ IM) as HS.
  pose proof (im_data _ _ _ _ IM) as HD. rewrite RX, COX, CX in *.
  assert (Hnb : 0 < n * b) by (apply Z.mul_pos_pos; lia).
  destruct (centre_run e s (sm_data mx) (sm_data mm) n b X Mn HR HC ltac:(lia) N1 MX MM) as (q & s1 & Eq & E1 & I1 & M1).
  pose proof (inside_only _ _ _ _ _ I1) as O1. rewrite <- Eq in O1.
  pose proof (inside_heap_ok _ _ _ _ _ I1 Hs) as Hs1.
  assert (P1 : exists d1, s1 = putd s q d1) by (destruct I1 as (N & d & d' & _ & -> & _); eauto). destruct P1 as (d1 & P1).
  assert (L1 : List.length (objs s1) = List.length (objs s)) by (rewrite P1; apply putd_length).
  destruct (matrix_arr s (sm_data mr) 4 b b W ltac:(lia) HC HC MR) as (qr & Er & Ar).
  destruct (arr_isb _ _ _ _ _ _ Ar) as (Nr & dr & Ir). pose proof (isb_lt _ _ _ _ Ir) as Lr.
  assert (Nqr : qr <> q) by congruence.
  unfold cal_covariance_matrix. runs (sget_ok _ _ e _ Hm). runs (sget_ok _ _ e _ Hx). runs (sget_ok _ _ e _ Hr). cbv zeta. rewrite COX.
  assert (Hn1 : n <= n * b) by (clear - HR HC; nia).
  rewrite (bind_ret _ _ e s n s) by (unfold ci; rewrite cmul_ok by lia; now rewrite Hn).
  fold (centre_loop (sm_data mx) (sm_data mm) n b). runs E1.
  destruct (create_sm_run e s1 b n 4 4 1 He Hs1 eq_refl HC HR ltac:(lia) ltac:(lia)) as (dd & E2 & _). runs E2.
  set (k := List.length (objs s1)) in *. set (s2 := newsm e s1 b n 4 4 1 dd) in *.
  pose proof (newsm_old_unchanged e s1 b n 4 4 1 dd) as O2. fold s2 in O2.
  assert (Hx2 : sm_at s2 x = Some mx).
  { pose proof (hdr_inside _ _ _ _ _ _ _ I1 Hx) as Hx1. destruct x as [x|]; [|discriminate Hx1]. unfold sm_at in *. rewrite O2; auto.
    apply nth_error_Some. destruct (nth_error (objs s1) x); congruence. }
  assert (IX : image s2 x mx 4).
  { split; try exact (im_type _ _ _ _ IM); rewrite ?RX, ?COX, ?CX; auto; try lia.
    destruct O1 as (_ & _ & _ & RD & _). apply RD in HD. apply readable_isb in HD as (w & sz & f & -> & Hw & Hnw).
    eapply isb_readable; [eapply newsm_old; eauto|lia]. }
  set (mt := newsm_hdr s1 b n 4 4 1).
  assert (IT : image s2 (Some k) mt 4).
  { split; cbn [mt newsm_hdr sm_type sm_rows sm_cols sm_chan sm_data]; auto; try lia; [apply newsm_at|].
    eapply isb_readable; [apply newsm_data|lia]. }
  assert (Nt : sm_data mt <> sm_data mx).
  { rewrite Eq. cbn [mt newsm_hdr sm_data]. destruct I1 as (N & d & d' & Hq & _). pose proof (isb_lt _ _ _ _ Hq). fold k. intros [= E]. lia. }
  destruct (transport_run e s2 (Some k) mt x mx 4 IT IX eq_refl CX ltac:(cbn; lia) ltac:(cbn; lia) ltac:(cbn; lia) Nt) as (s3 & E3 & T3 & W3).
  runs E3. destruct W3 as (q3 & n3 & dx & d3 & Eq3 & I3 & ->). cbn [mt newsm_hdr sm_data] in Eq3. injection Eq3 as <-. fold k in I3, E3, T3 |- *.
  assert (P3 : putd s2 (k + 1) d3 = newsm e s1 b n 4 4 1 d3) by apply newsm_putd. rewrite P3 in E3, T3 |- *. set (s3 := newsm e s1 b n 4 4 1 d3) in *.
  pose proof (newsm_old_unchanged e s1 b n 4 4 1 d3) as O3. fold s3 in O3.
  runs (sget_ok _ _ e _ (newsm_at e s1 b n 4 4 1 d3 : sm_at s3 (Some k) = Some mt)).
  rewrite (bind_ret _ _ e s3 n s3) by (rewrite Z.mul_comm in Hn; unfold ci; rewrite cmul_ok by lia; now rewrite Hn).
  assert (MX3 : matrix s3 (sm_data mx) 4 n b (fun t j => fl_word (float_minus (X t j) (Mn t)))) by (eapply old_matrix; eauto).
  assert (MX2 : matrix s2 (sm_data mx) 4 n b (fun t j => fl_word (float_minus (X t j) (Mn t)))) by (eapply old_matrix; eauto).
  assert (MT3 : matrix s3 (sm_data mt) 4 b n (fun i t => fl_word (float_minus (X t i) (Mn t)))).
  { intros i t Hi Ht. rewrite <- (MX2 t i Ht Hi). apply word_at_ext. intros u Hu.
    specialize (T3 i t u ltac:(cbn; lia) ltac:(cbn; lia) ltac:(lia)). unfold pixel_byte in T3. cbn [mt newsm_hdr sm_rows sm_cols sm_chan sm_data] in *.
    rewrite CX, COX in T3. rewrite !Z.mul_1_r, !Z.add_0_r in T3. exact T3. }
  assert (MR3 : matrix s3 (sm_data mr) 4 b b W) by (eapply old_matrix; [exact O3|]; eapply only_matrix; [exact O1| |exact MR]; congruence).
  assert (Nt2 : sm_data mt <> sm_data mr) by (rewrite Er; cbn [mt newsm_hdr sm_data]; fold k; intros [= E]; lia).
  destruct (mul_float e s3 (sm_data mt) (sm_data mx) (sm_data mr) b n b _ _ W ltac:(lia) ltac:(lia) ltac:(lia) ltac:(lia) ltac:(lia) Hbb MT3 MX3 MR3 Nt2 N2)
    as (s4 & V & E4 & M4 & V4 & O4).
  runs E4. 
  assert (I3r : isb s3 qr Nr dr) by (apply newsm_old; eapply inside_old; eauto).
  rewrite Er in E4. destruct (mul_putd e 4 _ _ _ qr b n b _ _ _ _ I3r E4) as (d4 & P4).
  unfold s3 in P4. rewrite putd_newsm in P4 by lia. rewrite P4.
  assert (Hp : heap_ok (putd s1 qr d4)) by (apply ProofCore.heap_ok_putd; exact Hs1).
  assert (Lp : List.length (objs (putd s1 qr d4)) = k) by apply putd_length.
  pose proof (newsm_delete e (putd s1 qr d4) b n 4 4 1 d3 He Hp ltac:(rewrite Lp, L1; exact H48)) as E5. rewrite Lp in E5.
  exists (deadsm e (putd s1 qr d4) b n 4 4 1 d3), V. split; [exact E5|].
  pose proof (deadsm_old e (putd s1 qr d4) b n 4 4 1 d3) as O5. pose proof (newsm_old_unchanged e (putd s1 qr d4) b n 4 4 1 d3) as O6.
  set (s5 := deadsm e (putd s1 qr d4) b n 4 4 1 d3) in *. rewrite <- P4 in O6.
  assert (HU : forall p r c Y, p <> Some (k + 1)%nat -> p <> Some k -> matrix s4 p 4 r c Y -> matrix s5 p 4 r c Y).
  { intros p r c Y Hp1 Hp2 HY i j Hi Hj. specialize (HY i j Hi Hj). change (Z.to_nat 4) with 4%nat in *.
    destruct (word_isb s4 p _ 3 _ HY) as (w & N & d & -> & I & A & B).
    assert (Lw : (w < k)%nat).
    { pose proof (isb_lt _ _ _ _ I) as Lw. rewrite P4 in Lw. unfold newsm in Lw. cbn [objs] in Lw. rewrite app_length, Lp in Lw. cbn [List.length] in Lw.
      assert (w <> k) by congruence. assert (w <> k + 1)%nat by congruence. lia. }
    assert (I5 : isb s5 w N d) by (unfold isb in *; rewrite (nth_bytes_at s4 s5 w); [exact I|]; rewrite O5, O6 by (rewrite Lp; exact Lw); reflexivity).
    rewrite (word_at_isb s5 w N d 4 I5) by lia. rewrite <- HY. rewrite (word_at_isb s4 w N d 4 I) by lia. reflexivity. }
  assert (Lq : (q < k)%nat) by (destruct I1 as (N & d & d' & Hq & _); pose proof (isb_lt _ _ _ _ Hq); lia).
  split; [|split; [|split; [|split; [|split; [|]]]]].
  - apply HU; [rewrite Eq; intros [= E]; lia|rewrite Eq; intros [= E]; lia|]. eapply only_matrix; [exact O4|exact N2|exact MX3].
  - apply HU; [rewrite Er; intros [= E]; lia|rewrite Er; intros [= E]; lia|]. exact M4.
  - intros i j Hi Hj. rewrite V4 by auto. unfold cov_sum. apply foldz_ext. intros a t Ht.
    assert (FO : forall p r c U i j, matrix s p 4 r c U -> 0 <= i < r -> 0 <= j < c -> fl_ok (fl_of_bits (U i j))).
    { intros p r c U i0 j0 HU0 Hi0 Hj0. apply fl_of_bits_ok. pose proof (matrix_range s p 4 r c U i0 j0 ltac:(lia) HU0 Hi0 Hj0) as RR. change (256 ^ 4) with 4294967296 in RR. exact RR. }
    assert (FM : fl_ok (fl_of_bits (Mn t))) by exact (FO _ _ _ _ 0 t MM ltac:(lia) Ht).
    unfold float_minus. rewrite !fl_word_back by (apply fl_sub_ok; [eapply FO; eauto|exact FM]). reflexivity.
  - intros i o Hi Ho. eapply deadsm_dead; [|exact Ho]. rewrite Lp. lia.
  - intros i Hi Hn1i. rewrite O5 by (rewrite Lp; lia). rewrite objs_putd_ne; [|intros ->; apply Hn1i; rewrite Er; right; now left].
    rewrite P1. apply objs_putd_ne. intros ->. apply Hn1i. rewrite Eq. now left.
  - change (files s1 = files s). rewrite P1. reflexivity.
Qed.

(** The same float in either order. *)
Lemma cov_comm n X Mn w i j : cov_sum n X Mn w i j = cov_sum n X Mn w j i.
Proof. unfold cov_sum. apply foldz_ext. intros a t Ht. f_equal. apply mul_comm. Qed.

Theorem cov_symmetric : forall e s x mx mean mm res mr n b X Mn W, env_ok e -> heap_ok s -> e_addr e (List.length (objs s)) mod 64 <> 48 ->
  pixels_at s x mx n b X -> sm_at s mean = Some mm -> sm_cols mm * sm_rows mm = n -> matrix s (sm_data mm) 4 1 n (fun _ => Mn) ->
  sm_at s res = Some mr -> matrix s (sm_data mr) 4 b b W -> b * b <= 2147483647 ->
  sm_data mx <> sm_data mm -> sm_data mx <> sm_data mr ->
  (forall i j, 0 <= i < b -> 0 <= j < b -> W i j = W j i) ->
  exists s' V, cal_covariance_matrix x mean res e s = Ret tt s' /\ matrix s' (sm_data mr) 4 b b V
    /\ (forall i j, 0 <= i < b -> 0 <= j < b -> fl_of_bits (V i j) = fl_of_bits (V j i)).
Proof.
  intros e s x mx mean mm res mr n b X Mn W He Hs H48 PX Hm Hn MM Hr MR Hbb N1 N2 HW.
  destruct (cov_code e s x mx mean mm res mr n b X Mn W He Hs H48 PX Hm Hn MM Hr MR Hbb N1 N2) as (s' & V & E & _ & MV & HV & _).
  exists s', V. split; [exact E|]. split; [exact MV|]. intros i j Hi Hj. rewrite !HV by auto. rewrite (HW i j) by auto. apply cov_comm.
Qed.

(** Whole numbers and whole means. *)
Theorem cov_whole : forall e s x mx mean mm res mr n b X Mn X' M' K, env_ok e -> heap_ok s -> e_addr e (List.length (objs s)) mod 64 <> 48 ->
  pixels_at s x mx n b X -> sm_at s mean = Some mm -> sm_cols mm * sm_rows mm = n -> matrix s (sm_data mm) 4 1 n (fun _ => Mn) ->
  sm_at s res = Some mr -> matrix s (sm_data mr) 4 b b (fun _ _ => 0) -> b * b <= 2147483647 ->
  sm_data mx <> sm_data mm -> sm_data mx <> sm_data mr ->
  (forall t j, 0 <= t < n -> 0 <= j < b -> float_int (X t j) (X' t j) /\ float_int (Mn t) (M' t) /\ Z.abs (X' t j - M' t) <= K) -> n * (K * K) <= 16777216 ->
  exists s' V, cal_covariance_matrix x mean res e s = Ret tt s' /\ matrix s' (sm_data mr) 4 b b V
    /\ (forall i j, 0 <= i < b -> 0 <= j < b -> float_int (V i j) (sumz n (fun t => (X' t i - M' t) * (X' t j - M' t)))).
Proof.
  intros e s x mx mean mm res mr n b X Mn X' M' K He Hs H48 PX Hm Hn MM Hr MR Hbb N1 N2 HI HK.
  destruct (cov_code e s x mx mean mm res mr n b X Mn _ He Hs H48 PX Hm Hn MM Hr MR Hbb N1 N2) as (s' & V & E & _ & MV & HV & _).
  exists s', V. split; [exact E|]. split; [exact MV|]. intros i j Hi Hj. unfold float_int. rewrite HV by auto. unfold cov_sum.
  destruct PX as (IM & _ & _ & RX & COX & MX). pose proof (im_rows _ _ _ _ IM) as HR. rewrite RX in HR.
  assert (FO : forall p r c U i j, matrix s p 4 r c U -> 0 <= i < r -> 0 <= j < c -> fl_ok (fl_of_bits (U i j))).
  { intros p r c U i0 j0 HU0 Hi0 Hj0. apply fl_of_bits_ok. pose proof (matrix_range s p 4 r c U i0 j0 ltac:(lia) HU0 Hi0 Hj0) as RR. change (256 ^ 4) with 4294967296 in RR. exact RR. }
  assert (HK0 : forall t, 0 <= t < n -> 0 <= K /\ K <= 16777216 /\ K * K <= 16777216).
  { intros t Ht. destruct (HI t i Ht Hi) as (_ & _ & B). assert (0 <= K) by lia. assert (K * K <= n * (K * K)) by nia. split; [auto|]. split; nia. }
  assert (D : forall t c, 0 <= t < n -> 0 <= c < b -> isint 24 128 (float_minus (X t c) (Mn t)) (X' t c - M' t)).
  { intros t c Ht Hc. destruct (HI t c Ht Hc) as (A & B & C). destruct (HK0 t Ht) as (K0 & K1 & _). apply sub_int; try lia.
    - split; [exact (FO _ _ _ _ t c MX Ht Hc)|exact A].
    - split; [exact (FO _ _ _ _ 0 t MM ltac:(lia) Ht)|exact B].
 }
  assert (P : forall u v, Z.abs u <= K -> Z.abs v <= K -> Z.abs (u * v) <= K * K) by (intros u v Hu Hv; rewrite Z.abs_mul; apply Z.mul_le_mono_nonneg; lia).
  replace (sumz n (fun t => (X' t i - M' t) * (X' t j - M' t))) with (0 + sumz n (fun t => (X' t i - M' t) * (X' t j - M' t))) by ring.
  apply (foldz_float_int n (fun t => float_minus (X t i) (Mn t)) (fun t => float_minus (X t j) (Mn t)) (fun t => X' t i - M' t) (fun t => X' t j - M' t)); [lia| |].
  - split; [apply fl_of_bits_ok; lia|reflexivity].
  - intros t Ht. destruct (HK0 t Ht) as (K0 & _ & K2). split; [apply D; auto|]. split; [apply D; auto|].
    split; [pose proof (P _ _ (proj2 (proj2 (HI t i Ht Hi))) (proj2 (proj2 (HI t j Ht Hj)))); lia|].
    rewrite Z.add_0_l. transitivity ((t + 1) * (K * K)); [|clear - HK Ht K2; nia].
    rewrite <- ProofStat.sumz_const by lia. apply sumz_abs_le; [lia|]. intros r Hr0. apply P; apply HI; auto; lia.
Qed.
