(** * Gaussian smoothing, assembled. *)
From Verif Require Import Base ModelFloat ModelDouble ModelConv ModelBorder ModelCore ModelImage ModelMatrix ModelFilter ModelGauss Logic SpecBase SpecNum SpecMatrix SpecPixel SpecImage2 SpecFilter SpecGauss SpecCxx.
From Verif Require Import ProofCore ProofCore2 ProofImage2 ProofPixel ProofArr ProofGrid ProofMatrix ProofFold ProofBorder ProofFloat ProofFloat2 ProofErr ProofGrad ProofFilter ProofHM ProofBlur ProofBlur2 ProofBlur3 ProofBlur4 ProofBlur5.
From Coq Require Import Floats.SpecFloat Lia ZifyBool ZifyNat.
Open Scope Z_scope.

(** ** Kernels *)
Definition built (s : st) (n ktype es : Z) (p : ptr) (m : smat) (s' : st) : Prop :=
  sm_at s' p = Some m /\ sm_rows m = 1 /\ sm_cols m = n /\ sm_type m = ktype /\ sm_chan m = 1
  /\ old_unchanged s s' /\ files s' = files s /\ heap_ok s' /\ readable s' (sm_data m) (n * es).

Lemma kernel_built exp_ e s n sigma ktype es : env_ok e -> heap_ok s -> 0 < n ->
  (ktype = 4 /\ es = 4) \/ (ktype = 5 /\ es = 8) -> n * es + 96 <= 2147483647 ->
  exists m s', gaussian_kernel exp_ n sigma ktype e s = Ret (Some (List.length (objs s))) s'
    /\ built s n ktype es (Some (List.length (objs s))) m s' /\ sm_data m = Some (List.length (objs s) + 1)%nat
    /\ arr s' (List.length (objs s) + 1) 0 es n
         ((if ktype =? 4 then weight4 else weight5) n (gauss_t exp_ (gauss_fixed n sigma) n (gauss_scale n sigma))).
Proof.
  intros He Hs Hn Hk Hsz. destruct (kernel_run exp_ e s n sigma ktype es He Hs Hn Hk Hsz) as (d & E & A).
  exists (newsm_hdr s 1 n ktype es 1). eexists. split; [exact E|]. split; [|split; [reflexivity|exact A]].
  split; [apply newsm_at|]. do 4 (split; [reflexivity|]). split; [apply newsm_old_unchanged|]. split; [reflexivity|].
  split; [now apply newsm_heap_ok|].
  cbn [newsm_hdr sm_data]. eapply isb_readable; [apply newsm_data|]. lia.
Qed.

Theorem kernel_symmetric exp_ e s n sigma ktype es : env_ok e -> heap_ok s -> 0 < n ->
  (ktype = 4 /\ es = 4) \/ (ktype = 5 /\ es = 8) -> n * es + 96 <= 2147483647 ->
  exists p m s', gaussian_kernel exp_ n sigma ktype e s = Ret p s'
    /\ sm_at s' p = Some m /\ sm_rows m = 1 /\ sm_cols m = n /\ sm_type m = ktype
    /\ symmetric_words s' (sm_data m) es n /\ old_unchanged s s' /\ files s' = files s.
Proof.
  intros He Hs Hn Hk Hsz. destruct (kernel_built exp_ e s n sigma ktype es He Hs Hn Hk Hsz) as (m & s' & E & B & D & A).
  destruct B as (B1 & B2 & B3 & B4 & _ & B6 & B7 & _). exists (Some (List.length (objs s))), m, s'. repeat (split; auto).
  intros i Hi. rewrite D. eexists. split.
  - rewrite <- (Z.add_0_l (i * es)). apply (arr_word _ _ _ _ _ _ i A Hi).
  - rewrite <- (Z.add_0_l ((n - 1 - i) * es)). rewrite (arr_word _ _ _ _ _ _ (n - 1 - i) A) by lia. f_equal.
    apply weight_sym; auto. apply gauss_t_sym; auto; [destruct Hk; lia|]. now apply fixed_size.
Qed.

(** The sum of stored weights. *)
Lemma sum_arr s q es n K W : 0 <= n -> (es = 4 \/ es = 8) -> arr s q 0 es n K ->
  (forall k, 0 <= k < n -> sf_num (if es =? 4 then fl_of_bits (K k) else db_of_bits (K k)) = Some (W k)) ->
  weight_sum s (Some q) es n = Some (total n W).
Proof.
  intros Hn He A HW. unfold weight_sum, total.
  assert (G : forall j, 0 <= j -> j <= n -> foldz j (fun a i => match a, weight_num s (Some q) es i with Some x, Some y => Some (x + y) | _, _ => None end) (Some 0)
     = Some (foldz j (fun a k => a + W k) 0)); [|apply G; lia].
  intros j Hj. pattern j. apply natlike_ind; auto.
  intros x Hx IH Hx2. unfold Z.succ in *. rewrite !foldz_S by lia. rewrite IH by lia.
  unfold weight_num. rewrite <- (Z.add_0_l (x * es)). rewrite (arr_word _ _ _ _ _ _ x A) by lia. rewrite HW by lia. reflexivity.
Qed.

Theorem kernel_near_one exp_ e s n sigma : env_ok e -> heap_ok s -> 0 < n < 2048 -> Z.odd n = true ->
  exp_like exp_ -> good_sigma sigma ->
  exists p m s' z, gaussian_kernel exp_ n sigma 4 e s = Ret p s' /\ sm_at s' p = Some m
    /\ weight_sum s' (sm_data m) 4 n = Some z /\ Z.abs (z - sf_one) * 4096 <= sf_one.
Proof.
  intros He Hs Hn Ho Hx Hg.
  destruct (kernel_built exp_ e s n sigma 4 4 He Hs ltac:(lia) ltac:(auto) ltac:(lia)) as (m & s' & E & B & D & A).
  destruct (kernel_unit exp_ n sigma Hx ltac:(lia) Ho Hg) as (W & HW & HT). cbn [Z.eqb Pos.eqb] in A.
  exists (Some (List.length (objs s))), m, s', (total n W). split; auto. split; [apply B|]. rewrite D. split.
  - eapply sum_arr; eauto; [lia|]. intros k Hk. apply HW. exact Hk.
  - rewrite sf_one_eq. exact HT.
Qed.

Theorem kernel_table_one exp_ e s n sigma a ktype es : env_ok e -> heap_ok s -> n = 1 \/ n = 3 \/ n = 5 \/ n = 7 ->
  (ktype = 4 /\ es = 4) \/ (ktype = 5 /\ es = 8) -> db_ok sigma -> sf_num sigma = Some a -> a <= 0 ->
  exists p m s', gaussian_kernel exp_ n sigma ktype e s = Ret p s' /\ sm_at s' p = Some m
    /\ weight_sum s' (sm_data m) es n = Some sf_one.
Proof.
  intros He Hs Hn Hk V N Ha.
  destruct (kernel_built exp_ e s n sigma ktype es He Hs ltac:(lia) Hk ltac:(lia)) as (m & s' & E & B & D & A).
  exists (Some (List.length (objs s))), m, s'. split; auto. split; [apply B|]. rewrite D.
  assert (EF : gauss_fixed n sigma = true).
  { unfold gauss_fixed. rewrite (leb_zero sigma a V N). replace (a <=? 0) with true by lia. destruct Hn as [-> |[-> |[-> | ->]]]; reflexivity. }
  rewrite EF in A. rewrite (sum_arr s' _ es n _ (table_num n) ltac:(lia) ltac:(lia) A).
  - rewrite table_total by auto. now rewrite sf_one_eq.
  - intros k Hk2. destruct (table_weights exp_ n (gauss_scale n sigma) k Hn Hk2) as [T4 T8].
    destruct Hk as [[-> ->]|[-> ->]]; cbn [Z.eqb Pos.eqb]; auto.
Qed.

(** ** The blur *)
Lemma old_byte s s' k x : old_unchanged s s' -> (k < List.length (objs s))%nat -> byte_at s' (Some k) x = byte_at s (Some k) x.
Proof. intros H Hk. unfold byte_at, bytes_at. now rewrite (H k Hk). Qed.

Lemma old_word s s' k n : forall x, old_unchanged s s' -> (k < List.length (objs s))%nat -> word_at s' (Some k) x n = word_at s (Some k) x n.
Proof. induction n as [|n IH]; intros x H Hk; cbn [word_at]; auto. now rewrite (old_byte s s' k x H Hk), IH. Qed.

Lemma data_old s p m es : image s p m es -> exists k, sm_data m = Some k /\ (k < List.length (objs s))%nat.
Proof.
  intros I. destruct (readable_isb _ _ _ (im_data _ _ _ _ I)) as (q & sz & d & E & H & _). exists q. split; auto. now apply isb_lt in H.
Qed.

Lemma colours_old s s' p ms es P : image s p ms es -> old_unchanged s s' -> colours s ms P -> colours s' ms P.
Proof.
  intros I O C i j k H. rewrite <- (C i j k H). unfold pix, pixel_byte. destruct (data_old _ _ _ _ I) as (q & -> & Hq).
  now apply old_byte.
Qed.

Definition blur_sigma1 (s1 : sf) : sf := if SFltb (db_of_Z 0) s1 then s1 else db_of_Z 0.
Definition blur_sigma2 (s1 s2 : sf) : sf := blur_sigma1 (if SFleb s2 (db_of_Z 0) then s1 else s2).
Definition weights (exp_ : sf -> sf) (n : Z) (sigma : sf) : Z -> Z :=
  weight4 n (gauss_t exp_ (gauss_fixed n sigma) n (gauss_scale n sigma)).

Lemma good_sigma_1 s1 : good_sigma s1 -> good_sigma (blur_sigma1 s1).
Proof.
  intros G. unfold blur_sigma1. destruct (SFltb _ _); auto. destruct (db_of_Z_ok 0 ltac:(lia)) as [V N].
  split; auto. exists 0. split; [exact N|lia].
Qed.

Lemma gaussian_run exp_ e s src dst ms md P kw kh s1 s2 ty ixr ixc :
  env_ok e -> heap_ok s -> image s src ms 1 -> image s dst md 1 ->
  sm_rows md = sm_rows ms -> sm_cols md = sm_cols ms -> sm_chan md = sm_chan ms ->
  sm_chan ms = 1 \/ sm_chan ms = 3 -> colours s ms P -> sm_rows ms * sm_cols ms * 4 * sm_chan ms + 96 <= 2147483647 ->
  0 < kw -> Z.odd kw = true -> 0 < kh -> Z.odd kh = true -> kw * 4 + 96 <= 2147483647 -> kh * 4 + 96 <= 2147483647 ->
  sm_cols ms + kw <= 2147483647 -> sm_rows ms + kh <= 2147483647 -> border_mode ty = true ->
  good_index ty (sm_rows ms) (- (kh / 2)) (sm_rows ms + kh) ixr ->
  good_index ty (sm_cols ms) (- (kw / 2)) (sm_cols ms + kw) ixc ->
  exists s', hypercv_gaussian_blur exp_ src dst kw kh s1 s2 ty e s = Ret tt s'
    /\ smoothed s md (smooth2 kw kh (weights exp_ kw (blur_sigma1 s1)) (weights exp_ kh (blur_sigma2 s1 s2)) ixr ixc P) s'
    /\ ~ no_leak s s'.
Proof.
  intros He Hs Is Id ER EC Ech Hch G Hsz Hw Ow Hh Oh Bw Bh Cw Ch Bm Gr Gc.
  destruct (kernel_built exp_ e s kw (blur_sigma1 s1) 4 4 He Hs Hw ltac:(auto) Bw) as (mx & t1 & E1 & B1 & D1 & A1).
  destruct B1 as (X1 & _ & X3 & _ & _ & X6 & X7 & X8 & _).
  destruct (kernel_built exp_ e t1 kh (blur_sigma2 s1 s2) 4 4 He X8 Hh ltac:(auto) Bh) as (my & t2 & E2 & B2 & D2 & A2).
  destruct B2 as (Y1 & _ & Y3 & _ & _ & Y6 & Y7 & Y8 & _).
  pose proof (old_unchanged_trans _ _ _ X6 Y6) as O2.
  pose proof (old_unchanged_length _ _ X6) as L1. pose proof (old_unchanged_length _ _ Y6) as L2.
  destruct (data_old _ _ _ _ Id) as (qd & Dd & Hqd).
  assert (Hx2 : sm_at t2 (Some (List.length (objs s))) = Some mx).
  { rewrite <- X1. unfold sm_at. rewrite Y6; auto. unfold sm_at in X1. apply nth_error_Some. intros EE. now rewrite EE in X1. }
  assert (K1 : (List.length (objs s) + 1 < List.length (objs t1))%nat).
  { destruct A1 as (N1 & d1 & I1 & _). now apply isb_lt in I1. }
  destruct (blur_run e t2 src dst (Some (List.length (objs s))) (Some (List.length (objs t1))) ms md mx my
      (weights exp_ kw (blur_sigma1 s1)) (weights exp_ kh (blur_sigma2 s1 s2)) P ty ixr ixc) as (s' & E & S & NL); auto;
    rewrite ?X3, ?Y3; auto.
  - eapply image_old; eauto.
  - eapply image_old; eauto.
  - eapply colours_old; eauto.
  - intros i j Hi Hj. assert (i = 0) as -> by lia. cbn [Z.mul Z.add]. rewrite D1.
    pose proof (arr_word _ _ _ _ _ _ j A1 Hj) as Wd. cbn [Z.eqb Pos.eqb Z.add] in Wd. unfold weights. rewrite <- Wd.
    now apply old_word.
  - intros i j Hi Hj. assert (i = 0) as -> by lia. cbn [Z.mul Z.add]. rewrite D2.
    exact (arr_word _ _ _ _ _ _ j A2 Hj).
  - rewrite D2, Dd. intros [= F]. lia.
  - exists s'. split.
    + unfold hypercv_gaussian_blur.
      rewrite bind_assert by (destruct src; [reflexivity|]; pose proof (im_hdr _ _ _ _ Is); discriminate).
      assert (Rw : Z.rem kw 2 = 1) by (rewrite Z.rem_mod_nonneg by lia; now rewrite Zmod_odd, Ow).
      assert (Rh : Z.rem kh 2 = 1) by (rewrite Z.rem_mod_nonneg by lia; now rewrite Zmod_odd, Oh).
      rewrite bind_assert by (rewrite Rw, Rh; lia). rewrite bind_assert by exact Bm.
      rewrite (bind_ret _ _ _ _ _ _ (sget_ok _ _ e _ (im_hdr _ _ _ _ Is))). cbv zeta.
      fold (blur_sigma1 s1). fold (blur_sigma1 (if SFleb s2 (db_of_Z 0) then s1 else s2)). fold (blur_sigma2 s1 s2).
      rewrite (bind_ret _ _ _ _ _ _ E1). rewrite (bind_ret _ _ _ _ _ _ E2). exact E.
    + rewrite X3, Y3 in S. destruct S as (S1 & S2 & S3 & S4). split; [split; [exact S1|]|].
      * split.
        { intros x Hx. rewrite (S2 x Hx), Dd. now apply old_byte. }
        split; [|now rewrite S4, Y7, X7]. intros k Hk Hn. rewrite S3 by (auto; lia). now apply O2.
      * intros N. apply NL. intros k o Hk Ho. apply (N k o); auto. lia.
Qed.

Lemma constant_run exp_ e s src dst ms md v kw kh s1 s2 ty ixr ixc :
  env_ok e -> heap_ok s -> image s src ms 1 -> image s dst md 1 ->
  sm_rows md = sm_rows ms -> sm_cols md = sm_cols ms -> sm_chan md = sm_chan ms ->
  sm_chan ms = 1 \/ sm_chan ms = 3 -> (forall i j c, in_image ms i j c -> pix s ms i j c = Some (v c)) ->
  sm_rows ms * sm_cols ms * 4 * sm_chan ms + 96 <= 2147483647 ->
  0 < kw < 2048 -> Z.odd kw = true -> 0 < kh < 2048 -> Z.odd kh = true -> exp_like exp_ -> good_sigma s1 -> good_sigma s2 ->
  sm_cols ms + kw <= 2147483647 -> sm_rows ms + kh <= 2147483647 -> border_mode ty = true ->
  good_index ty (sm_rows ms) (- (kh / 2)) (sm_rows ms + kh) ixr ->
  good_index ty (sm_cols ms) (- (kw / 2)) (sm_cols ms + kw) ixc ->
  exists s', hypercv_gaussian_blur exp_ src dst kw kh s1 s2 ty e s = Ret tt s' /\ kept s md v s' /\ ~ no_leak s s'.
Proof.
  intros He Hs Is Id ER EC Ech Hch G Hsz Hw Ow Hh Oh Hx G1 G2 Cw Ch Bm Gr Gc.
  destruct (gaussian_run exp_ e s src dst ms md (fun _ _ c => v c) kw kh s1 s2 ty ixr ixc) as (s' & E & (S1 & S2 & S3 & S4) & NL); auto; try lia.
  exists s'. split; auto. split; auto. split; [|auto]. intros i j c Hi. destruct (S1 i j c Hi) as (b & Eb & Hb). rewrite Eb. f_equal.
  apply (smooth2_const kw kh _ _ ixr ixc (fun _ _ c => v c) c i j (v c) b ltac:(lia) ltac:(lia)) in Hb; auto.
  - apply kernel_unit; auto; [lia|]. now apply good_sigma_1.
  - apply kernel_unit; auto; [lia|]. apply good_sigma_1. now destruct (SFleb s2 (db_of_Z 0)).
  - assert (Hi' : in_image ms 0 0 c).
    { destruct Hi as (_ & _ & Hc). rewrite Ech in Hc. pose proof (im_rows _ _ _ _ Is). pose proof (im_cols _ _ _ _ Is). repeat split; lia. }
    pose proof (G _ _ _ Hi') as B. unfold pix, pixel_byte, byte_at in B. destruct (bytes_at s (sm_data ms)) as [[[q n] d]|]; [|discriminate].
    destruct (inb _ n); [|discriminate]. injection B as <-. pose proof (Z.mod_pos_bound (d (((0 * sm_cols ms + 0) * sm_chan ms + c) * 1 + 0)) 256 ltac:(lia)). lia.
Qed.

Theorem blur_constant exp_ e s src dst ms md v kw kh s1 s2 x :
  env_ok e -> heap_ok s -> image s src ms 1 -> image s dst md 1 ->
  sm_rows md = sm_rows ms -> sm_cols md = sm_cols ms -> sm_chan md = sm_chan ms ->
  sm_chan ms = 1 \/ sm_chan ms = 3 -> (forall i j c, in_image ms i j c -> pix s ms i j c = Some (v c)) ->
  sm_rows ms * sm_cols ms * 4 * sm_chan ms + 96 <= 2147483647 ->
  0 < kw < 2048 -> Z.odd kw = true -> 0 < kh < 2048 -> Z.odd kh = true -> exp_like exp_ -> good_sigma s1 -> good_sigma s2 ->
  exists s', hypercv_gaussian_blur exp_ src dst kw kh s1 s2 (mode_of x) e s = Ret tt s' /\ kept s md v s' /\ ~ no_leak s s'.
Proof.
  intros He Hs Is Id ER EC Ech Hch G Hsz Hw Ow Hh Oh Hx G1 G2.
  pose proof (im_rows _ _ _ _ Is). pose proof (im_cols _ _ _ _ Is). pose proof (im_chan _ _ _ _ Is).
  assert (sm_rows ms <= 536870887 /\ sm_cols ms <= 536870887) by (clear - H H0 H1 Hsz; nia).
  assert (0 <= kw / 2 <= kw /\ 0 <= kh / 2 <= kh) by (clear - Hw Hh; Z.div_mod_to_equations; lia).
  eapply (constant_run exp_ e s src dst ms md v kw kh s1 s2 (mode_of x)); eauto; try lia; [destruct x; reflexivity| |].
  - apply good_source; [lia|]. intros p Hp. unfold computable, INT_MIN, INT_MAX. destruct x; lia.
  - apply good_source; [lia|]. intros p Hp. unfold computable, INT_MIN, INT_MAX. destruct x; lia.
Qed.

Theorem blur_constant_border exp_ e s src dst ms md v kw kh s1 s2 :
  env_ok e -> heap_ok s -> image s src ms 1 -> image s dst md 1 ->
  sm_rows md = sm_rows ms -> sm_cols md = sm_cols ms -> sm_chan md = sm_chan ms ->
  sm_chan ms = 1 \/ sm_chan ms = 3 -> (forall i j c, in_image ms i j c -> pix s ms i j c = Some (v c)) ->
  sm_rows ms * sm_cols ms * 4 * sm_chan ms + 96 <= 2147483647 -> 2 <= sm_rows ms -> 2 <= sm_cols ms ->
  0 < kw < 2048 -> Z.odd kw = true -> 0 < kh < 2048 -> Z.odd kh = true -> exp_like exp_ -> good_sigma s1 -> good_sigma s2 ->
  exists s', hypercv_gaussian_blur exp_ src dst kw kh s1 s2 0 e s = Ret tt s' /\ kept s md v s' /\ ~ no_leak s s'.
Proof.
  intros He Hs Is Id ER EC Ech Hch G Hsz HR HC Hw Ow Hh Oh Hx G1 G2. pose proof (im_chan _ _ _ _ Is).
  assert (sm_rows ms <= 536870887 /\ sm_cols ms <= 536870887) by (clear - H HR HC Hsz; nia).
  assert (0 <= kw / 2 <= kw /\ 0 <= kh / 2 <= kh) by (clear - Hw Hh; Z.div_mod_to_equations; lia).
  eapply (constant_run exp_ e s src dst ms md v kw kh s1 s2 0); eauto; try lia; apply good_const; lia.
Qed.

(** Arbitrary images: the two passes with given kernels. *)
Theorem blur_exact e s src dst kx ky ms md mx my KX KY P x :
  env_ok e -> heap_ok s ->
  image s src ms 1 -> image s dst md 1 -> sm_rows md = sm_rows ms -> sm_cols md = sm_cols ms -> sm_chan md = sm_chan ms ->
  sm_chan ms = 1 \/ sm_chan ms = 3 -> colours s ms P ->
  sm_rows ms * sm_cols ms * 4 * sm_chan ms + 96 <= 2147483647 ->
  sm_at s kx = Some mx -> sm_at s ky = Some my -> 0 < sm_cols mx -> 0 < sm_cols my ->
  matrix s (sm_data mx) 4 1 (sm_cols mx) (fun _ => KX) -> matrix s (sm_data my) 4 1 (sm_cols my) (fun _ => KY) ->
  sm_data my <> sm_data md ->
  sm_cols ms + sm_cols mx <= 2147483647 -> sm_rows ms + sm_cols my <= 2147483647 ->
  exists s', hypercv_gaussian_blur_with_kernel src dst kx ky (mode_of x) e s = Ret tt s'
    /\ smoothed s md (smooth2 (sm_cols mx) (sm_cols my) KX KY (source_index x (sm_rows ms)) (source_index x (sm_cols ms)) P) s'
    /\ ~ no_leak s s'.
Proof.
  intros He Hs Is Id ER EC Ech Hch G Hsz Hx Hy Hkw Hkh MX MY Ny Ck Rk.
  pose proof (im_rows _ _ _ _ Is). pose proof (im_cols _ _ _ _ Is).
  assert (0 <= sm_cols mx / 2 <= sm_cols mx /\ 0 <= sm_cols my / 2 <= sm_cols my) by (clear - Hkw Hkh; Z.div_mod_to_equations; lia).
  eapply (blur_run e s src dst kx ky ms md mx my KX KY P (mode_of x)); eauto; [destruct x; reflexivity| |].
  - apply good_source; [lia|]. intros p Hp. unfold computable, INT_MIN, INT_MAX. destruct x; lia.
  - apply good_source; [lia|]. intros p Hp. unfold computable, INT_MIN, INT_MAX. destruct x; lia.
Qed.
