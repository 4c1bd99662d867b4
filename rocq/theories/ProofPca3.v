(** * Proofs: the whole of hyper_mat_pca, part 1: frames and single steps. *)
From Verif Require Import Base ModelFloat ModelDouble ModelCore ModelImage ModelMath ModelMatrix ModelEigen ModelSpectral ModelPca SpecBase SpecCore SpecImage SpecImage2 SpecNum SpecMatrix SpecStat SpecSpectral SpecEigen SpecCxx SpecPca SpecPca2
  Logic ProofCore ProofLayout ProofCore2 ProofHM ProofCopy ProofImage3 ProofWord ProofArr ProofGrid ProofFold ProofMatrix ProofInvert ProofFloat ProofFloat2 ProofFilter ProofCorr ProofFlip
  ProofMath ProofSpectral2 ProofPca ProofGrow ProofEigen ProofEigen4 ProofEigen5 ProofImage4.
From Coq Require Import Floats.SpecFloat ZifyBool ZifyNat Permutation.
Ltac Zify.zify_post_hook ::= Z.div_mod_to_equations.
Open Scope Z_scope.

Definition step (l : list ptr) (s s' : st) : Prop := grows s s' /\ unchanged_except l s s' /\ files s' = files s.
Lemma step_refl s : step [] s s. Proof. split; [apply grows_refl|]. split; [intros k _ _|]; reflexivity. Qed.
Lemma step_trans l1 l2 s s1 s2 : step l1 s s1 -> step l2 s1 s2 -> step (l1 ++ l2) s s2.
Proof.
  intros (G1 & U1 & F1) (G2 & U2 & F2). split; [eapply grows_trans; eauto|]. split; [|congruence].
  intros k Hk Hn. rewrite in_app_iff in Hn. destruct G1 as (L & _). rewrite U2 by (try lia; tauto). apply U1; tauto.
Qed.
Lemma step_weaken l l' s s' : incl l l' -> step l s s' -> step l' s s'.
Proof. intros H (G & U & F). split; [exact G|]. split; [|exact F]. intros k Hk Hn. apply U; auto. Qed.
Lemma step_nth l s s' k o : step l s s' -> ~ In (Some k) l -> nth_error (objs s) k = Some o -> nth_error (objs s') k = Some o.
Proof. intros (_ & U & _) Hn Ho. rewrite U; auto. apply nth_error_Some. congruence. Qed.
Lemma step_word l s s' p off k w : step l s s' -> ~ In p l -> word_at s p off (S k) = Some w -> word_at s' p off (S k) = Some w.
Proof.
  intros (_ & U & _) Hn W. destruct (word_isb s p off k w W) as (n & N & d & -> & I & A & B). pose proof (isb_lt _ _ _ _ I) as Lt.
  assert (I1 : isb s' n N d) by (unfold isb in *; rewrite (nth_bytes_at s s' n); auto).
  rewrite (word_at_isb s' n N d (S k) I1) by lia. rewrite <- W. rewrite (word_at_isb s n N d (S k) I) by lia. reflexivity.
Qed.
Lemma step_matrix l s s' p r c X : step l s s' -> ~ In p l -> matrix s p 4 r c X -> matrix s' p 4 r c X.
Proof. intros ST Hn H i j Hi Hj. apply (step_word l s s' p _ 3 _ ST Hn). exact (H i j Hi Hj). Qed.
Lemma step_heap l s s' : step l s s' -> heap_ok s -> heap_ok s'. Proof. intros ((_ & _ & H) & _). exact H. Qed.
Lemma step_len l s s' : step l s s' -> (List.length (objs s) <= List.length (objs s'))%nat. Proof. intros ((H & _) & _). exact H. Qed.
Lemma step_sm l s s' p m : step l s s' -> ~ In p l -> sm_at s p = Some m -> sm_at s' p = Some m.
Proof. intros (_ & U & _) Hn H. destruct p as [k|]; [|discriminate H]. unfold sm_at in *. rewrite U; auto. apply nth_error_Some. destruct (nth_error (objs s) k); congruence. Qed.
Lemma step_hm l s s' p m : step l s s' -> ~ In p l -> hm_at s p = Some m -> hm_at s' p = Some m.
Proof. intros (_ & U & _) Hn H. destruct p as [k|]; [|discriminate H]. unfold hm_at in *. rewrite U; auto. apply nth_error_Some. destruct (nth_error (objs s) k); congruence. Qed.
Lemma step_readable l s s' p n : step l s s' -> ~ In p l -> readable s p n -> readable s' p n.
Proof.
  intros (_ & U & _) Hn H. apply readable_isb in H as (q & N & d & -> & I & Hq). pose proof (isb_lt _ _ _ _ I) as Lt.
  eapply isb_readable; [|exact Hq]. unfold isb in *. rewrite (nth_bytes_at s s' q); [exact I|auto].
Qed.
Lemma only_step s p lo hi s' : grows s s' -> only_bytes s p lo hi s' -> step [p] s s'.
Proof. intros G (F & _ & U & _). split; [exact G|]. split; [exact U|exact F]. Qed.

(** A matrix of floats the library created at k. *)
Definition owned (e : env) (s : st) (k : nat) (R C : Z) : Prop :=
  nth_error (objs s) k = Some (mkObj (e_addr e k) (32 + (R * C * 4 * 1 + 64)) k true (CSM (mkSM R C 4 1 4 (Some (k + 1)%nat))))
  /\ exists o, nth_error (objs s) (k + 1) = Some o /\ meta o = (align64 (e_addr e k + 32), R * C * 4 * 1, k).
Lemma owned_new e s R C dd : owned e (newsm e s R C 4 4 1 dd) (List.length (objs s)) R C.
Proof. split; [apply newsm_nth0|]. eexists. split; [apply newsm_nth1|reflexivity]. Qed.
Lemma owned_step l e s s' k R C : step l s s' -> ~ In (Some k) l -> owned e s k R C -> owned e s' k R C.
Proof.
  intros ST Hn (H1 & o & H2 & H3). split; [exact (step_nth l s s' k _ ST Hn H1)|].
  destruct ST as ((_ & M & _) & _). destruct (M _ _ H2) as (o' & A & B). exists o'. split; [exact A|congruence].
Qed.
Lemma owned_sm e s k R C : owned e s k R C -> sm_at s (Some k) = Some (mkSM R C 4 1 4 (Some (k + 1)%nat)).
Proof. intros (H & _). unfold sm_at. now rewrite H. Qed.
Lemma owned_delete e s k R C : env_ok e -> e_addr e k mod 64 <> 48 -> owned e s k R C ->
  exists s', delete_simple_mat (Some k) e s = Ret tt s' /\ released [Some k] s s'.
Proof.
  intros He H48 (H1 & o & H2 & H3). destruct (He k) as [_ H16]. pose proof (align64_spec (e_addr e k + 32)) as A1.
  unfold meta in H3. injection H3 as A2 A3 A4.
  refine (delete_own_ok e s (Some k) (mkSM R C 4 1 4 (Some (k + 1)%nat)) _ _ H1 _ _); [|exact H16|exact H48].
  eexists _, o. split; [unfold sm_at; now rewrite H1|]. split; [exact H1|]. cbn [sm_data o_root o_live o_addr block]. split; [exact H2|].
  repeat (split; [congruence|]). rewrite A2. lia.
Qed.
Lemma owned_released e s s' k R C k' : k <> k' -> owned e s k R C -> released [Some k'] s s' -> owned e s' k R C.
Proof.
  intros N (H1 & o & H2 & H3) (_ & _ & RL). split.
  - specialize (RL _ _ H1). destruct (in_dec _ _ _) as [Hin|Hin] in RL; [|exact RL]. cbn in Hin. destruct Hin as [Q|[]]. congruence.
  - specialize (RL _ _ H2). destruct (in_dec _ _ _) as [Hin|Hin] in RL; [|eauto]. cbn in Hin. unfold meta in H3. injection H3 as _ _ A4. destruct Hin as [Q|[]]. congruence.
Qed.

Lemma newsm_step e s R C dd : env_ok e -> heap_ok s -> step [] s (newsm e s R C 4 4 1 dd).
Proof.
  intros He Hs. split; [|split; [intros k Hk _; now apply newsm_old_unchanged|reflexivity]].
  split; [unfold newsm; cbn [objs]; rewrite app_length; lia|]. split; [|intros _; now apply newsm_heap_ok].
  intros k o Hk. exists o. split; [|reflexivity]. rewrite newsm_old_unchanged; auto. apply nth_error_Some. congruence.
Qed.
Lemma newsm_length e s R C ty es ch dd : List.length (objs (newsm e s R C ty es ch dd)) = (List.length (objs s) + 2)%nat.
Proof. unfold newsm; cbn [objs]. rewrite app_length. reflexivity. Qed.
Lemma newsm_zero e s R C dd : 0 < R -> 0 < C -> (forall i, 0 <= i < R * C * 4 -> dd i mod 256 = 0) ->
  matrix (newsm e s R C 4 4 1 dd) (Some (List.length (objs s) + 1)%nat) 4 R C (fun _ _ => 0).
Proof.
  intros HR HC H i j Hi Hj. pose proof (cell_range R C i j Hi Hj) as Hc.
  change (Z.to_nat 4) with 4%nat. rewrite (word_at_isb _ _ _ _ 4 (newsm_data e s R C 4 4 1 dd)) by lia. f_equal.
  cbn [word]. rewrite !H by lia. reflexivity.
Qed.
Lemma create_step e s R C : env_ok e -> heap_ok s -> 0 < R -> 0 < C -> R * C * 4 + 96 <= 2147483647 ->
  exists s', create_simple_mat R C 4 1 e s = Ret (Some (List.length (objs s))) s' /\ step [] s s' /\ owned e s' (List.length (objs s)) R C
    /\ List.length (objs s') = (List.length (objs s) + 2)%nat /\ matrix s' (Some (List.length (objs s) + 1)%nat) 4 R C (fun _ _ => 0).
Proof.
  intros He Hs HR HC HS. destruct (create_sm_run e s R C 4 4 1 He Hs eq_refl HR HC ltac:(lia) ltac:(lia)) as (dd & E & Z & _).
  eexists. split; [exact E|]. split; [now apply newsm_step|]. split; [apply owned_new|]. split; [apply newsm_length|]. now apply newsm_zero.
Qed.
Lemma matrix_readable s p r c X : 0 < r -> 0 < c -> matrix s p 4 r c X -> readable s p (r * c * 4).
Proof.
  intros Hr Hc H. destruct (matrix_arr s p 4 r c X ltac:(lia) Hr Hc H) as (q & -> & A).
  destruct (word_isb s (Some q) ((((r - 1) * c + (c - 1)) * 4)) 3 _ (H (r - 1) (c - 1) ltac:(lia) ltac:(lia))) as (q' & N & d & [= <-] & I & B1 & B2).
  eapply isb_readable; [exact I|]. change (Z.of_nat 4) with 4 in B2. replace (r * c * 4) with (((r - 1) * c + (c - 1)) * 4 + 4) by ring. exact B2.
Qed.
Lemma owned_image e s k R C X : 0 < R -> 0 < C -> R * C * 4 + 96 <= 2147483647 -> owned e s k R C -> matrix s (Some (k + 1)%nat) 4 R C X ->
  image s (Some k) (mkSM R C 4 1 4 (Some (k + 1)%nat)) 4.
Proof.
  intros HR HC HS O MX. split; cbn [sm_rows sm_cols sm_type sm_chan sm_data]; auto; try lia; try reflexivity.
  - now apply owned_sm in O.
  - replace (R * C * 4 * 1) with (R * C * 4) by ring. eapply matrix_readable; eauto.
Qed.
Lemma copy_step e s k R C X : env_ok e -> heap_ok s -> 0 < R -> 0 < C -> R * C * 4 + 96 <= 2147483647 -> owned e s k R C -> matrix s (Some (k + 1)%nat) 4 R C X ->
  exists s', simple_mat_copy (Some k) e s = Ret (Some (List.length (objs s))) s' /\ step [] s s' /\ owned e s' (List.length (objs s)) R C
    /\ List.length (objs s') = (List.length (objs s) + 2)%nat /\ matrix s' (Some (List.length (objs s) + 1)%nat) 4 R C X.
Proof.
  intros He Hs HR HC HS O MX. destruct (copy_sm_run e s _ _ 4 He Hs (owned_image e s k R C X HR HC HS O MX)) as (dd & E & Z).
  cbn [sm_rows sm_cols sm_type sm_chan sm_data] in E, Z.
  eexists. split; [exact E|]. split; [now apply newsm_step|]. split; [apply owned_new|]. split; [apply newsm_length|].
  intros i j Hi Hj. pose proof (cell_range R C i j Hi Hj) as Hc. rewrite <- (MX i j Hi Hj). apply word_at_ext. intros t Ht. rewrite <- Z by lia.
  eapply byte_at_isb; [apply newsm_data|lia].
Qed.
Lemma reshape_step e s p m X : env_ok e -> heap_ok s -> cube s p m BIP 4 -> hm_type m = 4 ->
  hm_samples m * hm_lines m * hm_bands m * 4 + 96 <= 2147483647 -> matrix s (hm_data m) 4 (hm_samples m * hm_lines m) (hm_bands m) X ->
  exists s', reshape_hypermat_2_simplemat p (hm_samples m * hm_lines m) (hm_bands m) e s = Ret (Some (List.length (objs s))) s'
    /\ step [] s s' /\ owned e s' (List.length (objs s)) (hm_samples m * hm_lines m) (hm_bands m)
    /\ List.length (objs s') = (List.length (objs s) + 2)%nat /\ matrix s' (Some (List.length (objs s) + 1)%nat) 4 (hm_samples m * hm_lines m) (hm_bands m) X.
Proof.
  intros He Hs [Hh Ht Hp Hty HS HL HB Hsz Hws Hd Hw] T4 Hn MX. rewrite T4 in *.
  set (S := hm_samples m) in *. set (L := hm_lines m) in *. set (B := hm_bands m) in *.
  assert (P : 0 < S * L) by (apply Z.mul_pos_pos; lia). assert (P1 : S * L <= S * L * B) by (clear - P HB; nia).
  apply readable_isb in Hd as (q & sz & f & Eq & Hq & Hnq).
  unfold reshape_hypermat_2_simplemat. runs (hget_ok _ _ e _ Hh). fold S L B. rewrite T4.
  erewrite bind_ret; [|apply ev_ok; unfold ci; rewrite (cmul_ok S L) by lia; apply cmul_ok; lia].
  erewrite bind_ret; [|apply ev_ok; apply cmul_ok; lia].
  rewrite bind_assert by lia.
  destruct (create_sm_run e s (S * L) B 4 4 1) as (dd & E & _); auto; try lia.
  runs E. set (k := List.length (objs s)).
  pose proof (newsm_at e s (S * L) B 4 4 1 dd) as N1.
  pose proof (newsm_data e s (S * L) B 4 4 1 dd) as N2. fold k in N1, N2.
  runs (sget_ok _ _ e _ N1). cbn [newsm_hdr sm_esize sm_data]. fold k.
  erewrite bind_ret; [|apply ev_ok; unfold ci; rewrite (cmul_ok (S * L) B) by lia; apply cmul_ok; lia].
  rewrite Eq.
  erewrite bind_ret; [|apply (memcpy_ok e _ (k + 1) (S * L * B * 4 * 1) dd q sz f); auto; try lia;
     [apply newsm_old; auto | eapply isb_old_ne; eauto]].
  unfold k at 1. rewrite newsm_putd. fold k.
  eexists. split; [reflexivity|]. split; [now apply newsm_step|]. split; [apply owned_new|]. split; [apply newsm_length|].
  intros i j Hi Hj. pose proof (cell_range (S * L) B i j Hi Hj) as Hc. rewrite <- (MX i j Hi Hj). apply word_at_ext. intros t Htt.
  rewrite Eq, (byte_at_isb _ _ _ _ _ Hq) by (change (Z.of_nat 4) with 4 in Htt; lia).
  rewrite (byte_at_isb _ _ _ _ _ (newsm_data e s (S * L) B 4 4 1 _)) by (change (Z.of_nat 4) with 4 in Htt; lia). do 2 f_equal.
  change (Z.of_nat 4) with 4 in Htt. replace ((0 <=? (i * B + j) * 4 + t) && ((i * B + j) * 4 + t <? 0 + S * L * B * 4)) with true by lia. f_equal. lia.
Qed.

Lemma foldz_in {T} n f g (a : T) : 0 <= n -> (forall x i, 0 <= i < n -> f x i = g x i) -> foldz n f a = foldz n g a.
Proof. intros Hn H. now apply foldz_ext. Qed.
Lemma sum_in n v w : 0 <= n -> (forall i, 0 <= i < n -> v i = w i) -> float_sum n v = float_sum n w.
Proof. intros Hn H. unfold float_sum. apply foldz_in; auto. intros x i Hi. now rewrite H. Qed.
Lemma norm_in n v w : 0 <= n -> (forall i, 0 <= i < n -> v i = w i) -> float_norm n v = float_norm n w.
Proof. intros Hn H. unfold float_norm, float_dot. do 3 f_equal. apply sum_in; auto. intros i Hi. now rewrite H. Qed.

(** ** The mean of the pixels *)
Lemma mean_step e s p m k X : heap_ok s -> cube s p m BIP 4 -> owned e s k (hm_lines m) (hm_samples m) -> 
  matrix s (Some (k + 1)%nat) 4 (hm_lines m) (hm_samples m) (fun _ _ => 0) -> hm_data m <> Some (k + 1)%nat ->
  matrix s (hm_data m) 4 (hm_samples m * hm_lines m) (hm_bands m) X ->
  exists s', hyper_mat_mean p (Some k) e s = Ret tt s' /\ step [Some (k + 1)%nat] s s'
    /\ matrix s' (Some (k + 1)%nat) 4 1 (hm_samples m * hm_lines m) (fun _ => fun t => bits_of_fl (float_average (hm_bands m) (fun k => fl_of_bits (X t k)))).
Proof.
  intros Hs CU O MZ N MX. pose proof (cube_S _ _ _ _ _ CU) as HS. pose proof (cube_L _ _ _ _ _ CU) as HL. pose proof (cube_B _ _ _ _ _ CU) as HB.
  destruct (cube_mean_exact e s p m (Some k) _ CU (owned_sm _ _ _ _ _ O) eq_refl eq_refl eq_refl (matrix_readable _ _ _ _ _ HL HS MZ) ltac:(cbn; congruence)) as (s' & E & PP & (U & SB)).
  exists s'. split; [exact E|]. split.
  - split; [|split; [exact U|]].
    + assert (MM : mp (hyper_mat_mean p (Some k))) by (unfold hyper_mat_mean; repeat first [apply mp_average|progress mps]; intros ? ? ? ? H; unfold il_cmp, cmpstr in H;
        repeat match type of H with match ?x with _ => _ end = _ => destruct x; try discriminate end; try (injection H as _ <-); try apply grows_refl). eapply MM; eauto.
    + apply SB.
  - intros z t Hz Ht. set (S := hm_samples m) in *. set (L := hm_lines m) in *. set (B := hm_bands m) in *.
    assert (Hi : 0 <= t / S < L) by (split; [apply Z.div_pos; lia|apply Z.div_lt_upper_bound; lia]). assert (Hj : 0 <= t mod S < S) by (apply Z.mod_pos_bound; lia).
    destruct (PP (t / S) (t mod S) Hi Hj) as (W & HW & HV). cbn [sm_cols sm_data] in HV. fold S in HV.
    assert (Et : t / S * S + t mod S = t) by (pose proof (Z.div_mod t S ltac:(lia)); lia). rewrite Et in HV.
    replace ((z * (S * L) + t) * 4) with (t * 4) by (assert (z = 0) by lia; subst; lia). change (Z.to_nat 4) with 4%nat. rewrite HV. do 2 f_equal.
    unfold float_average. f_equal. apply sum_in; [lia|]. intros b Hb. f_equal. specialize (HW b Hb). unfold sample_word, offset in HW. fold S L B in HW. rewrite Et in HW.
    specialize (MX t b Ht Hb). fold B in MX. rewrite MX in HW. injection HW as <-. reflexivity.
Qed.

(** ** The turns *)
Definition floats (s : st) (p : ptr) (m : Z) (T : Z -> Z -> sf) : Prop := exists A, matrix s p 4 m m A /\ forall i j, 0 <= i < m -> 0 <= j < m -> fl_of_bits (A i j) = T i j.
Lemma floats_at s p m T : (forall i j, 0 <= i < m -> 0 <= j < m -> float_at s p (i * m + j) (T i j)) -> floats s p m T.
Proof.
  intros H. exists (fun i j => match word_at s p ((i * m + j) * 4) 4 with Some w => w | None => 0 end). split.
  - intros i j Hi Hj. destruct (H i j Hi Hj) as (w & W & _). change (Z.to_nat 4) with 4%nat. now rewrite W.
  - intros i j Hi Hj. destruct (H i j Hi Hj) as (w & W & F). now rewrite W.
Qed.
Definition low_zero (s : st) (p : ptr) (m : Z) : Prop := forall i j, 0 <= i < m -> 0 <= j < m -> j < i -> word_at s p ((i * m + j) * 4) 4 = Some 0.
Lemma floats_step l s s' p m T : step l s s' -> ~ In p l -> floats s p m T -> floats s' p m T.
Proof. intros ST N (A & MA & F). exists A. split; [|exact F]. eapply step_matrix; eauto. Qed.

Lemma turn_step e s a q r m T : heap_ok s -> 0 < m -> m * m <= 2147483647 -> a <> q -> a <> r -> q <> r ->
  floats s a m T -> readable s q (m * m * 4) -> readable s r (m * m * 4) -> low_zero s r m ->
  exists s', (matrix_QR_float a q r m ;;; MulMatrix_float q r a m m m) e s = Ret tt s'
    /\ step [a; q; r] s s' /\ floats s' a m (pca_turn m T) /\ readable s' q (m * m * 4) /\ readable s' r (m * m * 4) /\ low_zero s' r m.
Proof.
  intros Hs Hm B N1 N2 N3 (A & MA & FA) RQ RR LZ.
  destruct (qr_run e s a q r m A Hs Hm B N1 N2 N3 MA RQ RR) as (s1 & E1 & MA1 & V & F1 & U1 & _ & _).
  assert (S1 : step [q; r] s s1) by (split; [eapply mp_qr; eauto|split; auto]).
  rewrite (bind_ret _ _ _ _ _ _ E1).
  assert (ES : forall j, 0 <= j < m -> float_sum m (column A j) = float_sum m (fun i => T i j)).
  { intros j Hj. apply sum_in; [lia|]. intros i Hi. now apply FA. }
  assert (EC : forall i j, 0 <= i < m -> 0 <= j < m -> lowered j (float_sum m (column A j)) (column A j i) = qr_col m T j i).
  { intros i j Hi Hj. unfold qr_col. rewrite ES by auto. unfold column. now rewrite FA by auto. }
  assert (EN : forall j, 0 <= j < m -> float_norm m (fun i => lowered j (float_sum m (column A j)) (column A j i)) = float_norm m (qr_col m T j)).
  { intros j Hj. apply norm_in; [lia|]. intros i Hi. now apply EC. }
  assert (FQ : floats s1 q m (qr_q m T)).
  { apply floats_at. intros i j Hi Hj. destruct (V i j Hi Hj) as (VQ & _). cbv zeta in VQ. rewrite EC, EN in VQ by auto. exact VQ. }
  assert (LZ1 : low_zero s1 r m).
  { intros i j Hi Hj Hji. destruct (V i j Hi Hj) as (_ & _ & _ & VL). rewrite VL by auto. auto. }
  assert (FR : floats s1 r m (qr_r m T)).
  { apply floats_at. intros i j Hi Hj. destruct (V i j Hi Hj) as (_ & VU & VD & _). cbv zeta in VU, VD. unfold qr_r.
    destruct (Z.ltb_spec i j) as [H|H]; [rewrite <- ES by auto; auto|]. destruct (Z.eqb_spec i j) as [H'|H']; [rewrite <- EN by auto; auto|].
    exists 0. split; [apply LZ1; auto; lia|reflexivity]. }
  destruct FQ as (Q & MQ & FQ). destruct FR as (R & MR & FR).
  destruct (mul_float e s1 q r a m m m Q R A ltac:(lia) ltac:(lia) ltac:(lia) B B B MQ MR MA1 ltac:(congruence) ltac:(congruence)) as (s2 & W & E2 & MW & FW & O2).
  exists s2. split; [exact E2|].
  assert (S2 : step [a] s1 s2) by (eapply only_step; [eapply mp_mul; exact E2|exact O2]).
  assert (NQ : ~ In q [a]) by (cbn; intros [Q0|[]]; congruence). assert (NR : ~ In r [a]) by (cbn; intros [Q0|[]]; congruence).
  split; [|split; [|split; [|split]]].
  - eapply step_weaken; [|eapply step_trans; [exact S1|exact S2]]. intros x. cbn. tauto.
  - exists W. split; [exact MW|]. intros i j Hi Hj. rewrite FW by auto. unfold pca_turn. rewrite (FA i j Hi Hj). apply foldz_in; [lia|].
    intros x t Ht. now rewrite FQ, FR by auto.
  - eapply step_readable; eauto. eapply matrix_readable; eauto.
  - eapply step_readable; eauto. eapply matrix_readable; eauto.
  - intros i j Hi Hj Hji. eapply (step_word _ s1 s2 _ _ 3); eauto.
Qed.
Lemma turns_step e s a q r m T it : heap_ok s -> 0 < m -> m * m <= 2147483647 -> a <> q -> a <> r -> q <> r ->
  floats s a m T -> readable s q (m * m * 4) -> readable s r (m * m * 4) -> low_zero s r m ->
  exists s', for_ 0 it (fun _ => matrix_QR_float a q r m ;;; MulMatrix_float q r a m m m) e s = Ret tt s'
    /\ step [a; q; r] s s' /\ floats s' a m (pca_turns m (Z.to_nat it) T) /\ readable s' q (m * m * 4).
Proof.
  intros Hs Hm B N1 N2 N3 FA RQ RR LZ.
  pose (I := fun (k : Z) s1 => step [a; q; r] s s1 /\ floats s1 a m (pca_turns m (Z.to_nat k) T) /\ readable s1 q (m * m * 4) /\ readable s1 r (m * m * 4) /\ low_zero s1 r m).
  assert (I0 : I 0 s).
  { split; [eapply step_weaken; [|apply step_refl]; intros x []|]. auto. }
  destruct (Z_lt_le_dec 0 it) as [Hit|Hit].
  - destruct (for_inv e 0 it (fun _ => matrix_QR_float a q r m ;;; MulMatrix_float q r a m m m) I s) as (s' & E & ST & FT & RQ' & _); [lia|exact I0| |exists s'; auto].
    intros k s1 Hk (ST & FT & RQ1 & RR1 & LZ1). destruct (turn_step e s1 a q r m _ (step_heap _ _ _ ST Hs) Hm B N1 N2 N3 FT RQ1 RR1 LZ1) as (s2 & E2 & S2 & F2 & R2 & R2' & L2).
    exists s2. split; [exact E2|]. split; [eapply step_weaken; [|eapply step_trans; [exact ST|exact S2]]; intros x; cbn; tauto|].
    replace (Z.to_nat (k + 1)) with (S (Z.to_nat k)) by lia. auto.
  - exists s. unfold for_. replace (Z.to_nat (it - 0)) with O by lia. split; [reflexivity|]. replace (Z.to_nat it) with O by lia. destruct I0 as (ST & FT & _). auto.
Qed.

(** ** The values *)
Lemma values_step e s a m T : heap_ok s -> 0 < m -> m * m <= 2147483647 -> floats s a m T ->
  exists s' L, (exists s1 s2, malloc (u64 (m * 4)) e s = Ret (Some (List.length (objs s))) s1
     /\ for_ 0 m (fun k => d <- ev (k * m + k)%C ;; v <- loadf a d ;; storef (Some (List.length (objs s))) k v) e s1 = Ret tt s2
     /\ sort_array_down_float (Some (List.length (objs s))) m e s2 = Ret tt s')
    /\ step [] s s' /\ (forall k, 0 <= k < m -> word_at s' (Some (List.length (objs s))) (k * 4) 4 = Some (L k))
    /\ Permutation (listed m (fun k => T k k)) (listed m (fun k => fl_of_bits (L k)))
    /\ ((forall k, 0 <= k < m -> T k k <> S754_nan) -> forall i j, 0 <= i < j -> j < m -> sf_le (fl_of_bits (L j)) (fl_of_bits (L i)))
    /\ (List.length (objs s) < List.length (objs s'))%nat.
Proof.
  intros Hs Hm B (A & MA & FA). assert (Bm : m <= 2147483647) by (clear - B Hm; nia).
  assert (U : u64 (m * 4) = m * 4) by (unfold u64; rewrite Z.mod_small; lia). rewrite U. clear U.
  set (k := List.length (objs s)).
  set (s1 := mkSt (objs s ++ [mkObj (e_addr e k) (m * 4) k true (CBytes (e_junk e k))]) (files s)).
  assert (E1 : malloc (m * 4) e s = Ret (Some k) s1).
  { unfold malloc. replace ((0 <=? m * 4) && (m * 4 <? 2 ^ 62)) with true; [reflexivity|]. change (2 ^ 62) with 4611686018427387904. lia. }
  assert (S1 : step [] s s1).
  { split; [eapply mp_malloc; eauto|]. split; [|reflexivity]. intros i Hi _. unfold s1; cbn [objs]. now rewrite nth_error_app1. }
  assert (I1 : isb s1 k (m * 4) (e_junk e k)).
  { eapply obj_isb. unfold s1; cbn [objs]. rewrite nth_error_app2 by (unfold k; lia). unfold k. rewrite Nat.sub_diag. reflexivity. }
  assert (MA1 : matrix s1 a 4 m m A) by (eapply step_matrix; eauto).
  destruct (matrix_arr s1 a 4 m m A ltac:(lia) Hm Hm MA1) as (qa & -> & Aa).
  assert (Nk : k <> qa).
  { intros <-. destruct (word_isb s (Some k) ((0 * m + 0) * 4) 3 _ (MA 0 0 ltac:(lia) ltac:(lia))) as (q' & N & d & [= <-] & I & _). apply isb_lt in I. unfold k in I. lia. }
  pose proof (arr_of s1 k _ _ 0 4 m I1 ltac:(lia) ltac:(lia) ltac:(lia)) as A1.
  match type of A1 with arr _ _ _ _ _ ?g => set (g0 := g) in A1 end.
  pose (I := fun (c : Z) s2 => inside s1 k 0 (4 * m) s2 /\ arr s2 k 0 4 m (fun t => if t <? c then fl_word (T t t) else g0 t)).
  assert (RA : forall i j, 0 <= i < m -> 0 <= j < m -> 0 <= A i j < 4294967296).
  { intros i j Hi Hj. pose proof (matrix_range s (Some qa) 4 m m A i j ltac:(lia) MA Hi Hj) as R. change (256 ^ 4) with 4294967296 in R. exact R. }
  destruct (for_inv e 0 m (fun k0 => d <- ev (k0 * m + k0)%C ;; v <- loadf (Some qa) d ;; storef (Some k) k0 v) I s1) as (s2 & E2 & IN2 & A2); [lia| | |].
  { split; [eapply inside_refl; eauto|]. eapply arr_ext; [|exact A1]. intros i Hi. now replace (i <? 0) with false by lia. }
  { intros c s2 Hc (IN & Ac). pose proof (cell_range m m c c Hc Hc) as Hcc.
    rewrite (bind_ret _ _ e s2 (c * m + c) s2).
    2:{ assert (0 <= c * m) by (apply Z.mul_nonneg_nonneg; lia). unfold ci. rewrite cmul_ok by lia. rewrite cadd_ok by lia. reflexivity. }
    assert (Aa2 : arr s2 qa 0 4 (m * m) (fun t => A (t / m) (t mod m))) by (eapply arr_inside; [exact IN|exact Aa|auto]).
    rewrite (bind_ret _ _ _ _ _ _ (loadf_arr e s2 qa (m * m) _ _ Aa2 Hcc)). cbv beta. rewrite cell_div, cell_mod by lia. rewrite FA by auto.
    destruct (storef_arr e s2 k m _ c (T c c) Ac Hc) as (s3 & E3 & A3 & I3).
    exists s3. split; [exact E3|]. split.
    { eapply inside_trans; [exact IN|]. replace (4 * m) with (m * 4) by ring. exact I3. }
    eapply arr_ext; [|exact A3]. intros t Ht. unfold fupd. destruct (Z.eqb_spec t c) as [->|Ne].
    - now replace (c <? c + 1) with true by lia.
    - now replace (t <? c + 1) with (t <? c) by lia. }
  assert (A2' : arr s2 k 0 4 m (fun t => fl_word (T t t))) by (eapply arr_ext; [|exact A2]; intros t Ht; cbv beta; now replace (t <? m) with true by lia).
  destruct (sort_ok e m ltac:(lia) k s2 _ A2' ltac:(lia)) as (s3 & L & E3 & A3 & IN3 & P & SO).
  exists s3, L. split; [exists s1, s2; auto|].
  assert (OK : forall i, 0 <= i < m -> fl_of_bits (fl_word (T i i)) = T i i).
  { intros i Hi. apply fl_word_back. rewrite <- FA by auto. now apply fl_of_bits_ok, RA. }
  assert (ST : step [Some k] s1 s3).
  { split; [eapply grows_trans; [eapply (mp_for 0 m); [|exact E2]; intros; mps|eapply mp_sort; eauto]|].
    pose proof (inside_only _ _ _ _ _ IN2) as (F2 & _ & U2 & _). pose proof (inside_only _ _ _ _ _ IN3) as (F3 & L3 & U3 & _).
    split; [|congruence]. intros i Hi Hn. rewrite U3 by (auto; destruct IN2 as (? & ? & ? & _ & -> & _); rewrite putd_length; auto). auto. }
  split.
  { pose proof (step_trans _ _ _ _ _ S1 ST) as (G & UU & FF). split; [exact G|]. split; [|exact FF]. intros i Hi _. apply UU; auto. cbn. intros [Q|[]]. injection Q as Q. unfold k in Q. lia. }
  split.
  { intros i Hi. destruct (matrix_arr s3 (Some k) 4 1 m (fun _ => L) ltac:(lia) ltac:(lia) Hm) as (q & [= <-] & _).
    - apply arr_matrix. rewrite Z.mul_1_l. eapply arr_ext; [|exact A3]. intros t Ht. cbv beta. now rewrite Z.mod_small by lia.
    - assert (MM : matrix s3 (Some k) 4 1 m (fun _ => L)). { apply arr_matrix. rewrite Z.mul_1_l. eapply arr_ext; [|exact A3]. intros t Ht. cbv beta. now rewrite Z.mod_small by lia. }
      specialize (MM 0 i ltac:(lia) Hi). rewrite Z.mul_0_l, Z.add_0_l in MM. exact MM. }
  split; [|split].
  - apply (Permutation_map fl_of_bits) in P. unfold tab in P. rewrite !map_map in P. unfold listed.
    replace (map (fun k0 : nat => T (Z.of_nat k0) (Z.of_nat k0)) (seq 0 (Z.to_nat m))) with (map (fun x : nat => fl_of_bits (fl_word (T (Z.of_nat x) (Z.of_nat x)))) (seq 0 (Z.to_nat m))); [exact P|].
    apply map_ext_in. intros i Hi. apply in_seq in Hi. apply OK. lia.
  - intros HN i j Hi Hj. apply SO; auto. intros t Ht. cbv beta. rewrite OK by auto. specialize (HN t Ht). destruct (T t t); try exact Logic.I; congruence.
  - pose proof (step_len _ _ _ S1). pose proof (step_len _ _ _ ST). unfold s1 in *. cbn [objs] in *. rewrite app_length in *. cbn in *. lia.
Qed.
