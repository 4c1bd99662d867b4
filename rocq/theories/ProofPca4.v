(** * Proofs: the whole of hyper_mat_pca, part 2. *)
From Verif Require Import Base ModelFloat ModelDouble ModelCore ModelImage ModelMath ModelMatrix ModelEigen ModelSpectral ModelPca SpecBase SpecCore SpecImage SpecImage2 SpecNum SpecMatrix SpecStat SpecSpectral SpecEigen SpecCxx SpecPca SpecPca2
  Logic ProofCore ProofLayout ProofCore2 ProofHM ProofCopy ProofImage3 ProofWord ProofArr ProofGrid ProofFold ProofMatrix ProofInvert ProofFloat ProofFloat2 ProofFilter ProofCorr ProofFlip
  ProofMath ProofSpectral2 ProofPca ProofGrow ProofEigen ProofEigen4 ProofEigen5 ProofImage4 ProofPca3.
From Coq Require Import Floats.SpecFloat ZifyBool ZifyNat Permutation.
Ltac Zify.zify_post_hook ::= Z.div_mod_to_equations.
Open Scope Z_scope.

Lemma putc_same s p m : hm_at s (Some p) = Some m -> putc s p (CHM m) = s.
Proof.
  unfold hm_at. destruct (nth_error (objs s) p) as [o|] eqn:E; [|discriminate]. destruct (o_live o) eqn:EL; [|discriminate]. destruct (o_cont o) eqn:EC; try discriminate.
  intros H. injection H as ->. unfold putc. destruct s as [os fs]. cbn [objs files] in *. f_equal. revert p E. induction os as [|x os IH]; intros [|p] E; cbn in *; auto; try discriminate.
  - injection E as ->. destruct o. cbn in *. subst. reflexivity.
  - now rewrite IH.
Qed.

Ltac notin := cbn [In app]; let Q := fresh in intros Q; repeat (destruct Q as [Q|Q]; [try congruence; injection Q as Q; lia|]); try exact Q.

Lemma step_old l s s' : step l s s' -> (forall k, In (Some k) l -> (List.length (objs s) <= k)%nat) -> old_unchanged s s'.
Proof. intros (_ & U & _) H k Hk. apply U; auto. intros Q. specialize (H k Q). lia. Qed.
Ltac oldl := cbn [In app]; let k := fresh in let Q := fresh in intros k Q; repeat (destruct Q as [Q|Q]; [injection Q as <-; lia|]); destruct Q.

Lemma delete_keeps k s1 s' n : (n <= k)%nat -> released [Some k] s1 s' -> (forall i o, (i < n)%nat -> nth_error (objs s1) i = Some o -> (o_root o < n)%nat) ->
  (forall i o, (i < n)%nat -> nth_error (objs s1) i = Some o -> nth_error (objs s') i = Some o) /\ files s' = files s1 /\ (forall i o, (i < n)%nat -> nth_error (objs s') i = Some o -> (o_root o < n)%nat).
Proof.
  intros Hk (HL & F & RL) H.
  assert (K : forall i o, (i < n)%nat -> nth_error (objs s1) i = Some o -> nth_error (objs s') i = Some o).
  { intros i o Hi Ho. specialize (H i o Hi Ho). specialize (RL i o Ho). destruct (in_dec _ _ _) as [Hin|Hin] in RL; [|exact RL]. destruct Hin as [Q|[]]. injection Q as Q. lia. }
  split; [exact K|]. split; [exact F|]. intros i o Hi Ho. 
  destruct (nth_error (objs s1) i) as [o1|] eqn:E1.
  - rewrite (K i o1 Hi E1) in Ho. injection Ho as <-. eauto.
  - apply nth_error_None in E1. assert (nth_error (objs s') i <> None) by congruence. apply nth_error_Some in H0. lia.
Qed.

Lemma delete_other k s1 s' i o : released [Some k] s1 s' -> nth_error (objs s1) i = Some o -> o_root o <> k -> nth_error (objs s') i = Some o.
Proof. intros (_ & _ & RL) Ho Hk. specialize (RL i o Ho). destruct (in_dec _ _ _) as [Hin|Hin] in RL; [|exact RL]. destruct Hin as [Q|[]]. injection Q as Q. congruence. Qed.
(** A block from malloc that can be read later is still alive and its own root. *)
Lemma malloc_root n e s k s1 s' w off : malloc n e s = Ret (Some k) s1 -> grows s1 s' -> word_at s' (Some k) off 4 = Some w ->
  exists o, nth_error (objs s') k = Some o /\ o_live o = true /\ o_root o = k.
Proof.
  unfold malloc. destruct ((0 <=? n) && (n <? 2 ^ 62)); [|discriminate]. intros H. injection H as <- <-. intros (_ & G & _) W.
  destruct (G (List.length (objs s)) (mkObj (e_addr e (List.length (objs s))) n (List.length (objs s)) true (CBytes (e_junk e (List.length (objs s)))))) as (o & Ho & Mo).
  { cbn [objs]. rewrite nth_error_app2 by lia. now rewrite Nat.sub_diag. }
  exists o. split; [exact Ho|]. split; [|unfold meta in Mo; cbn in Mo; congruence].
  destruct (word_isb _ _ _ _ _ W) as (q & N & d & Eq & I & _). injection Eq as <-. unfold isb, bytes_at in I. rewrite Ho in I. destruct (o_live o); [reflexivity|discriminate I].
Qed.

Theorem pca_whole : forall e s p m r mr it X W, env_ok e -> (forall k, e_addr e k mod 64 <> 48) -> heap_ok s ->
  cube s p m BIP 4 -> hm_type m = 4 -> hm_at s r = Some mr ->
  hm_samples m * hm_lines m * hm_bands m * 4 + 96 <= 2147483647 -> hm_bands m * hm_bands m * 4 + 96 <= 2147483647 ->
  matrix s (hm_data m) 4 (hm_samples m * hm_lines m) (hm_bands m) X -> matrix s (hm_data mr) 4 (hm_samples m * hm_lines m) (hm_bands m) W ->
  let n := hm_samples m * hm_lines m in let b := hm_bands m in let Mn := pixel_mean b X in
  exists s' C L V, hyper_mat_pca p r it e s = Ret tt s'
    /\ (forall i j, 0 <= i < b -> 0 <= j < b -> C i j = cov_sum n X Mn 0 i j)
    /\ Permutation (listed b (fun k => pca_turns b (Z.to_nat it) C k k)) (listed b L)
    /\ ((forall k, 0 <= k < b -> pca_turns b (Z.to_nat it) C k k <> S754_nan) -> forall i j, 0 <= i < j -> j < b -> sf_le (L j) (L i))
    /\ matrix s' (hm_data mr) 4 n b V
    /\ (forall t k, 0 <= t < n -> 0 <= k < b -> fl_of_bits (V t k)
          = foldz b (fun a j => fl_add a (fl_mul (float_minus (X t j) (Mn t)) (unit_vector b C (L k) j))) (fl_of_bits (W t k)))
    /\ unchanged_except [hm_data mr] s s' /\ files s' = files s /\ ~ no_leak s s'.
Proof.
  intros e s p m r mr it X W He H48 Hs CU T4 Hr SZ1 SZ2 MX MW n b Mn.
  pose proof (cube_S _ _ _ _ _ CU) as HS. pose proof (cube_L _ _ _ _ _ CU) as HL. pose proof (cube_B _ _ _ _ _ CU) as HB. pose proof (cube_hdr _ _ _ _ _ CU) as Hp.
  fold b in HB, MX, MW, SZ1, SZ2. fold n in MX, MW, SZ1.
  assert (Hn : 0 < n) by (apply Z.mul_pos_pos; lia). assert (Hnb : n <= n * b) by (clear - Hn HB; nia). assert (Hbb : b <= b * b) by (clear - HB; nia).
  unfold hyper_mat_pca. runs (hget_ok _ _ e _ Hp). destruct p as [p|]; [|discriminate Hp].
  assert (EH : set_header (Some p) (CHM (mkHM (hm_samples m) (hm_lines m) (hm_bands m) 4 (hm_il m) (hm_pad m) (hm_data m) (hm_wave m))) e s = Ret tt s).
  { replace (mkHM (hm_samples m) (hm_lines m) (hm_bands m) 4 (hm_il m) (hm_pad m) (hm_data m) (hm_wave m)) with m by (destruct m; cbn in *; subst; reflexivity).
    unfold set_header. rewrite (putc_same s p m Hp). unfold hm_at in Hp. destruct (nth_error (objs s) p) as [o|]; [|discriminate Hp]. destruct (o_live o); [reflexivity|discriminate Hp]. }
  runs EH. clear EH. cbv zeta. fold b.
  assert (old : forall q r c Y, 0 < r -> 0 < c -> matrix s q 4 r c Y -> exists k, q = Some k /\ (k < List.length (objs s))%nat).
  { intros q r0 c Y H1 H2 H. destruct (word_isb s q ((0 * c + 0) * 4) 3 _ (H 0 0 ltac:(lia) ltac:(lia))) as (q' & N & d & -> & I & _). exists q'. split; [reflexivity|]. eapply isb_lt; eauto. }
  destruct (old _ _ _ _ Hn HB MX) as (dx & Edx & Ldx). destruct (old _ _ _ _ Hn HB MW) as (dw & Edw & Ldw). clear old.
  set (k0 := List.length (objs s)) in *.
  assert (SZ0 : hm_lines m * hm_samples m * 4 + 96 <= 2147483647) by (replace (hm_lines m * hm_samples m) with n by (unfold n; ring); lia).
  (* mean *)
  destruct (create_step e s (hm_lines m) (hm_samples m) He Hs HL HS SZ0) as (s1 & E1 & S1 & O1 & L1 & Z1). runs E1. fold k0 in E1, O1, L1, Z1 |- *.
  pose proof (step_heap _ _ _ S1 Hs) as Hs1.
  assert (CU1 : cube s1 (Some p) m BIP 4) by (eapply cube_old; [|exact CU]; intros i Hi; apply S1; [exact Hi|intros []]).
  destruct (mean_step e s1 (Some p) m k0 X Hs1 CU1 O1 Z1 ltac:(rewrite Edx; intros [= Q]; lia) (step_matrix _ _ _ _ _ _ _ S1 ltac:(intros []) MX)) as (s2 & E2 & S2 & M2). runs E2.
  fold b in M2. fold n in M2. change (fun _ t => bits_of_fl (float_average b (fun k => fl_of_bits (X t k)))) with (fun _ : Z => Mn) in M2.
  pose proof (step_heap _ _ _ S2 Hs1) as Hs2. pose proof (step_len _ _ _ S2) as L2.
  pose proof (step_trans _ _ _ _ _ S1 S2) as S02. cbn [app] in S02.
  (* reshape *)
  rewrite (bind_ret _ _ e s2 n s2) by (apply ev_ok; unfold ci; apply cmul_ok; fold n; lia).
  assert (CU2 : cube s2 (Some p) m BIP 4) by (eapply cube_old; [|exact CU]; eapply step_old; [exact S02|fold k0; oldl]).
  destruct (reshape_step e s2 (Some p) m X He Hs2 CU2 T4 SZ1 (step_matrix _ _ _ (hm_data m) _ _ _ S02 ltac:(rewrite Edx; notin) MX)) as (s3 & E3 & S3 & O3 & L3 & M3).
  fold n b in E3, O3, M3. runs E3. set (k2 := List.length (objs s2)) in *. pose proof (step_heap _ _ _ S3 Hs2) as Hs3.
  (* cov *)
  destruct (create_step e s3 b b He Hs3 HB HB ltac:(lia)) as (s4 & E4 & S4 & O4 & L4 & M4). runs E4. set (k3 := List.length (objs s3)) in *.
  pose proof (step_heap _ _ _ S4 Hs3) as Hs4.
  pose proof (step_trans _ _ _ _ _ S3 S4) as S24. cbn [app] in S24.
  pose proof (owned_step _ _ _ _ _ _ _ S4 ltac:(intros []) O3) as O3'.
  pose proof (step_matrix _ _ _ _ _ _ _ S4 ltac:(intros []) M3) as M3'.
  pose proof (step_matrix _ _ _ _ _ _ _ S24 ltac:(intros []) M2) as M2'.
  pose proof (owned_step _ _ _ _ k0 _ _ (step_trans _ _ _ _ _ S2 S24) ltac:(notin) O1) as O1'.
  destruct (cov_code e s4 (Some k2) _ (Some k0) _ (Some k3) _ n b X Mn (fun _ _ => 0) He Hs4 (H48 _)
    ltac:(split; [exact (owned_image e s4 k2 n b X Hn HB SZ1 O3' M3')|repeat (split; [reflexivity|]); exact M3'])
    (owned_sm _ _ _ _ _ O1') ltac:(cbn [sm_cols sm_rows]; reflexivity) M2' (owned_sm _ _ _ _ _ O4) M4 ltac:(lia) ltac:(cbn [sm_data]; intros [= Q]; lia) ltac:(cbn [sm_data]; intros [= Q]; lia))
    as (s5 & VC & E5 & M5x & M5 & F5 & _ & U5 & FI5).
  cbn [sm_data] in M5x, M5, U5. runs E5.
  assert (S5 : step [Some (k2 + 1)%nat; Some (k3 + 1)%nat] s4 s5) by (split; [eapply mp_cov; eauto|split; auto]).
  pose proof (step_heap _ _ _ S5 Hs4) as Hs5. pose proof (step_len _ _ _ S5) as L5.
  pose proof (owned_step _ _ _ _ k3 _ _ S5 ltac:(notin) O4) as O5.
  (* temp, q, r *)
  destruct (copy_step e s5 k3 b b VC He Hs5 HB HB ltac:(lia) O5 M5) as (s6 & E6 & S6 & O6 & L6 & M6). runs E6. set (k4 := List.length (objs s5)) in *.
  pose proof (step_heap _ _ _ S6 Hs5) as Hs6.
  pose proof (owned_step _ _ _ _ _ _ _ S6 ltac:(intros []) O5) as O5'.
  runs (sget_ok _ _ e _ (owned_sm _ _ _ _ _ O5')). cbn [sm_rows sm_cols].
  destruct (create_step e s6 b b He Hs6 HB HB ltac:(lia)) as (s7 & E7 & S7 & O7 & L7 & M7). runs E7. set (k5 := List.length (objs s6)) in *.
  pose proof (step_heap _ _ _ S7 Hs6) as Hs7.
  destruct (create_step e s7 b b He Hs7 HB HB ltac:(lia)) as (s8 & E8 & S8 & O8 & L8 & M8). runs E8. set (k6 := List.length (objs s7)) in *.
  pose proof (step_heap _ _ _ S8 Hs7) as Hs8.
  pose proof (step_trans _ _ _ _ _ S7 S8) as S68. cbn [app] in S68.
  runs (sget_ok _ _ e _ (owned_sm _ _ _ _ _ (owned_step _ _ _ _ _ _ _ S68 ltac:(intros []) O6))).
  runs (sget_ok _ _ e _ (owned_sm _ _ _ _ _ (owned_step _ _ _ _ _ _ _ S8 ltac:(intros []) O7))).
  runs (sget_ok _ _ e _ (owned_sm _ _ _ _ _ O8)). cbn [sm_data].
  set (C := fun i j => fl_of_bits (VC i j)).
  destruct (turns_step e s8 (Some (k4 + 1)%nat) (Some (k5 + 1)%nat) (Some (k6 + 1)%nat) b C it Hs8 HB ltac:(lia) ltac:(intros [= Q]; lia) ltac:(intros [= Q]; lia) ltac:(intros [= Q]; lia)) as (s9 & E9 & S9 & F9 & R9).
  { exists VC. split; [|reflexivity]. eapply step_matrix; [exact S68|intros []|exact M6]. }
  { eapply step_readable; [exact S8|intros []|]. eapply matrix_readable; eauto. }
  { eapply matrix_readable; eauto. }
  { intros i j Hi Hj _. exact (M8 i j Hi Hj). }
  runs E9. pose proof (step_heap _ _ _ S9 Hs8) as Hs9. pose proof (step_len _ _ _ S9) as L9.
  (* values *)
  destruct (values_step e s9 (Some (k4 + 1)%nat) b _ Hs9 HB ltac:(lia) F9) as (s12 & L & (s10 & s11 & E10 & E11 & E12) & S12 & W12 & P12 & D12 & L12).
  assert (B7 : exists o, nth_error (objs s12) (List.length (objs s9)) = Some o /\ o_live o = true /\ o_root o = List.length (objs s9)).
  { eapply malloc_root; [exact E10| |exact (W12 0 ltac:(lia))]. eapply grows_trans; [|eapply mp_sort; exact E12]. revert E11. generalize s11. intros y. apply mp_for. intros i. mps. }
  runs E10. runs E11. runs E12. set (k7 := List.length (objs s9)) in *. pose proof (step_heap _ _ _ S12 Hs9) as Hs12.
  (* vectors *)
  pose proof (step_trans _ _ _ _ _ S9 S12) as S812. cbn [app] in S812.
  pose proof (owned_step _ _ _ _ k5 _ _ (step_trans _ _ _ _ _ S8 S812) ltac:(notin) O7) as O7'.
  assert (MQ : exists Q, matrix s12 (Some (k5 + 1)%nat) 4 b b Q).
  { pose proof (step_readable _ _ _ _ _ S12 ltac:(intros []) R9) as RD. apply readable_isb in RD as (q & N & d & Eq & I & HN). rewrite Eq.
    pose proof (arr_of s12 q N d 0 4 (b * b) I ltac:(lia) ltac:(lia) ltac:(lia)) as A.
    exists (fun i j => word d (0 + (i * b + j) * 4) (Z.to_nat 4)). apply arr_matrix. eapply arr_ext; [|exact A]. intros t Ht. cbv beta.
    assert (Et : t / b * b + t mod b = t) by (pose proof (Z.div_mod t b ltac:(lia)); lia). rewrite Et. reflexivity. }
  destruct MQ as (Q & MQ).
  destruct (copy_step e s12 k5 b b Q He Hs12 HB HB ltac:(lia) O7' MQ) as (s13 & E13 & S13 & O13 & L13 & M13). runs E13. set (k8 := List.length (objs s12)) in *.
  pose proof (step_heap _ _ _ S13 Hs12) as Hs13. runs (sget_ok _ _ e _ (owned_sm _ _ _ _ _ O13)). cbn [sm_data].
  assert (S513 : step [Some (k4 + 1)%nat; Some (k5 + 1)%nat; Some (k6 + 1)%nat] s5 s13).
  { pose proof (step_trans _ _ _ _ _ S6 (step_trans _ _ _ _ _ S68 (step_trans _ _ _ _ _ S812 S13))) as H. cbn [app] in H. exact H. }
  assert (MC13 : matrix s13 (Some (k3 + 1)%nat) 4 b b VC) by (eapply step_matrix; [exact S513|notin|exact M5]).
  destruct (eigen_code e s13 (Some (k3 + 1)%nat) (Some (k8 + 1)%nat) (Some k7) b VC L Hs13 HB ltac:(unfold INT_MAX; lia) ltac:(intros [= Q0]; lia) ltac:(intros [= Q0]; lia) MC13) as (s14 & E14 & _ & F14 & FI14 & U14 & _ & _).
  { intros k Hk. eapply (step_word _ s12 s13 _ _ 3); [exact S13|intros []|]. now apply W12. }
  { eapply matrix_readable; eauto. }
  runs E14. assert (S14 : step [Some (k8 + 1)%nat] s13 s14) by (split; [eapply mp_eigen; eauto|split; auto]).
  pose proof (step_len _ _ _ S14) as L14.
  assert (S514 : step ([Some (k4 + 1)%nat; Some (k5 + 1)%nat; Some (k6 + 1)%nat] ++ [Some (k8 + 1)%nat]) s5 s14) by (eapply step_trans; eauto).
  cbn [app] in S514.
  assert (S05 : step [Some (k0 + 1)%nat; Some (k2 + 1)%nat; Some (k3 + 1)%nat] s s5).
  { pose proof (step_trans _ _ _ _ _ S02 (step_trans _ _ _ _ _ S24 S5)) as H. cbn [app] in H. exact H. }
  pose proof (step_trans _ _ _ _ _ S05 S514) as S014. cbn [app] in S014.
  pose proof (owned_step _ _ _ _ k2 _ _ (step_trans _ _ _ _ _ S4 (step_trans _ _ _ _ _ S5 S514)) ltac:(notin) O3) as O3e.
  runs (sget_ok _ _ e _ (owned_sm _ _ _ _ _ O3e)). cbn [sm_data].
  assert (OLD : old_unchanged s s14) by (eapply step_old; [exact S014|fold k0; oldl]).
  assert (Hr14 : hm_at s14 r = Some mr).
  { destruct r as [r|]; [|discriminate Hr]. unfold hm_at in *. rewrite OLD; auto. apply nth_error_Some. destruct (nth_error (objs s) r); congruence. }
  runs (hget_ok _ _ e _ Hr14).
  assert (MY : matrix s14 (Some (k2 + 1)%nat) 4 n b (fun t j => fl_word (float_minus (X t j) (Mn t)))) by (eapply step_matrix; [exact S514|notin|exact M5x]).
  assert (FV : floats s14 (Some (k8 + 1)%nat) b (fun i k => unit_vector b C (fl_of_bits (L k)) i)) by (apply floats_at; exact F14).
  destruct FV as (VV & MV & FV).
  assert (MW14 : matrix s14 (hm_data mr) 4 n b W) by (eapply old_matrix; eauto).
  destruct (mul_float e s14 (Some (k2 + 1)%nat) (Some (k8 + 1)%nat) (hm_data mr) n b b _ _ _ ltac:(lia) ltac:(lia) ltac:(lia) ltac:(lia) ltac:(lia) ltac:(lia) MY MV MW14
    ltac:(rewrite Edw; intros [= Q0]; lia) ltac:(rewrite Edw; intros [= Q0]; lia)) as (s15 & V & E15 & M15 & F15 & OB15).
  runs E15. pose proof (only_step _ _ _ _ _ ltac:(eapply mp_mul; exact E15) OB15) as S15.
  pose proof (step_trans _ _ _ _ _ S014 S15) as S015. cbn [app] in S015.
  assert (NR : forall k, (k0 <= k)%nat -> ~ In (Some k) [hm_data mr]) by (rewrite Edw; intros k Hk [Q0|[]]; injection Q0 as Q0; lia).
  assert (G015 : grows s s15) by apply S015. destruct G015 as (LL & GM & GH).
  assert (RO : forall i o, (i < k0)%nat -> nth_error (objs s15) i = Some o -> (o_root o < k0)%nat).
  { intros i o Hi Ho. destruct (nth_error (objs s) i) as [o0|] eqn:E0; [|apply nth_error_None in E0; unfold k0 in Hi; lia].
    destruct (GM i o0 E0) as (o1 & H1 & H2). rewrite H1 in Ho. injection Ho as <-. unfold meta in H2. injection H2 as _ _ ->. unfold k0. eauto. }
  pose proof (owned_step _ _ _ _ k0 _ _ (step_trans _ _ _ _ _ S5 (step_trans _ _ _ _ _ S514 S15)) ltac:(rewrite Edw; notin) O1') as D0.
  pose proof (owned_step _ _ _ _ k3 _ _ (step_trans _ _ _ _ _ S514 S15) ltac:(rewrite Edw; notin) O5) as D3.
  pose proof (owned_step _ _ _ _ k2 _ _ S15 ltac:(apply NR; lia) O3e) as D2.
  pose proof (owned_step _ _ _ _ k6 _ _ (step_trans _ _ _ _ _ S812 (step_trans _ _ _ _ _ S13 (step_trans _ _ _ _ _ S14 S15))) ltac:(rewrite Edw; notin) O8) as D6.
  pose proof (owned_step _ _ _ _ k5 _ _ (step_trans _ _ _ _ _ S13 (step_trans _ _ _ _ _ S14 S15)) ltac:(rewrite Edw; notin) O7') as D5.
  pose proof (owned_step _ _ _ _ k4 _ _ (step_trans _ _ _ _ _ S68 (step_trans _ _ _ _ _ S812 (step_trans _ _ _ _ _ S13 (step_trans _ _ _ _ _ S14 S15)))) ltac:(rewrite Edw; notin) O6) as D4.
  pose proof (owned_step _ _ _ _ k8 _ _ (step_trans _ _ _ _ _ S14 S15) ltac:(rewrite Edw; notin) O13) as D8.
  destruct (owned_delete e s15 k0 _ _ He (H48 _) D0) as (t0 & T0 & RL0). runs T0.
  destruct (delete_keeps k0 s15 t0 k0 ltac:(lia) RL0 RO) as (K0 & FF0 & RO0).
  apply (owned_released e s15 t0 k3 _ _ k0 ltac:(lia)) in D3; [|exact RL0]. apply (owned_released e s15 t0 k2 _ _ k0 ltac:(lia)) in D2; [|exact RL0].
  apply (owned_released e s15 t0 k6 _ _ k0 ltac:(lia)) in D6; [|exact RL0]. apply (owned_released e s15 t0 k5 _ _ k0 ltac:(lia)) in D5; [|exact RL0].
  apply (owned_released e s15 t0 k4 _ _ k0 ltac:(lia)) in D4; [|exact RL0]. apply (owned_released e s15 t0 k8 _ _ k0 ltac:(lia)) in D8; [|exact RL0].
  destruct (owned_delete e t0 k3 _ _ He (H48 _) D3) as (t1 & T1 & RL1). runs T1.
  destruct (delete_keeps k3 t0 t1 k0 ltac:(lia) RL1 RO0) as (K1 & FF1 & RO1).
  apply (owned_released e t0 t1 k2 _ _ k3 ltac:(lia)) in D2; [|exact RL1].
  apply (owned_released e t0 t1 k6 _ _ k3 ltac:(lia)) in D6; [|exact RL1]. apply (owned_released e t0 t1 k5 _ _ k3 ltac:(lia)) in D5; [|exact RL1].
  apply (owned_released e t0 t1 k4 _ _ k3 ltac:(lia)) in D4; [|exact RL1]. apply (owned_released e t0 t1 k8 _ _ k3 ltac:(lia)) in D8; [|exact RL1].
  destruct (owned_delete e t1 k2 _ _ He (H48 _) D2) as (t2 & T2 & RL2). runs T2.
  destruct (delete_keeps k2 t1 t2 k0 ltac:(lia) RL2 RO1) as (K2 & FF2 & RO2).
  apply (owned_released e t1 t2 k6 _ _ k2 ltac:(lia)) in D6; [|exact RL2]. apply (owned_released e t1 t2 k5 _ _ k2 ltac:(lia)) in D5; [|exact RL2].
  apply (owned_released e t1 t2 k4 _ _ k2 ltac:(lia)) in D4; [|exact RL2]. apply (owned_released e t1 t2 k8 _ _ k2 ltac:(lia)) in D8; [|exact RL2].
  destruct (owned_delete e t2 k6 _ _ He (H48 _) D6) as (t3 & T3 & RL3). runs T3.
  destruct (delete_keeps k6 t2 t3 k0 ltac:(lia) RL3 RO2) as (K3 & FF3 & RO3).
  apply (owned_released e t2 t3 k5 _ _ k6 ltac:(lia)) in D5; [|exact RL3].
  apply (owned_released e t2 t3 k4 _ _ k6 ltac:(lia)) in D4; [|exact RL3]. apply (owned_released e t2 t3 k8 _ _ k6 ltac:(lia)) in D8; [|exact RL3].
  destruct (owned_delete e t3 k5 _ _ He (H48 _) D5) as (t4 & T5 & RL4). runs T5.
  destruct (delete_keeps k5 t3 t4 k0 ltac:(lia) RL4 RO3) as (K4 & FF4 & RO4).
  apply (owned_released e t3 t4 k4 _ _ k5 ltac:(lia)) in D4; [|exact RL4]. apply (owned_released e t3 t4 k8 _ _ k5 ltac:(lia)) in D8; [|exact RL4].
  destruct (owned_delete e t4 k4 _ _ He (H48 _) D4) as (t5 & T6 & RL5). runs T6.
  destruct (delete_keeps k4 t4 t5 k0 ltac:(lia) RL5 RO4) as (K5 & FF5 & RO5).
  apply (owned_released e t4 t5 k8 _ _ k4 ltac:(lia)) in D8; [|exact RL5].
  destruct (owned_delete e t5 k8 _ _ He (H48 _) D8) as (t6 & T7 & RL6).
  destruct (delete_keeps k8 t5 t6 k0 ltac:(lia) RL6 RO5) as (K6 & FF6 & _).
  assert (KK : forall i o, (i < k0)%nat -> nth_error (objs s15) i = Some o -> nth_error (objs t6) i = Some o) by (intros i o Hi Ho; auto 20).
  exists t6, C, (fun k => fl_of_bits (L k)), V. split; [exact T7|]. split; [exact F5|]. split; [exact P12|]. split; [exact D12|]. split; [|split; [|split]].
  - intros i j Hi Hj. specialize (M15 i j Hi Hj). rewrite Edw in *. change (Z.to_nat 4) with 4%nat in *. rewrite <- M15. apply word_at_ext. intros t Ht. apply nth_byte_at.
    destruct (nth_error (objs s15) dw) as [o|] eqn:E0; [apply KK; auto|]. exfalso. apply nth_error_None in E0. lia.
  - intros t k Ht Hk. rewrite F15 by auto. apply foldz_in; [lia|]. intros x j Hj. cbv beta. rewrite FV by auto. rewrite fl_word_back; [reflexivity|].
    pose proof (matrix_range _ _ 4 _ _ _ t j ltac:(lia) MX Ht Hj) as R1. pose proof (matrix_range _ _ 4 _ _ _ 0 t ltac:(lia) M2 ltac:(lia) Ht) as R2.
    change (256 ^ 4) with 4294967296 in R1, R2. apply fl_sub_ok; apply fl_of_bits_ok; assumption.
  - intros i Hi Hn0. fold k0 in Hi. destruct S015 as (_ & U & _).
    assert (E0 : nth_error (objs s15) i = nth_error (objs s) i).
    { apply U; [exact Hi|]. intros Q0. apply Hn0. revert Q0. cbn [In]. intros Q0. repeat (destruct Q0 as [Q0|Q0]; [injection Q0 as Q0; lia|]). exact Q0. }
    destruct (nth_error (objs s) i) as [o|] eqn:E1'; [apply KK; auto|]. apply nth_error_None in E1'. unfold k0 in Hi. lia.
  - split; [destruct S015 as (_ & _ & FS); congruence|]. destruct B7 as (o7 & N7 & V7 & R7). fold k7 in N7, R7.
    pose proof (step_trans _ _ _ _ _ S13 (step_trans _ _ _ _ _ S14 S15)) as S1215. cbn [app] in S1215.
    pose proof (step_nth _ _ _ k7 _ S1215 ltac:(rewrite Edw; notin) N7) as N15.
    assert (NE : forall z, z <> k7 -> o_root o7 <> z) by (intros z Hz; rewrite R7; auto).
    pose proof (delete_other _ _ _ _ _ RL0 N15 ltac:(apply NE; lia)) as Z0. pose proof (delete_other _ _ _ _ _ RL1 Z0 ltac:(apply NE; lia)) as Z1'.
    pose proof (delete_other _ _ _ _ _ RL2 Z1' ltac:(apply NE; lia)) as Z2. pose proof (delete_other _ _ _ _ _ RL3 Z2 ltac:(apply NE; lia)) as Z3.
    pose proof (delete_other _ _ _ _ _ RL4 Z3 ltac:(apply NE; lia)) as Z4. pose proof (delete_other _ _ _ _ _ RL5 Z4 ltac:(apply NE; lia)) as Z5.
    pose proof (delete_other _ _ _ _ _ RL6 Z5 ltac:(apply NE; lia)) as Z6.
    intros NL. assert (F7 := NL k7 o7 ltac:(fold k0; lia) Z6). congruence.
Qed.
