(** * Proofs: cubes that are not of floats, and what the matrix is not. *)
From Verif Require ProofStat ProofPca.
From Verif Require Import Base ModelFloat ModelDouble ModelCore ModelImage ModelMatrix ModelSpectral ModelPca SpecBase SpecCore SpecImage SpecImage2 SpecNum SpecMatrix SpecCxx SpecPca
  Logic ProofCore ProofLayout ProofCore2 ProofHM ProofCopy ProofImage3 ProofWord ProofArr ProofGrid ProofFold ProofMatrix ProofFilter ProofCem ProofHist.
From Coq Require Import Floats.SpecFloat ZifyBool ZifyNat.
Ltac Zify.zify_post_hook ::= Z.div_mod_to_equations.
Open Scope Z_scope.

(** ** The rows add up to nothing *)
Lemma sumz_mul_l n c f : 0 <= n -> sumz n (fun t => c * f t) = c * sumz n f.
Proof.
  intros Hn. pattern n. apply natlike_ind; [rewrite !sumz_0; ring| |exact Hn].
  intros k Hk IH. unfold Z.succ. rewrite !sumz_S by lia. rewrite IH. ring.
Qed.
Lemma sumz_swap b n f : 0 <= b -> 0 <= n -> sumz b (fun j => sumz n (fun t => f t j)) = sumz n (fun t => sumz b (fun j => f t j)).
Proof.
  intros Hb Hn. pattern b. apply natlike_ind; [|intros k Hk IH; unfold Z.succ|exact Hb].
  - rewrite sumz_0. rewrite (sumz_ext n _ (fun _ => 0)) by (intros; apply sumz_0). rewrite ProofStat.sumz_const by lia. ring.
  - rewrite sumz_S by lia. rewrite IH. rewrite <- sumz_add by lia. apply sumz_ext. intros t Ht. rewrite sumz_S by lia. reflexivity.
Qed.
Theorem cov_kernel : forall n b (X : Z -> Z -> Z) (M : Z -> Z), 0 <= n -> 0 <= b -> (forall t, 0 <= t < n -> b * M t = sumz b (X t)) ->
  forall i, sumz b (fun j => sumz n (fun t => (X t i - M t) * (X t j - M t))) = 0.
Proof.
  intros n b X M Hn Hb HM i. rewrite sumz_swap by auto. rewrite (sumz_ext n _ (fun _ => 0)); [rewrite ProofStat.sumz_const by lia; ring|].
  intros t Ht. rewrite sumz_mul_l by lia.
  rewrite (sumz_ext b _ (fun j => X t j + (- M t))) by (intros; ring). rewrite sumz_add by lia. rewrite ProofStat.sumz_const by lia.
  rewrite <- HM by auto. ring.
Qed.

(** ** Narrow cubes *)
Lemma nr_forS {S} e s lo k hi (body : Z -> S -> M S) : lo <= k < hi -> (forall i a r s', body i a e s = Ret r s' -> s' = s) ->
  (forall a, no_return (body k a e s)) -> forall a, no_return (forS lo hi body a e s).
Proof.
  intros Hk HS HN. remember (Z.to_nat (k - lo)) as n eqn:En. revert lo Hk En. induction n as [|n IH]; intros lo Hk En a.
  - assert (lo = k) by lia. subst lo. rewrite forS_first by lia. apply nr_bind1. auto.
  - rewrite forS_first by lia. apply nr_bind. intros r s1 E. apply HS in E as ->. apply IH; lia.
Qed.
Lemma average_same e s x off n a s' : sp_average x off n e s = Ret a s' -> s' = s.
Proof.
  unfold sp_average. intros H. stepn H x0 s0 E. unfold ret in H. injection H as _ <-. revert E. generalize (fl_of_Z 0). 
  assert (G : forall k lo a0, Z.to_nat (n - lo) = k -> forS lo n (fun i sum => v <- loadf x (off + i) ;; ret (fl_add sum v)) a0 e s = Ret x0 s0 -> s0 = s); [|intros a0 E0; eapply G; eauto].
  induction k as [|k IH]; intros lo a0 Ek E.
  - rewrite forS_empty in E by lia. congruence.
  - rewrite forS_first in E by lia. stepb E. stepb E0. apply loadf_same in E1 as ->. unfold ret in E0. injection E0 as <- <-. eapply IH; [|exact E]. lia.
Qed.
Lemma average_short e s q N off n : sized s q N -> 0 <= off -> 0 < n -> N < (off + n) * 4 -> no_return (sp_average (Some q) off n e s).
Proof.
  intros Hs Ho Hn HN. unfold sp_average. apply nr_bind1. apply (nr_forS e s 0 (n - 1) n); [lia| |].
  - intros i a r s' H. stepb H. apply loadf_same in E as ->. unfold ret in H. congruence.
  - intros a. apply nr_bind1. unfold loadf. apply nr_bind1. rewrite (loadle_short e s q N _ 4 Hs) by lia. exact I.
Qed.

Theorem pca_narrow : forall e s p m es res it, env_ok e -> heap_ok s -> cube s p m BIP es ->
  ~ readable s (hm_data m) (hm_samples m * hm_lines m * hm_bands m * 4) ->
  hm_lines m * hm_samples m * 4 + 96 <= 2147483647 -> no_return (hyper_mat_pca p res it e s).
Proof.
  intros e s p m es res it He Hs CU HN HS. destruct CU as [Hp Ht Hpad Hty HSa HL HB Hsz Hws Dp Hw].
  apply readable_isb in Dp as (q & N & g & Eq & Iq & Hnq).
  assert (HN' : N < hm_samples m * hm_lines m * hm_bands m * 4).
  { destruct (Z_lt_le_dec N (hm_samples m * hm_lines m * hm_bands m * 4)); auto. exfalso. apply HN. rewrite Eq. eapply isb_readable; eauto. }
  clear HN. unfold hyper_mat_pca. runs (hget_ok _ _ e _ Hp). destruct p as [p|]; [|discriminate Hp].
  assert (Nq : p <> q) by (intros ->; unfold hm_at in Hp; apply isb_obj in Iq as (a & r & Iq); rewrite Iq in Hp; discriminate Hp).
  set (m' := mkHM (hm_samples m) (hm_lines m) (hm_bands m) 4 (hm_il m) (hm_pad m) (hm_data m) (hm_wave m)).
  assert (SE : exists s1, set_header (Some p) (CHM m') e s = Ret tt s1 /\ s1 = putc s p (CHM m')).
  { unfold set_header. unfold hm_at in Hp. destruct (nth_error (objs s) p) as [o|]; [|discriminate Hp]. destruct (o_live o); [|discriminate Hp]. eauto. }
  destruct SE as (s1 & ES & E1). runs ES. cbv zeta.
  assert (S1 : sized s1 q N) by (eapply header_sized; [exact ES|congruence|exists g; exact Iq]).
  assert (Hs1 : heap_ok s1) by (rewrite E1; apply heap_ok_putc; exact Hs).
  assert (Hp1 : hm_at s1 (Some p) = Some m') by (rewrite E1; eapply hm_at_putc_eq; eauto).
  set (S := hm_samples m) in *. set (L := hm_lines m) in *. set (B := hm_bands m) in *.
  destruct (create_sm_run e s1 L S 4 4 1 He Hs1 eq_refl HL HSa ltac:(lia) ltac:(lia)) as (dd & EC & _ & _). runs EC.
  set (s2 := newsm e s1 L S 4 4 1 dd). set (k := List.length (objs s1)) in *.
  assert (S2 : sized s2 q N) by (destruct S1 as (d & Id); exists d; apply newsm_old; exact Id).
  assert (Hp2 : hm_at s2 (Some p) = Some m').
  { unfold hm_at. unfold s2. rewrite (newsm_old_unchanged e s1 L S 4 4 1 dd p); [exact Hp1|]. apply nth_error_Some. unfold hm_at in Hp1. destruct (nth_error (objs s1) p); congruence. }
  apply nr_bind1. unfold hyper_mat_mean. rewrite bind_assert by reflexivity. runs (hget_ok _ _ e _ Hp2).
  runs (il_cmp_bip m' BIP e s2 Ht Hpad). rewrite bind_assert by reflexivity. cbv zeta.
  runs (sget_ok _ _ e _ (newsm_at e s1 L S 4 4 1 dd : sm_at s2 (Some k) = Some (newsm_hdr s1 L S 4 4 1))).
  cbn [newsm_hdr sm_cols sm_rows sm_type sm_data m' hm_samples hm_lines hm_bands hm_data]. fold S L B. rewrite bind_assert by (rewrite !Z.eqb_refl; reflexivity). rewrite bind_assert by reflexivity.
  assert (K : forall i j s' s'', sized s' q N -> (a <- ev (i * S * B)%C ;; b <- ev (j * B)%C ;; v <- sp_average (hm_data m) (a + b) B ;; x <- ev (i * S + j)%C ;; storef (Some (k + 1)%nat) x v) e s' = Ret tt s'' -> sized s'' q N).
  { intros i j s' s'' HS' H. stepb H. apply ev_same in E as ->. stepb H. apply ev_same in E as ->. stepb H. apply average_same in E as ->. stepb H. apply ev_same in E as ->. eapply storef_sized; eauto. }
  apply (nr_for e 0 (L - 1) L _ (fun s => sized s q N)); [lia|exact S2| |].
  - intros i s' s'' Hi HS' H. revert H. apply (for_keep e 0 S _ (fun s => sized s q N)); [|exact HS']. intros j s3 s4 Hj H3 H. eapply K; eauto.
  - intros s' HS'. apply (nr_for e 0 (S - 1) S _ (fun s => sized s q N)); [lia|exact HS'| |].
    + intros j s3 s4 Hj H3 H. eapply K; eauto.
    + intros s3 H3. apply nr_bind. intros a s4 Ea. pose proof (ev_same _ _ _ _ _ Ea) as ->. apply nr_bind. intros b s5 Eb. pose proof (ev_same _ _ _ _ _ Eb) as ->.
      apply nr_bind1. rewrite Eq.
      assert (Va : a = (L - 1) * S * B).
      { unfold ev, ci, cmul, cop, chk in Ea. cbv beta iota in Ea. revert Ea. repeat (match goal with |- context [if ?c then _ else _] => destruct c end); intros Ea; try discriminate Ea. unfold ret in Ea. congruence. }
      assert (Vb : b = (S - 1) * B).
      { unfold ev, ci, cmul, cop, chk in Eb. cbv beta iota in Eb. revert Eb. repeat (match goal with |- context [if ?c then _ else _] => destruct c end); intros Eb; try discriminate Eb. unfold ret in Eb. congruence. }
      apply (average_short e s3 q N _ _ H3); [|lia|].
      * subst a b. assert (0 <= (L - 1) * S * B) by (apply Z.mul_nonneg_nonneg; [apply Z.mul_nonneg_nonneg|]; lia). assert (0 <= (S - 1) * B) by (apply Z.mul_nonneg_nonneg; lia). lia.
      * subst a b. replace ((L - 1) * S * B + (S - 1) * B + B) with (S * L * B) by ring. exact HN'.
Qed.

Theorem cov_rows : forall e s x mx mean mm res mr n b X Mn X' M' K, env_ok e -> heap_ok s -> e_addr e (List.length (objs s)) mod 64 <> 48 ->
  pixels_at s x mx n b X -> sm_at s mean = Some mm -> sm_cols mm * sm_rows mm = n -> matrix s (sm_data mm) 4 1 n (fun _ => Mn) ->
  sm_at s res = Some mr -> matrix s (sm_data mr) 4 b b (fun _ _ => 0) -> b * b <= 2147483647 ->
  sm_data mx <> sm_data mm -> sm_data mx <> sm_data mr ->
  (forall t j, 0 <= t < n -> 0 <= j < b -> float_int (X t j) (X' t j) /\ float_int (Mn t) (M' t) /\ Z.abs (X' t j - M' t) <= K) -> n * (K * K) <= 16777216 ->
  (forall t, 0 <= t < n -> b * M' t = sumz b (X' t)) ->
  exists s' V C, cal_covariance_matrix x mean res e s = Ret tt s' /\ matrix s' (sm_data mr) 4 b b V
    /\ (forall i j, 0 <= i < b -> 0 <= j < b -> float_int (V i j) (C i j)) /\ forall i, 0 <= i < b -> sumz b (C i) = 0.
Proof.
  intros e s x mx mean mm res mr n b X Mn X' M' K He Hs H48 PX Hm Hn MM Hr MR Hbb N1 N2 HI HK HM.
  destruct (ProofPca.cov_whole e s x mx mean mm res mr n b X Mn X' M' K He Hs H48 PX Hm Hn MM Hr MR Hbb N1 N2 HI HK) as (s' & V & E & MV & HV).
  destruct PX as (IM & _ & _ & RX & COX & _). pose proof (im_rows _ _ _ _ IM). pose proof (im_cols _ _ _ _ IM).
  exists s', V, (fun i j => sumz n (fun t => (X' t i - M' t) * (X' t j - M' t))). split; [exact E|]. split; [exact MV|]. split; [exact HV|].
  intros i Hi. apply cov_kernel; auto; lia.
Qed.
