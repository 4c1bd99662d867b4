(** * Proofs: constrained energy minimisation. *)
From Verif Require Import Base Logic ModelFloat ModelDouble ModelCore ModelImage ModelMatrix ModelCem
  SpecBase SpecCore SpecImage SpecCxx ProofCore ProofLayout ProofHM ProofCopy ProofImage2 ProofCore3 ProofImage4 ProofWord ProofArr ProofSave2 ProofCluster3.
From Coq Require Import ZifyBool ZifyNat Floats.SpecFloat String.
Ltac Zify.zify_post_hook ::= Z.div_mod_to_equations.
Open Scope Z_scope.

Lemma nr_bind {A B} (m : M A) (k : A -> M B) e s :
  (forall a s', m e s = Ret a s' -> no_return (k a e s')) -> no_return (bind m k e s).
Proof. intros H. unfold bind. destruct (m e s) as [a s'| | |] eqn:E; cbn; auto. Qed.
Lemma nr_bind1 {A B} (m : M A) (k : A -> M B) e s : no_return (m e s) -> no_return (bind m k e s).
Proof. intros H. apply nr_bind. intros a s' E. now rewrite E in H. Qed.

(** Block q has n bytes. *)
Definition sized (s : st) (q : nat) (n : Z) : Prop := exists d, isb s q n d.

Lemma store8_sized e s p i v s' q n : store8 p i v e s = Ret tt s' -> sized s q n -> sized s' q n.
Proof.
  unfold store8. destruct (bytes_at s p) as [[[q' n'] d']|] eqn:E; [|discriminate]. destruct (inb i n'); [|discriminate].
  intros H (d & I). injection H as <-. apply bytes_at_inv in E as (-> & I').
  destruct (Nat.eq_dec q q') as [->|Ne].
  - eexists. eapply isb_putd_eq. exact I.
  - exists d. apply isb_putd_ne; auto.
Qed.
Lemma storele_sized e p k q n : forall s off v s', storele p off k v e s = Ret tt s' -> sized s q n -> sized s' q n.
Proof.
  induction k as [|k IH]; intros s off v s' H Hs; cbn [storele] in H.
  - injection H as <-. exact Hs.
  - unfold bind in H at 1. destruct (store8 p off (v mod 256) e s) as [u s1| | |] eqn:E; try discriminate.
    destruct u. eapply IH; [exact H|]. eapply store8_sized; eauto.
Qed.
Lemma load8_same e s p i a s' : load8 p i e s = Ret a s' -> s' = s.
Proof. unfold load8. destruct (bytes_at s p) as [[[q n] d]|]; [|discriminate]. destruct (inb i n); [|discriminate]. congruence. Qed.
Lemma loadle_same e p k : forall s off a s', loadle p off k e s = Ret a s' -> s' = s.
Proof.
  induction k as [|k IH]; intros s off a s' H; cbn [loadle] in H; [now injection H|].
  unfold bind in H at 1. destruct (load8 p off e s) as [b s1| | |] eqn:E; try discriminate. apply load8_same in E as ->.
  unfold bind in H. destruct (loadle p (off + 1) k e s) as [r s2| | |] eqn:E; try discriminate. apply IH in E as ->. now injection H.
Qed.
Lemma ev_same e s c a s' : ev c e s = Ret a s' -> s' = s.
Proof. unfold ev. destruct c; [|discriminate]. unfold ret. congruence. Qed.

(** Iteration k of a loop that cannot return. *)
Lemma nr_for e lo k hi body (I : st -> Prop) : lo <= k < hi -> forall s, I s ->
  (forall i s' s'', lo <= i < k -> I s' -> body i e s' = Ret tt s'' -> I s'') ->
  (forall s', I s' -> no_return (body k e s')) -> no_return (for_ lo hi body e s).
Proof.
  intros Hk. remember (Z.to_nat (k - lo)) as n eqn:En. revert lo Hk En. induction n as [|n IH]; intros lo Hk En s Hs HB HK.
  - assert (lo = k) by lia. subst lo. rewrite for_first by lia. apply nr_bind1. auto.
  - rewrite for_first by lia. apply nr_bind. intros [] s1 E. apply (IH (lo + 1)); auto; try lia.
    + apply (HB lo s s1); auto; lia.
    + intros i s' s'' Hi. apply HB. lia.
Qed.
Lemma for_keep e lo hi body (I : st -> Prop) : (forall i s' s'', lo <= i < hi -> I s' -> body i e s' = Ret tt s'' -> I s'') ->
  forall s s', I s -> for_ lo hi body e s = Ret tt s' -> I s'.
Proof.
  intros HB. remember (Z.to_nat (hi - lo)) as n eqn:En. revert lo En HB. induction n as [|n IH]; intros lo En HB s s' Hs H.
  - rewrite for_empty in H by lia. injection H as <-. exact Hs.
  - rewrite for_first in H by lia. unfold bind in H. destruct (body lo e s) as [[] s1| | |] eqn:E; try discriminate.
    apply (IH (lo + 1)) with (s := s1); auto; try lia.
    + intros i x y Hi. apply HB. lia.
    + apply (HB lo s s1); auto; lia.
Qed.

Ltac stepb H := unfold bind in H at 1; match type of H with match ?x with _ => _ end = _ => destruct x as [? ?| | |] eqn:?E; try discriminate end.
Ltac stepn H a s' E := unfold bind in H at 1; match type of H with match ?x with _ => _ end = _ => destruct x as [a s'| | |] eqn:E; try discriminate end.
Ltac stepu H := unfold bind in H at 1; match type of H with match ?x with _ => _ end = _ => destruct x as [[] ?| | |] eqn:?E; try discriminate end.

Lemma cell_sized e s x y z xi yi zi (mac : Z -> Z -> Z -> option Z) k q n s' :
  (a <- loadle x xi k ;; b <- loadle y yi k ;; c <- loadle z zi k ;; r <- ev (mac c a b) ;; storele z zi k r) e s = Ret tt s' ->
  sized s q n -> sized s' q n.
Proof.
  intros H Hs. stepb H. apply loadle_same in E as ->. stepb H. apply loadle_same in E as ->. stepb H. apply loadle_same in E as ->.
  stepb H. apply ev_same in E as ->. eapply storele_sized; eauto.
Qed.
Lemma mul_row_sized e (es : Z) (mac : Z -> Z -> Z -> option Z) x y z (nm m k n : Z) q N s s' :
  for_ 0 n (fun nn => for_ 0 k (fun nk =>
        zi <- ev (nm * n + nn)%C ;; xi <- ev (nm * k + nk)%C ;; yi <- ev (nk * n + nn)%C ;;
        a <- loadle x (xi * es) (Z.to_nat es) ;; b <- loadle y (yi * es) (Z.to_nat es) ;; c <- loadle z (zi * es) (Z.to_nat es) ;;
        r <- ev (mac c a b) ;; storele z (zi * es) (Z.to_nat es) r)) e s = Ret tt s' ->
  0 <= nm < m -> sized s q N -> sized s' q N.
Proof.
  intros H _ Hs. revert H. apply (for_keep e 0 n _ (fun s => sized s q N)); [|exact Hs].
  intros i s1 s2 _ H1 H. revert H. apply (for_keep e 0 k _ (fun s => sized s q N)); [|exact H1].
  intros j s3 s4 _ H3 H. stepb H. apply ev_same in E as ->. stepb H. apply ev_same in E as ->. stepb H. apply ev_same in E as ->.
  eapply cell_sized; eauto.
Qed.

Lemma loadle_short e s q n off k : sized s q n -> n < off + Z.of_nat k -> 0 <= off -> (0 < k)%nat -> loadle (Some q) off k e s = UB.
Proof.
  intros (d & I) Hn Ho Hk. revert off Hn Ho. induction k as [|k IH]; intros off Hn Ho; [lia|]. cbn [loadle].
  destruct (Z_lt_le_dec off n) as [H|H].
  - rewrite (bind_ret _ _ _ _ _ _ (load8_ok e s q n d off I ltac:(lia))).
    destruct k as [|k]; [lia|]. apply bind_ub. apply IH; lia.
  - apply bind_ub. eapply load8_oob; [exact I|lia].
Qed.

(** A product whose first factor has fewer than (r+1)*k elements does not return. *)
Lemma mul_short_x e s es (mac : Z -> Z -> Z -> option Z) q y z m k n r N : 0 < es -> 0 < k -> 0 < n -> 0 <= r < m -> sized s q N -> N < (r * k + 1) * es ->
  no_return (MulMatrix_with es mac (Some q) y z m k n e s).
Proof.
  intros Hes Hk Hn Hr Hs HN. unfold MulMatrix_with. apply (nr_for e 0 r m _ (fun s => sized s q N)); auto; try lia.
  - intros i s1 s2 Hi H1 H. eapply (mul_row_sized e es mac (Some q) y z i m k n); eauto. lia.
  - intros s1 H1. rewrite for_first by lia. apply nr_bind1. rewrite for_first by lia. apply nr_bind1.
    apply nr_bind. intros zi s2 E. apply ev_same in E as ->. apply nr_bind. intros xi s2 E.
    assert (xi = r * k + 0) as ->.
    { clear -E. unfold cmul, cadd, cop, ci in E. unfold ev, ret in E. destruct (chk (r * k)) as [w|] eqn:E1; [|discriminate].
      unfold chk in E1. destruct (in_int (r * k)); [|discriminate]. injection E1 as <-.
      unfold chk in E. destruct (in_int (r * k + 0)); [|discriminate]. now injection E. }
    apply ev_same in E as ->. apply nr_bind. intros yi s2 E. apply ev_same in E as ->.
    assert (0 <= r * k) by (apply Z.mul_nonneg_nonneg; lia). assert (0 <= (r * k + 0) * es) by (apply Z.mul_nonneg_nonneg; lia).
    apply nr_bind1. rewrite (loadle_short e s1 q N _ _ H1); [exact I| |lia|lia]. rewrite Z2Nat.id by lia. rewrite Z.mul_add_distr_r in HN. lia.
Qed.
(** The same for the result. *)
Lemma mul_short_z e s es (mac : Z -> Z -> Z -> option Z) q x y m k n r N : 0 < es -> 0 < k -> 0 < n -> 0 <= r < m -> sized s q N -> N < (r * n + 1) * es ->
  no_return (MulMatrix_with es mac x y (Some q) m k n e s).
Proof.
  intros Hes Hk Hn Hr Hs HN. unfold MulMatrix_with. apply (nr_for e 0 r m _ (fun s => sized s q N)); auto; try lia.
  - intros i s1 s2 Hi H1 H. eapply (mul_row_sized e es mac x y (Some q) i m k n); eauto. lia.
  - intros s1 H1. rewrite for_first by lia. apply nr_bind1. rewrite for_first by lia. apply nr_bind1.
    apply nr_bind. intros zi s2 E.
    assert (zi = r * n + 0) as ->.
    { clear -E. unfold cmul, cadd, cop, ci in E. unfold ev, ret in E. destruct (chk (r * n)) as [w|] eqn:E1; [|discriminate].
      unfold chk in E1. destruct (in_int (r * n)); [|discriminate]. injection E1 as <-.
      unfold chk in E. destruct (in_int (r * n + 0)); [|discriminate]. now injection E. }
    apply ev_same in E as ->. apply nr_bind. intros xi s2 E. apply ev_same in E as ->. apply nr_bind. intros yi s2 E. apply ev_same in E as ->.
    apply nr_bind. intros a s2 E. apply loadle_same in E as ->. apply nr_bind. intros b s2 E. apply loadle_same in E as ->.
    assert (0 <= r * n) by (apply Z.mul_nonneg_nonneg; lia). assert (0 <= (r * n + 0) * es) by (apply Z.mul_nonneg_nonneg; lia).
    apply nr_bind1. rewrite (loadle_short e s1 q N _ _ H1); [exact I| |lia|lia]. rewrite Z2Nat.id by lia. rewrite Z.mul_add_distr_r in HN. lia.
Qed.

Lemma sized_app s q n new fs : sized s q n -> sized (mkSt (objs s ++ new) fs) q n.
Proof. intros (d & H). exists d. now apply isb_app_old. Qed.
Lemma sized_lt s q n : sized s q n -> (q < List.length (objs s))%nat.
Proof. intros (d & H). eapply isb_lt; eauto. Qed.
Lemma malloc_sized e s N p s' q n : malloc N e s = Ret p s' -> sized s q n -> sized s' q n.
Proof. unfold malloc. destruct (_ && _); intros H Hs; injection H as <- <-; auto. now apply sized_app. Qed.
Lemma malloc_size e s N p s' : malloc N e s = Ret p s' -> p = None \/ (exists q, p = Some q /\ sized s' q N).
Proof.
  unfold malloc. destruct (_ && _); intros H; injection H as <- <-; auto. right. eexists. split; [reflexivity|].
  eexists. unfold isb, bytes_at. cbn. rewrite nth_error_app2, Nat.sub_diag by lia. cbn. reflexivity.
Qed.
Lemma malloc_fresh e s N p s' q n : malloc N e s = Ret p s' -> sized s q n -> p <> Some q.
Proof. unfold malloc. intros H Hs. apply sized_lt in Hs. destruct (_ && _); injection H as <- <-; [|discriminate]. intros E. injection E as E. lia. Qed.
Lemma addr_same e s p a s' : addr_of p e s = Ret a s' -> s' = s.
Proof. unfold addr_of. destruct p; [|congruence]. destruct nth_error; congruence. Qed.
Lemma carve_sized e s p h a N d s' q n : carve p h a N e s = Ret d s' -> sized s q n -> sized s' q n.
Proof. unfold carve. destruct p; [|discriminate]. destruct nth_error; [|discriminate]. destruct (_ && _); [|discriminate]. intros H Hs. injection H as <- <-. now apply sized_app. Qed.
Lemma memset_sized e s p off v N s' q n : memset p off v N e s = Ret tt s' -> sized s q n -> sized s' q n.
Proof.
  unfold memset. destruct (bytes_at s p) as [[[q' n'] d']|] eqn:E; [|discriminate]. destruct (_ && _); [|discriminate].
  intros H (d & I). injection H as <-. apply bytes_at_inv in E as (-> & I').
  destruct (Nat.eq_dec q q') as [->|Ne].
  - eexists. eapply isb_putd_eq. exact I.
  - exists d. apply isb_putd_ne; auto.
Qed.
Lemma header_sized e s p c s' q n : set_header p c e s = Ret tt s' -> p <> Some q -> sized s q n -> sized s' q n.
Proof.
  unfold set_header. destruct p as [k|]; [|discriminate]. destruct nth_error; [|discriminate]. destruct o_live; [|discriminate].
  intros H Ne (d & Hs). injection H as <-. exists d. unfold isb, bytes_at in *. cbn. rewrite lupd_nth_ne by congruence. exact Hs.
Qed.
Lemma assert_same e s b s' : assert b e s = Ret tt s' -> s' = s.
Proof. unfold assert. destruct b; unfold ret; [congruence|discriminate]. Qed.

Lemma create_sized e s R C ty ch p s' q n : create_simple_mat R C ty ch e s = Ret p s' -> sized s q n -> sized s' q n.
Proof.
  unfold create_simple_mat, create_simple_mat_with_data. cbn [nonnull]. intros H Hs.
  stepn H u s1 E. destruct u. apply assert_same in E as ->.
  stepn H NN s1 E. assert (s1 = s) as ->. { stepn E x s2 E0. apply ev_same in E0 as ->. now apply ev_same in E. }
  stepn H mat s1 E0. pose proof (malloc_fresh _ _ _ _ _ _ _ E0 Hs) as Ne. pose proof (malloc_sized _ _ _ _ _ _ _ E0 Hs) as Hs1.
  stepn H u s2 E1. destruct u. apply assert_same in E1 as ->.
  stepn H d s2 E2. assert (sized s2 q n).
  { stepn E2 a s3 E3. apply addr_same in E3 as ->. stepn E2 b s3 E3. apply ev_same in E3 as ->. stepn E2 c s3 E3. apply ev_same in E3 as ->.
    stepn E2 d1 s3 E3. pose proof (carve_sized _ _ _ _ _ _ _ _ _ _ E3 Hs1) as Hs2. stepn E2 u s4 E4. destruct u.
    pose proof (memset_sized _ _ _ _ _ _ _ _ _ E4 Hs2). unfold ret in E2. congruence. }
  stepn H u s3 E3. destruct u. unfold ret in H. injection H as <- <-. eapply header_sized; eauto.
Qed.

Lemma mul_sized e es mac x y z m k n q N s s' : MulMatrix_with es mac x y z m k n e s = Ret tt s' -> sized s q N -> sized s' q N.
Proof.
  unfold MulMatrix_with. intros H Hs. revert H. apply (for_keep e 0 m _ (fun s => sized s q N)); auto.
  intros i s1 s2 Hi H1 H. eapply (mul_row_sized e es mac x y z i m k n); eauto.
Qed.
Lemma loadf_same e s p i a s' : loadf p i e s = Ret a s' -> s' = s.
Proof. unfold loadf. intros H. stepb H. apply loadle_same in E. unfold ret in H. congruence. Qed.
Lemma storef_sized e s p i v s' q n : storef p i v e s = Ret tt s' -> sized s q n -> sized s' q n.
Proof. unfold storef. apply storele_sized. Qed.

Lemma loadle_null e s off k : (0 < k)%nat -> loadle None off k e s = UB.
Proof. intros Hk. destruct k; [lia|]. reflexivity. Qed.
Lemma mul_null e s es mac y z m k n : 0 < es -> 0 < k -> 0 < n -> 0 < m -> no_return (MulMatrix_with es mac None y z m k n e s).
Proof.
  intros. unfold MulMatrix_with. rewrite for_first by lia. apply nr_bind1. rewrite for_first by lia. apply nr_bind1.
  rewrite for_first by lia. apply nr_bind1. do 3 (apply nr_bind; intros ? ? ?).
  apply nr_bind1. now rewrite loadle_null by lia.
Qed.

Lemma hget_hm e s p m s' : hget p e s = Ret m s' -> s' = s /\ hm_at s p = Some m.
Proof. unfold hget. destruct (hm_at s p); [|discriminate]. intros H. injection H as <- <-. auto. Qed.

(** From the first product on, for an image of more than one sample. *)
Lemma cem_tail e s bands sl ty lines samples (mt mi : smat) spectral src t corrmat invmat :
  0 < bands -> 0 < sl -> 1 < bands * sl ->
  no_return ((fir1 <- malloc (bands * 4) ;;
  fir2 <- malloc (bands * 4) ;;
  fir3 <- malloc 4 ;;
  MulMatrix_float fir1 (sm_data mi) spectral bands bands 1 ;;;
  MulMatrix_float fir2 spectral (sm_data mi) 1 bands bands ;;;
  MulMatrix_float fir3 fir2 spectral 1 bands 1 ;;;
  for_ 0 bands (fun i =>
    a <- loadf fir1 i ;; b <- loadf fir3 0 ;; storef fir1 i (fl_div a b)) ;;;
  res <- create_simple_mat lines samples ty 1 ;;
  mr <- sget res ;;
  MulMatrix_float (sm_data mr) (sm_data mt) fir1 sl bands 1 ;;;
  delete_simple_mat src ;;;
  delete_simple_mat t ;;;
  delete_simple_mat corrmat ;;;
  delete_simple_mat invmat ;;;
  free fir1 ;;; free fir2 ;;; free fir3 ;;;
  ret res) e s).
Proof.
  intros HB HS H1. apply nr_bind. intros fir1 s1 E1. apply nr_bind. intros fir2 s2 E2. apply nr_bind. intros fir3 s3 E3.
  pose proof (malloc_size _ _ _ _ _ E1) as [->|(q & -> & Z1)].
  { apply nr_bind1. apply mul_null; lia. }
  pose proof (malloc_sized _ _ _ _ _ _ _ E2 Z1) as Z2. pose proof (malloc_sized _ _ _ _ _ _ _ E3 Z2) as Z3.
  destruct (Z_lt_le_dec 1 bands) as [Hb|Hb].
  { apply nr_bind1. apply (mul_short_x e s3 4 _ q _ _ bands bands 1 1 (bands * 4)); auto; lia. }
  assert (bands = 1) as -> by lia.
  apply nr_bind. intros [] s4 E4. pose proof (mul_sized _ _ _ _ _ _ _ _ _ _ _ _ _ E4 Z3) as Z4.
  apply nr_bind. intros [] s5 E5. pose proof (mul_sized _ _ _ _ _ _ _ _ _ _ _ _ _ E5 Z4) as Z5.
  apply nr_bind. intros [] s6 E6. pose proof (mul_sized _ _ _ _ _ _ _ _ _ _ _ _ _ E6 Z5) as Z6.
  apply nr_bind. intros [] s7 E7. assert (Z7 : sized s7 q (1 * 4)).
  { revert E7. apply (for_keep e 0 1 _ (fun s => sized s q (1 * 4))); auto. intros i a b _ Ha H.
    stepb H. apply loadf_same in E as ->. stepb H. apply loadf_same in E as ->. eapply storef_sized; eauto. }
  apply nr_bind. intros res s8 E8. pose proof (create_sized _ _ _ _ _ _ _ _ _ _ E8 Z7) as Z8.
  apply nr_bind. intros mr s9 E9. assert (s9 = s8) as ->. { unfold sget in E9. destruct (sm_at s8 res); [congruence|discriminate]. }
  apply nr_bind1. apply (mul_short_z e s8 4 _ q _ _ sl 1 1 1 (1 * 4)); auto; lia.
Qed.

Lemma cem_never e s p m l spectral : env_ok e -> heap_ok s -> cube s p m l 4 -> hm_data m <> hm_wave m -> hm_wave m <> None ->
  1 < hm_samples m * hm_lines m * hm_bands m -> no_return (hyper_mat_cem p spectral e s).
Proof.
  intros He Hs C N1 N2 H1. pose proof C as [Hh Ht Hp Hty HS HL HB Hsz Hws Hd Hw].
  unfold hyper_mat_cem. runs (hget_ok _ _ e _ Hh). apply nr_bind. intros [] s1 E1. apply assert_same in E1 as ->.
  apply nr_bind. intros c s1 E1.
  assert (X : s1 = s /\ exists s2 m2, (if c =? 1 then ret tt else convert2bsq p) e s = Ret tt s2 /\ hm_at s2 p = Some m2 /\
    hm_samples m2 = hm_samples m /\ hm_lines m2 = hm_lines m /\ hm_bands m2 = hm_bands m).
  { destruct (hm_nonnull _ _ _ Hh) as [pk Ep]. pose proof (il_cmp_bsq m l e s Ht Hp) as E. rewrite E in E1. injection E1 as <- <-. split; auto.
    destruct l.
    - exists s, m. cbn. auto.
    - destruct (normalise_ok BSQ e s p m _ 4 He Hs C ltac:(discriminate) N1 N2) as (f & Ef & s2 & R & m2 & C2 & R1 & R2 & R3 & _).
      injection Ef as <-. exists s2, m2. cbn [Z.eqb]. split; [exact R|]. split; [apply C2|]. auto.
    - destruct (normalise_ok BSQ e s p m _ 4 He Hs C ltac:(discriminate) N1 N2) as (f & Ef & s2 & R & m2 & C2 & R1 & R2 & R3 & _).
      injection Ef as <-. exists s2, m2. cbn [Z.eqb]. split; [exact R|]. split; [apply C2|]. auto. }
  destruct X as (-> & s2 & m2 & R & Hm2 & F1 & F2 & F3). runs R. runs (hget_ok _ _ e _ Hm2). rewrite F1, F2, F3.
  apply nr_bind. intros sl s3 E3. assert (sl = hm_samples m * hm_lines m) as ->.
  { clear -E3. unfold cmul, cop, ci in E3. unfold ev, ret in E3. destruct (chk _) as [w|] eqn:E; [|discriminate].
    unfold chk in E. destruct (in_int _); [|discriminate]. injection E3 as <- <-. now injection E. }
  do 11 (apply nr_bind; intros ? ? ?).
  apply cem_tail; [lia|apply Z.mul_pos_pos; lia|lia].
Qed.
