(** * Proofs: no operation moves a block, changes its size or its chunk. *)
From Verif Require Import Base ModelFloat ModelDouble ModelCore ModelMatrix ModelEigen ModelImage ModelMath ModelSpectral ModelPca SpecBase Logic ProofCore ProofCem.
From Coq Require Import Floats.SpecFloat ZifyBool ZifyNat.
Open Scope Z_scope.

Definition meta (o : obj) := (o_addr o, o_size o, o_root o).
Definition grows (s s' : st) : Prop :=
  (List.length (objs s) <= List.length (objs s'))%nat
  /\ (forall k o, nth_error (objs s) k = Some o -> exists o', nth_error (objs s') k = Some o' /\ meta o' = meta o)
  /\ (heap_ok s -> heap_ok s').
Lemma grows_refl s : grows s s. Proof. split; [lia|]. split; eauto. Qed.
Lemma grows_trans s s1 s2 : grows s s1 -> grows s1 s2 -> grows s s2.
Proof.
  intros (L & M & H) (L' & M' & H'). split; [lia|]. split; [|auto].
  intros k o Ho. destruct (M k o Ho) as (o1 & H1 & E1). destruct (M' k o1 H1) as (o2 & H2 & E2). exists o2. split; congruence.
Qed.
Definition mp {A} (c : M A) : Prop := forall e s r s', c e s = Ret r s' -> grows s s'.


Lemma grows_lupd s k f fs : (forall o, meta (f o) = meta o) -> grows s (mkSt (lupd k f (objs s)) fs).
Proof.
  intros E. split; [cbn; rewrite lupd_length; lia|]. split.
  - intros j p Hj. cbn. destruct (Nat.eq_dec k j) as [<-|N].
    + exists (f p). rewrite lupd_nth_eq, Hj. split; [reflexivity|apply E].
    + exists p. now rewrite lupd_nth_ne.
  - intros H j p Hj. cbn in *. rewrite lupd_length. destruct (Nat.eq_dec k j) as [<-|N].
    + rewrite lupd_nth_eq in Hj. destruct (nth_error (objs s) k) as [o|] eqn:Eo; [|discriminate]. injection Hj as <-.
      pose proof (E o) as Em. unfold meta in Em. injection Em as _ _ ->. eauto.
    + rewrite lupd_nth_ne in Hj by auto. eauto.
Qed.
Lemma grows_putd s q d : grows s (putd s q d). Proof. now apply grows_lupd. Qed.
Lemma grows_putc s q c : grows s (putc s q c). Proof. now apply grows_lupd. Qed.
Lemma grows_app s o fs : (o_root o <= List.length (objs s))%nat -> grows s (mkSt (objs s ++ [o]) fs).
Proof.
  intros Hr. split; [cbn; rewrite app_length; cbn; lia|]. split.
  - intros k p Hk. exists p. cbn. split; [|reflexivity]. rewrite nth_error_app1; auto. apply nth_error_Some. congruence.
  - intros H k p Hk. cbn in *. rewrite app_length. cbn. destruct (Nat.lt_ge_cases k (List.length (objs s))).
    + rewrite nth_error_app1 in Hk by auto. apply H in Hk. lia.
    + rewrite nth_error_app2 in Hk by auto. destruct (k - List.length (objs s))%nat as [|[|j]]; cbn in Hk; try discriminate. injection Hk as <-. lia.
Qed.

Lemma mp_ret {A} (x : A) : mp (ret x). Proof. intros e s r s' H. injection H as _ <-. apply grows_refl. Qed.
Lemma mp_bind {A B} (c : M A) (k : A -> M B) : mp c -> (forall x, mp (k x)) -> mp (bind c k).
Proof.
  intros Hc Hk e s r s' H. unfold bind in H. destruct (c e s) as [x s1| | |] eqn:E; try discriminate.
  eapply grows_trans; [eapply Hc; eauto|eapply Hk; eauto].
Qed.
Lemma mp_ev c : mp (ev c). Proof. intros e s r s' H. apply ev_same in H as ->. apply grows_refl. Qed.
Lemma mp_assert b : mp (assert b). Proof. intros e s [] s' H. apply assert_same in H as ->. apply grows_refl. Qed.
Lemma mp_sget p : mp (sget p). Proof. intros e s r s' H. unfold sget in H. destruct (sm_at s p); [|discriminate]. injection H as _ <-. apply grows_refl. Qed.
Lemma mp_hget p : mp (hget p). Proof. intros e s r s' H. unfold hget in H. destruct (hm_at s p); [|discriminate]. injection H as _ <-. apply grows_refl. Qed.
Lemma mp_addr p : mp (addr_of p). Proof. intros e s r s' H. apply addr_same in H as ->. apply grows_refl. Qed.
Lemma mp_loadle p off k : mp (loadle p off k). Proof. intros e s r s' H. apply loadle_same in H as ->. apply grows_refl. Qed.
Lemma mp_loadf p i : mp (loadf p i). Proof. intros e s r s' H. apply loadf_same in H as ->. apply grows_refl. Qed.
Lemma mp_load8 p i : mp (load8 p i). Proof. intros e s r s' H. apply load8_same in H as ->. apply grows_refl. Qed.
Lemma mp_store8 p i v : mp (store8 p i v).
Proof. intros e s r s' H. unfold store8 in H. destruct (bytes_at s p) as [[[q n] d]|]; [|discriminate]. destruct (inb i n); [|discriminate]. injection H as _ <-. apply grows_putd. Qed.
Lemma mp_storele p k : forall off v, mp (storele p off k v).
Proof. induction k as [|k IH]; intros off v; cbn [storele]; [apply mp_ret|]. apply mp_bind; [apply mp_store8|auto]. Qed.
Lemma mp_storef p i x : mp (storef p i x). Proof. apply mp_storele. Qed.
Lemma mp_memcpy a b c d n : mp (memcpy a b c d n).
Proof.
  intros e s r s' H. unfold memcpy in H. destruct (bytes_at s a) as [[[q dn] dd]|]; [|discriminate]. destruct (bytes_at s c) as [[[q' n'] d']|]; [|discriminate].
  match type of H with (if ?b then _ else _) = _ => destruct b; [|discriminate] end. injection H as _ <-. apply grows_putd.
Qed.
Lemma mp_memset a b c n : mp (memset a b c n).
Proof.
  intros e s r s' H. unfold memset in H. destruct (bytes_at s a) as [[[q dn] dd]|]; [|discriminate].
  match type of H with (if ?b then _ else _) = _ => destruct b; [|discriminate] end. injection H as _ <-. apply grows_putd.
Qed.
Lemma mp_malloc n : mp (malloc n).
Proof.
  intros e s r s' H. unfold malloc in H. destruct ((0 <=? n) && (n <? 2 ^ 62)); injection H as _ <-; [|apply grows_refl]. apply grows_app. cbn. lia.
Qed.
Lemma mp_free p : mp (free p).
Proof.
  intros e s r s' H. unfold free in H. destruct p as [k|]; [|injection H as _ <-; apply grows_refl].
  destruct (nth_error (objs s) k) as [o|]; [|discriminate]. destruct (o_live o && Nat.eqb (o_root o) k); [|discriminate]. injection H as _ <-.
  split; [cbn; rewrite map_length; lia|]. split.
  - intros j p Hj. cbn. rewrite nth_error_map, Hj. cbn. eexists. split; [reflexivity|]. unfold kill_root. destruct (Nat.eqb _ _); reflexivity.
  - intros Hs j p Hj. cbn in *. rewrite map_length. rewrite nth_error_map in Hj. destruct (nth_error (objs s) j) as [o'|] eqn:E; [|discriminate].
    injection Hj as <-. unfold kill_root. destruct (Nat.eqb _ _); cbn; eauto.
Qed.
Lemma mp_carve p h a n : mp (carve p h a n).
Proof.
  intros e s r s' H. unfold carve in H. destruct p as [k|]; [|discriminate]. destruct (nth_error (objs s) k) as [o|] eqn:E; [|discriminate].
  match type of H with (if ?b then _ else _) = _ => destruct b; [|discriminate] end. injection H as _ <-. apply grows_app. cbn.
  apply Nat.lt_le_incl, nth_error_Some. congruence.
Qed.
Lemma mp_set_header p c : mp (set_header p c).
Proof.
  intros e s r s' H. unfold set_header in H. destruct p as [k|]; [|discriminate]. destruct (nth_error (objs s) k) as [o|]; [|discriminate].
  destruct (o_live o); [|discriminate]. injection H as _ <-. apply grows_putc.
Qed.
Lemma mp_for lo hi body : (forall i, mp (body i)) -> mp (for_ lo hi body).
Proof.
  intros Hb. unfold for_. generalize (Z.to_nat (hi - lo)) as n. intros n. revert lo. induction n as [|n IH]; intros lo; cbn [iter_]; [apply mp_ret|].
  apply mp_bind; auto.
Qed.
Lemma mp_forS {S} lo hi (body : Z -> S -> M S) x : (forall i y, mp (body i y)) -> mp (forS lo hi body x).
Proof.
  intros Hb. unfold forS. generalize (Z.to_nat (hi - lo)) as n. intros n. revert lo x. induction n as [|n IH]; intros lo x; cbn [iterS]; [apply mp_ret|].
  apply mp_bind; auto.
Qed.
Lemma mp_if {A} (b : bool) (c d : M A) : mp c -> mp d -> mp (if b then c else d). Proof. now destruct b. Qed.

Ltac mps := cbv zeta; repeat first
  [ apply mp_ret | apply mp_ev | apply mp_assert | apply mp_sget | apply mp_hget | apply mp_addr | apply mp_loadle | apply mp_load8 | apply mp_store8 | apply mp_loadf
  | apply mp_storele | apply mp_storef | apply mp_memcpy | apply mp_memset | apply mp_malloc | apply mp_free | apply mp_carve | apply mp_set_header
  | apply mp_bind; [|intros ?] | apply mp_for; intros ? | apply mp_forS; intros ? ? | apply mp_if; cbv zeta | match goal with |- mp (let _ := _ in _) => cbv zeta end ].

Lemma mp_create R C ty ch : mp (create_simple_mat R C ty ch). Proof. unfold create_simple_mat, create_simple_mat_with_data. mps. Qed.
Lemma mp_delete p : mp (delete_simple_mat p). Proof. unfold delete_simple_mat. mps. Qed.
Lemma mp_mul es mac x y z m k n : mp (MulMatrix_with es mac x y z m k n). Proof. unfold MulMatrix_with. mps. Qed.
Lemma mp_transport a b : mp (simple_mat_transport a b). Proof. unfold simple_mat_transport. mps. Qed.
Lemma mp_cov a b c : mp (cal_covariance_matrix a b c).
Proof. unfold cal_covariance_matrix. repeat first [apply mp_create|apply mp_delete|apply mp_mul|apply mp_transport|progress mps]. Qed.
Lemma mp_norm a n : mp (matrix_norm_float a n). Proof. unfold matrix_norm_float. mps. Qed.
Lemma mp_qr a q r m : mp (matrix_QR_float a q r m). Proof. unfold matrix_QR_float. repeat first [apply mp_norm|progress mps]. Qed.
Lemma mp_eigen a v l m n : mp (cal_eigen_vector_float a v l m n). Proof. unfold cal_eigen_vector_float. mps. Qed.
Lemma mp_sort a n : mp (sort_array_down_float a n). Proof. unfold sort_array_down_float. mps. Qed.
Lemma mp_average x o n : mp (sp_average x o n). Proof. unfold sp_average. mps. Qed.
Lemma mp_copy p : mp (simple_mat_copy p). Proof. unfold simple_mat_copy. repeat first [apply mp_create|progress mps]. Qed.
Lemma mp_reshape p a b : mp (reshape_hypermat_2_simplemat p a b). Proof. unfold reshape_hypermat_2_simplemat. repeat first [apply mp_create|progress mps]. Qed.
