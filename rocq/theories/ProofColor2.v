(** * Proofs: exchanging channels in place. *)
From Verif Require Import Base Logic ModelCore ModelPixel SpecBase SpecCore SpecImage SpecImage2 SpecPixel
  ProofCore ProofLayout ProofHM ProofCopy ProofCore2 ProofImage3 ProofImage4 ProofBorder ProofPixel ProofColor.
From Coq Require Import ZifyBool ZifyNat.
Ltac Zify.zify_post_hook ::= Z.div_mod_to_equations.
Open Scope Z_scope.

Section InPlace.
  Variables (e : env) (s : st) (q : nat) (n : Z) (d : Z -> Z).
  Hypothesis I : isb s q n d.

  (** The three bytes of pixel b before (base d) and after. *)
  Definition kept (b : Z) (f : Z -> Z) : Prop := f b mod 256 = d b mod 256 /\ f (b + 1) mod 256 = d (b + 1) mod 256 /\ f (b + 2) mod 256 = d (b + 2) mod 256.
  Definition moved (b : Z) (f : Z -> Z) : Prop := f b mod 256 = d (b + 2) mod 256 /\ f (b + 1) mod 256 = d (b + 1) mod 256 /\ f (b + 2) mod 256 = d (b + 2) mod 256.

  Lemma swap_step b f : 0 <= b -> b + 2 < n -> kept b f \/ moved b f ->
    exists f', (v <- load8 (Some q) (b + 2) ;; store8 (Some q) b v ;;;
       v <- load8 (Some q) (b + 1) ;; store8 (Some q) (b + 1) v ;;;
       v <- load8 (Some q) b ;; store8 (Some q) (b + 2) v) e (putd s q f) = Ret tt (putd s q f')
      /\ moved b f' /\ (forall x, ~ b <= x < b + 3 -> f' x = f x).
  Proof.
    intros H0 H1 K.
    pose proof (fun g => isb_putd_eq s q n d g I) as J.
    rewrite (bind_ret _ _ _ _ _ _ (load8_ok e _ q n _ (b + 2) (J f) ltac:(lia))).
    rewrite (bind_ret _ _ _ _ _ _ (store8_ok e _ q n _ b _ (J f) ltac:(lia))). rewrite putd_putd.
    rewrite (bind_ret _ _ _ _ _ _ (load8_ok e _ q n _ (b + 1) (J _) ltac:(lia))).
    rewrite (bind_ret _ _ _ _ _ _ (store8_ok e _ q n _ (b + 1) _ (J _) ltac:(lia))). rewrite putd_putd.
    rewrite (bind_ret _ _ _ _ _ _ (load8_ok e _ q n _ b (J _) ltac:(lia))).
    rewrite (store8_ok e _ q n _ (b + 2) _ (J _) ltac:(lia)). rewrite putd_putd.
    eexists. split; [reflexivity|]. unfold moved, kept, fupd in *.
    split.
    - repeat match goal with |- context [Z.eqb ?a ?c] => destruct (Z.eqb_spec a c); try lia end.
    - intros x Hx. repeat match goal with |- context [Z.eqb ?a ?c] => destruct (Z.eqb_spec a c); try lia end.
  Qed.
End InPlace.

Lemma bgr2rgb_in_place e s p p' ms md : image s p ms 1 -> image s p' md 1 ->
  sm_rows ms = sm_rows md -> sm_cols ms = sm_cols md -> sm_chan ms = 3 -> sm_chan md = 3 -> sm_data ms = sm_data md ->
  exists s', sm_bgr2rgb p p' e s = Ret tt s'
    /\ (forall i j, 0 <= i < sm_rows md -> 0 <= j < sm_cols md ->
          pix s' md i j 0 = pix s md i j 2 /\ pix s' md i j 1 = pix s md i j 1 /\ pix s' md i j 2 = pix s md i j 2)
    /\ (forall x, ~ 0 <= x < sm_rows md * sm_cols md * 3 -> byte_at s' (sm_data md) x = byte_at s (sm_data md) x)
    /\ only_written (sm_data md) s s'.
Proof.
  intros Ip Id ER EC E3 E3' Hsame.
  destruct (image_pixels _ _ _ Id) as (q & n & d & Pd).
  pose proof Pd as [Dd Ib HR HC _ N Mx]. rewrite E3' in N, Mx.
  set (R := sm_rows md) in *. set (C := sm_cols md) in *.
  unfold sm_bgr2rgb.
  pose proof (im_hdr _ _ _ _ Ip) as Hp. pose proof (im_hdr _ _ _ _ Id) as Hd.
  destruct (sm_nonnull _ _ _ Hp) as (k1 & E1). destruct (sm_nonnull _ _ _ Hd) as (k2 & E2).
  rewrite bind_assert by (rewrite E1, E2; reflexivity).
  runs (sget_ok _ _ e _ Hp). rewrite bind_assert by (rewrite (proj1 (type_one _) (im_type _ _ _ _ Ip)); reflexivity).
  runs (sget_ok _ _ e _ Hd). rewrite ER, EC, E3, E3'. rewrite bind_assert by (rewrite !Z.eqb_refl; reflexivity).
  rewrite bind_assert by reflexivity. fold R C. cbv zeta. rewrite Hsame, Dd.
  (* k pixels done *)
  set (done := fun (k : Z) (f : Z -> Z) => (forall c, 0 <= c < k -> moved d (c * 3) f) /\ (forall x, ~ 0 <= x < k * 3 -> f x = d x)).
  match goal with |- exists f, ?m e s = _ /\ _ => assert (W : exists s', m e s = Ret tt s' /\ exists f, s' = putd s q f /\ done (R * C) f) end.
  { apply (for_inv e 0 R _ (fun i s1 => exists f, s1 = putd s q f /\ done (i * C) f)); [lia| |].
    { exists d. split; [symmetry; eapply putd_id; exact Ib|]. split; [intros; lia|reflexivity]. }
    intros i s1 Hi (f & -> & Df).
    destruct (for_inv e 0 C (fun j =>
      for_ 0 3 (fun t =>
        x0 <- ev (i * C * 3 + j * 3)%C ;;
        x1 <- ev (i * C * 3 + j * 3 + 1)%C ;;
        x2 <- ev (i * C * 3 + j * 3 + 2)%C ;;
        v <- load8 (Some q) x2 ;;
        store8 (Some q) x0 v ;;;
        v <- load8 (Some q) x1 ;;
        store8 (Some q) x1 v ;;;
        v <- load8 (Some q) x0 ;;
        store8 (Some q) x2 v)) (fun j s1 => exists f, s1 = putd s q f /\ done (i * C + j) f) (putd s q f)) as (s2 & RUN & f2 & -> & D2);
      [lia|exists f; split; [reflexivity|rewrite Z.add_0_r; exact Df]| |].
    2:{ exists (putd s q f2). split; [exact RUN|]. exists f2. split; [reflexivity|].
        replace ((i + 1) * C) with (i * C + C) by ring. exact D2. }
    clear f Df. intros j s1 Hj (f & -> & Df).
    assert (IX : 0 <= i * C + j < R * C) by (clear -Hi Hj; nia).
    assert (A0 : (i * C * 3 + j * 3)%C = Some ((i * C + j) * 3)).
    { unfold ci in *. rewrite (cmul_ok i C), (cmul_ok (i * C) 3), (cmul_ok j 3) by nia. rewrite cadd_ok by nia. f_equal. ring. }
    pose proof (idx3 R C i j 1 Hi Hj ltac:(lia) ltac:(lia)) as A1. pose proof (idx3 R C i j 2 Hi Hj ltac:(lia) ltac:(lia)) as A2.
    set (b := (i * C + j) * 3) in *.
    destruct (for_inv e 0 3 (fun t =>
        x0 <- ev (i * C * 3 + j * 3)%C ;;
        x1 <- ev (i * C * 3 + j * 3 + 1)%C ;;
        x2 <- ev (i * C * 3 + j * 3 + 2)%C ;;
        v <- load8 (Some q) x2 ;;
        store8 (Some q) x0 v ;;;
        v <- load8 (Some q) x1 ;;
        store8 (Some q) x1 v ;;;
        v <- load8 (Some q) x0 ;;
        store8 (Some q) x2 v)
      (fun t s1 => exists g, s1 = putd s q g /\ (if 0 <? t then moved d b g else kept d b g) /\ (forall x, ~ b <= x < b + 3 -> g x = f x)) (putd s q f))
      as (s2 & RUN & g & -> & M & O).
    - lia.
    - exists f. split; [reflexivity|]. split; [|reflexivity]. cbn. destruct Df as [_ K]. unfold kept.
      rewrite !K by (unfold b; lia). auto.
    - intros t s1 Ht (g & -> & M & O).
      assert (K : kept d b g \/ moved d b g) by (destruct (0 <? t); auto).
      destruct (swap_step e s q n d Ib b g ltac:(unfold b; lia) ltac:(unfold b; lia) K) as (g' & X & M' & O').
      exists (putd s q g'). split.
      + unfold ev. rewrite A1, A2, A0. exact X.
      + exists g'. split; [reflexivity|]. replace (0 <? t + 1) with true by lia. split; [exact M'|].
        intros x Hx. rewrite O' by exact Hx. apply O; exact Hx.
    - exists (putd s q g). split; [exact RUN|]. exists g. split; [reflexivity|]. cbn in M. destruct Df as [K1 K2]. split.
      + intros c Hc. destruct (Z.eq_dec c (i * C + j)) as [-> |Ne]; [exact M|].
        specialize (K1 c ltac:(lia)). unfold moved in *. rewrite !O by (unfold b; lia). exact K1.
      + intros x Hx. rewrite O by (unfold b; lia). apply K2. lia. }
  destruct W as (s' & RUN & f & -> & D1 & D2). exists (putd s q f). split; [exact RUN|]. split; [|split].
  - intros i j Hi Hj.
    assert (IX : 0 <= i * C + j < R * C) by (clear -Hi Hj; nia).
    assert (P' : pixels (putd s q f) md q n f) by (constructor; auto; [eapply isb_putd_eq; eauto|rewrite E3'; lia|rewrite E3'; lia|rewrite E3'; lia]).
    destruct (D1 _ IX) as (M0 & M1 & M2).
    assert (IN : forall k, 0 <= k < 3 -> in_image md i j k) by (intros k Hk; unfold in_image; rewrite E3'; auto).
    rewrite !(pix_val _ _ _ _ _ i j _ P') by (apply IN; lia). rewrite !(pix_val _ _ _ _ _ i j _ Pd) by (apply IN; lia).
    fold C. rewrite E3', Z.add_0_r. rewrite M0, M1, M2. auto.
  - intros x Hx. rewrite (byte_at_putd_eq _ _ _ _ _ _ Ib), (byte_at_isb_all _ _ _ _ _ Ib). now rewrite D2 by lia.
  - apply only_written_putd.
Qed.
