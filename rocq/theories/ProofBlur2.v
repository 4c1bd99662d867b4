(** * The Gaussian kernel. *)
From Verif Require Import Base ModelFloat ModelDouble ModelConv ModelBorder ModelCore ModelImage ModelMatrix ModelFilter ModelGauss Logic SpecBase SpecNum SpecMatrix SpecPixel SpecImage2 SpecFilter SpecGauss SpecCxx.
From Verif Require Import ProofCore ProofCore2 ProofPixel ProofArr ProofGrid ProofMatrix ProofFold ProofImage4 ProofLayout ProofInvert ProofFloat ProofFloat2 ProofGrad ProofFilter ProofWord ProofHM ProofCopy ProofImage3 ProofConv ProofBlur.
From Coq Require Import Floats.SpecFloat Lia ZifyBool ZifyNat.
Open Scope Z_scope.
Ltac Zify.zify_post_hook ::= Z.div_mod_to_equations.

(** ** Doubles in memory *)
Definition db_word (x : sf) : Z := bits_of_db x mod 18446744073709551616.

Lemma loadd_arr e s q n g t : arr s q 0 8 n g -> 0 <= t < n -> loadd (Some q) t e s = Ret (db_of_bits (g t)) s.
Proof.
  intros A Ht. unfold loadd. now rewrite (bind_ret _ _ _ _ _ _ (arr_load e s q 0 8 n g t (8 * t) 8%nat A Ht ltac:(lia) ltac:(lia))).
Qed.
Lemma stored_arr e s q n g t x : arr s q 0 8 n g -> 0 <= t < n ->
  exists s', stored_ (Some q) t x e s = Ret tt s' /\ arr s' q 0 8 n (fupd g t (db_word x)) /\ inside s q 0 (n * 8) s'.
Proof.
  intros A Ht. unfold stored_. destruct (arr_store e s q 0 8 n g t (8 * t) 8%nat (bits_of_db x) A Ht ltac:(lia) ltac:(lia)) as (s' & E & A' & I').
  exists s'. split; [exact E|]. split; [exact A'|]. refine (inside_weaken _ _ _ _ _ _ _ _ _ I'); lia.
Qed.

(** ** The two loops, for either type *)
Section Loops.
  Variables (e : env) (q : nat) (es n : Z) (wv : sf -> Z) (rd : Z -> sf) (sto : Z -> sf -> M unit) (ld : Z -> M sf).
  Variables (conv up : sf -> sf) (T : Z -> sf).
  Hypothesis Hn : 0 < n.
  Hypothesis STO : forall s t y g, arr s q 0 es n g -> 0 <= t < n ->
    exists s', sto t y e s = Ret tt s' /\ arr s' q 0 es n (fupd g t (wv y)) /\ inside s q 0 (n * es) s'.
  Hypothesis LD : forall s t g, arr s q 0 es n g -> 0 <= t < n -> ld t e s = Ret (rd (g t)) s.

  Definition tap (i : Z) : sf := up (rd (wv (conv (T i)))).
  Definition taps : sf := foldz n (fun a i => db_add a (tap i)) (db_of_Z 0).

  Lemma first_loop s g : arr s q 0 es n g ->
    exists s', forS 0 n (fun i sum => sto i (conv (T i)) ;;; v <- ld i ;; ret (db_add sum (up v))) (db_of_Z 0) e s = Ret taps s'
      /\ arr s' q 0 es n (fun i => wv (conv (T i))) /\ inside s q 0 (n * es) s'.
  Proof.
    intros A. destruct (arr_isb _ _ _ _ _ _ A) as (N0 & d0 & H0).
    destruct (forS_inv e 0 n (fun i sum => sto i (conv (T i)) ;;; v <- ld i ;; ret (db_add sum (up v)))
      (fun i x s1 => x = foldz i (fun a i => db_add a (tap i)) (db_of_Z 0) /\ inside s q 0 (n * es) s1
         /\ arr s1 q 0 es n (fun t => if t <? i then wv (conv (T t)) else g t)) s (db_of_Z 0)) as (y & s' & E & -> & I & A'); [lia| | |].
    - split; [reflexivity|]. split; [eapply inside_refl; eauto|]. eapply arr_ext; [|exact A]. intros t Ht. cbv beta.
      now replace (t <? 0) with false by lia.
    - intros i x s1 Hi (-> & I1 & A1). destruct (STO s1 i (conv (T i)) _ A1 Hi) as (s2 & E2 & A2 & I2).
      rewrite (bind_ret _ _ _ _ _ _ E2). rewrite (bind_ret _ _ _ _ _ _ (LD s2 i _ A2 Hi)).
      eexists _, s2. split; [reflexivity|]. split; [|split].
      + rewrite foldz_S by lia. unfold fupd. rewrite Z.eqb_refl. reflexivity.
      + eapply inside_trans; eauto.
      + eapply arr_ext; [|exact A2]. intros t Ht. unfold fupd. destruct (Z.eqb_spec t i) as [-> |].
        * now replace (i <? i + 1) with true by lia.
        * destruct (t <? i) eqn:L; [now replace (t <? i + 1) with true by lia|now replace (t <? i + 1) with false by lia].
    - exists s'. split; [exact E|]. split; auto. eapply arr_ext; [|exact A']. intros t Ht. cbv beta.
      now replace (t <? n) with true by lia.
  Qed.

  Lemma second_loop s (c : sf) : arr s q 0 es n (fun i => wv (conv (T i))) ->
    exists s', for_ 0 n (fun i => v <- ld i ;; sto i (conv (db_mul (up v) c))) e s = Ret tt s'
      /\ arr s' q 0 es n (fun i => wv (conv (db_mul (tap i) c))) /\ inside s q 0 (n * es) s'.
  Proof.
    intros A. destruct (arr_isb _ _ _ _ _ _ A) as (N0 & d0 & H0).
    destruct (for_inv e 0 n (fun i => v <- ld i ;; sto i (conv (db_mul (up v) c)))
      (fun i s1 => inside s q 0 (n * es) s1
         /\ arr s1 q 0 es n (fun t => if t <? i then wv (conv (db_mul (tap t) c)) else wv (conv (T t)))) s) as (s' & E & I & A'); [lia| | |].
    - split; [eapply inside_refl; eauto|]. eapply arr_ext; [|exact A]. intros t Ht. cbv beta.
      now replace (t <? 0) with false by lia.
    - intros i s1 Hi (I1 & A1). rewrite (bind_ret _ _ _ _ _ _ (LD s1 i _ A1 Hi)). cbv beta.
      replace (i <? i) with false by lia.
      destruct (STO s1 i (conv (db_mul (up (rd (wv (conv (T i))))) c)) _ A1 Hi) as (s2 & E2 & A2 & I2).
      exists s2. split; [exact E2|]. split; [eapply inside_trans; eauto|].
      eapply arr_ext; [|exact A2]. intros t Ht. unfold fupd. destruct (Z.eqb_spec t i) as [-> |].
      + now replace (i <? i + 1) with true by lia.
      + destruct (t <? i) eqn:L; [now replace (t <? i + 1) with true by lia|now replace (t <? i + 1) with false by lia].
    - exists s'. split; [exact E|]. split; auto. eapply arr_ext; [|exact A']. intros t Ht. cbv beta.
      now replace (t <? n) with true by lia.
  Qed.
End Loops.

(** The stored weights, as float words (ktype 4) or double words (ktype 5). *)
Definition weight4 (n : Z) (T : Z -> sf) (i : Z) : Z :=
  fl_word (fl_of_db (db_mul (tap fl_word fl_of_bits fl_of_db db_of_fl T i)
    (db_div (db_of_Z 1) (taps n fl_word fl_of_bits fl_of_db db_of_fl T)))).
Definition weight5 (n : Z) (T : Z -> sf) (i : Z) : Z :=
  db_word (db_mul (tap db_word db_of_bits (fun x => x) (fun x => x) T i)
    (db_div (db_of_Z 1) (taps n db_word db_of_bits (fun x => x) (fun x => x) T))).

Lemma kernel_run exp_ e s n sigma ktype es : env_ok e -> heap_ok s -> 0 < n ->
  (ktype = 4 /\ es = 4) \/ (ktype = 5 /\ es = 8) -> n * es + 96 <= 2147483647 ->
  exists d, gaussian_kernel exp_ n sigma ktype e s = Ret (Some (List.length (objs s))) (newsm e s 1 n ktype es 1 d)
    /\ arr (newsm e s 1 n ktype es 1 d) (List.length (objs s) + 1) 0 es n
         ((if ktype =? 4 then weight4 else weight5) n (gauss_t exp_ (gauss_fixed n sigma) n (gauss_scale n sigma))).
Proof.
  intros He Hs Hn Hk Hsz. set (k := List.length (objs s)).
  assert (Hty : type_size ktype = Some es) by (destruct Hk as [[-> ->]|[-> ->]]; reflexivity).
  destruct (create_sm_run e s 1 n ktype es 1 He Hs Hty ltac:(lia) Hn ltac:(lia) ltac:(lia)) as (dd & EN & _ & _). fold k in EN.
  unfold gaussian_kernel. rewrite bind_assert by lia. rewrite bind_assert by (destruct Hk as [[-> _]|[-> _]]; reflexivity).
  rewrite (bind_ret _ _ _ _ _ _ EN). rewrite (bind_ret _ _ _ _ _ _ (sget_ok _ _ e _ (newsm_at e s 1 n ktype es 1 dd))).
  cbv zeta. set (T := gauss_t exp_ (gauss_fixed n sigma) n (gauss_scale n sigma)). clearbody T.
  cbn [newsm_hdr sm_data]. fold k. set (s1 := newsm e s 1 n ktype es 1 dd) in *.
  assert (A0 : exists g, arr s1 (k + 1) 0 es n g).
  { eexists. refine (arr_of s1 (k + 1) _ dd 0 es n (newsm_data e s 1 n ktype es 1 dd) _ _ _); lia. }
  destruct A0 as [g A0].
  assert (FIN : forall s2 w, inside s1 (k + 1) 0 (n * es) s2 -> arr s2 (k + 1) 0 es n w ->
    exists d, s2 = newsm e s 1 n ktype es 1 d /\ arr (newsm e s 1 n ktype es 1 d) (k + 1) 0 es n w).
  { intros s2 w (M & d1 & d2 & _ & -> & _) A. exists d2.
    assert (Q : putd s1 (k + 1) d2 = newsm e s 1 n ktype es 1 d2) by apply newsm_putd. rewrite <- Q. auto. }
  destruct Hk as [[-> ->]|[-> ->]].
  - change (4 =? 4) with true. cbv beta iota.
    destruct (first_loop e (k + 1) 4 n fl_word fl_of_bits (storef (Some (k + 1)%nat)) (loadf (Some (k + 1)%nat)) fl_of_db db_of_fl T Hn) with (s := s1) (g := g)
      as (s2 & E2 & A2 & I2); auto.
    { intros; now apply storef_arr. } { intros; eapply loadf_arr; eauto. }
    rewrite (bind_ret _ _ _ _ _ _ E2). clear E2.
    destruct (second_loop e (k + 1) 4 n fl_word fl_of_bits (storef (Some (k + 1)%nat)) (loadf (Some (k + 1)%nat)) fl_of_db db_of_fl T Hn) with (s := s2)
      (c := db_div (db_of_Z 1) (taps n fl_word fl_of_bits fl_of_db db_of_fl T)) as (s3 & E3 & A3 & I3); auto.
    { intros; now apply storef_arr. } { intros; eapply loadf_arr; eauto. }
    rewrite (bind_ret _ _ _ _ _ _ E3). clear E3.
    destruct (FIN s3 _ (inside_trans _ _ _ _ _ _ I2 I3) A3) as (d & -> & A4). exists d. split; [reflexivity|exact A4].
  - change (5 =? 4) with false. cbv beta iota.
    destruct (first_loop e (k + 1) 8 n db_word db_of_bits (stored_ (Some (k + 1)%nat)) (loadd (Some (k + 1)%nat)) (fun x => x) (fun x => x) T Hn) with (s := s1) (g := g)
      as (s2 & E2 & A2 & I2); auto.
    { intros; now apply stored_arr. } { intros; eapply loadd_arr; eauto. }
    rewrite (bind_ret _ _ _ _ _ _ E2). clear E2.
    destruct (second_loop e (k + 1) 8 n db_word db_of_bits (stored_ (Some (k + 1)%nat)) (loadd (Some (k + 1)%nat)) (fun x => x) (fun x => x) T Hn) with (s := s2)
      (c := db_div (db_of_Z 1) (taps n db_word db_of_bits (fun x => x) (fun x => x) T)) as (s3 & E3 & A3 & I3); auto.
    { intros; now apply stored_arr. } { intros; eapply loadd_arr; eauto. }
    rewrite (bind_ret _ _ _ _ _ _ E3). clear E3.
    destruct (FIN s3 _ (inside_trans _ _ _ _ _ _ I2 I3) A3) as (d & -> & A4). exists d. split; [reflexivity|exact A4].
Qed.

(** ** Symmetry *)
Lemma num_inj x y a : db_ok x -> db_ok y -> sf_num x = Some a -> sf_num y = Some a -> a <> 0 -> x = y.
Proof.
  intros Vx Vy Nx Ny Ha.
  pose proof (compare_num 53 1024 ltac:(lia) ltac:(lia) ltac:(lia) x y a a Vx Vy Nx Ny) as Hc. rewrite Z.compare_refl in Hc.
  destruct x as [sx| | |sx mx ex]; try discriminate Nx; [cbn in Nx; congruence|].
  destruct y as [sy| | |sy my ey]; try discriminate Ny; [cbn in Ny; congruence|].
  cbn [SFcompare] in Hc. destruct sx, sy; try discriminate Hc.
  - destruct (Z.compare_spec ex ey) as [-> | |]; try discriminate Hc.
    injection Hc as Hc. destruct (Pos.compare_cont Eq mx my) eqn:Q; try discriminate Hc.
    apply Pos.compare_eq in Q as ->. reflexivity.
  - destruct (Z.compare_spec ex ey) as [-> | |]; try discriminate Hc.
    injection Hc as Hc. apply Pos.compare_eq in Hc as ->. reflexivity.
Qed.

Lemma round_aux_opp prec emax s m ex l :
  binary_round_aux prec emax (negb s) m ex l = SFopp (binary_round_aux prec emax s m ex l).
Proof.
  unfold binary_round_aux. destruct (shr_fexp prec emax m ex l) as [r1 e1].
  destruct (shr_fexp prec emax (round_nearest_even (shr_m r1) (loc_of_shr_record r1)) e1 loc_Exact) as [r2 e2].
  destruct (shr_m r2); auto. destruct (e2 <=? emax - prec); auto.
Qed.

Lemma mul_opp_l x y : db_mul (SFopp x) y = SFopp (db_mul x y).
Proof.
  unfold db_mul. destruct x as [[|]|[|]| |sx mx ex], y as [[|]|[|]| |sy my ey]; try reflexivity;
    cbn [SFopp SFmul]; try (now destruct sx); try (now destruct sy).
  rewrite <- round_aux_opp. f_equal. now destruct sx, sy.
Qed.
Lemma mul_opp_r x y : db_mul x (SFopp y) = SFopp (db_mul x y).
Proof.
  unfold db_mul. destruct x as [[|]|[|]| |sx mx ex], y as [[|]|[|]| |sy my ey]; try reflexivity;
    cbn [SFopp SFmul]; try (now destruct sx); try (now destruct sy).
  rewrite <- round_aux_opp. f_equal. now destruct sx, sy.
Qed.
Lemma opp_opp x : SFopp (SFopp x) = x.
Proof. destruct x; cbn; now rewrite ?negb_involutive. Qed.

Lemma gauss_x_num n i : 0 <= i < n -> n <= 2147483647 ->
  db_ok (gauss_x n i) /\ sf_num (gauss_x n i) = Some ((2 * i - (n - 1)) * 2 ^ 1073).
Proof.
  intros Hi Hn. unfold gauss_x, db_sub, db_mul, db_half.
  destruct (db_of_Z_ok i ltac:(lia)) as [Vi Ni]. destruct (db_of_Z_ok (n - 1) ltac:(lia)) as [Vn Nn].
  assert (Vh : db_ok (dlit 1 2)) by (vm_compute; reflexivity).
  assert (Nh : sf_num (dlit 1 2) = Some (2 ^ 1073)) by (vm_compute; reflexivity).
  rewrite sf_one_eq in *. assert (P : 2 ^ 1074 = 2 * 2 ^ 1073) by (rewrite <- Z.pow_succ_r by (clear; lia); reflexivity).
  pose proof (SFmul_num 53 1024 ltac:(lia) ltac:(lia) ltac:(lia) _ _ _ _ Vn Vh Nn Nh) as Rm.
  assert (P1 : 2 ^ (-1 + 2148) = 2 ^ 1074 * 2 ^ 1073) by (rewrite <- Z.pow_add_r by (clear; lia); reflexivity).
  assert (W : forall w, Z.abs w <= 2147483647 -> Z.abs w * 2 ^ 1073 < 2 ^ (1024 + 1074)).
  { clear. intros w Hw. change (1024 + 1074) with (1025 + 1073). rewrite Z.pow_add_r by lia. apply Z.mul_lt_mono_pos_r; [apply Z.pow_pos_nonneg; lia|].
    apply Z.le_lt_trans with (2 ^ 31); [etransitivity; [exact Hw|clear; lia]|apply Z.pow_lt_mono_r; clear; lia]. }
  destruct (rounded_exact 53 1024 2148 ((n - 1) * 2 ^ 1074 * 2 ^ 1073) (n - 1) (-1) _ ltac:(clear; lia) ltac:(clear; lia) ltac:(clear; lia) ltac:(clear; unfold emin; lia) ltac:(clear; unfold emin; lia)
    ltac:(rewrite P1; generalize (2 ^ 1074) (2 ^ 1073); clear; intros; ring) ltac:(clear - Hi Hn; change (2 ^ 53) with 9007199254740992; lia) (W (n - 1) ltac:(clear - Hi Hn; lia)) Rm) as [Vm Nm].
  change (-1 + 1074) with 1073 in Nm.
  pose proof (SFsub_num 53 1024 ltac:(lia) ltac:(lia) ltac:(lia) _ _ _ _ Vi Vm Ni Nm) as Rs.
  destruct (rounded_exact 53 1024 1074 (i * 2 ^ 1074 - (n - 1) * 2 ^ 1073) (2 * i - (n - 1)) (-1) _ ltac:(clear; lia) ltac:(clear; lia) ltac:(clear; lia) ltac:(clear; unfold emin; lia) ltac:(clear; unfold emin; lia)
    ltac:(rewrite P; change (-1 + 1074) with 1073; generalize (2 ^ 1073); clear; intros; ring) ltac:(clear - Hi Hn; change (2 ^ 53) with 9007199254740992; lia) (W (2 * i - (n - 1)) ltac:(clear - Hi Hn; lia)) Rs) as [Vs Ns].
  change (-1 + 1074) with 1073 in Ns. split; auto.
Qed.

Lemma sf_num_opp x a : sf_num x = Some a -> sf_num (SFopp x) = Some (- a).
Proof.
  destruct x as [s| | |s m ex]; cbn; try discriminate; intros [= <-]; auto. destruct s; cbn [negb cond_Zopp]; f_equal; lia.
Qed.
Lemma ok_opp x : db_ok x -> db_ok (SFopp x).
Proof. destruct x; auto. Qed.

Lemma gauss_x_sym n i : 0 <= i < n -> n <= 2147483647 ->
  gauss_x n (n - 1 - i) = gauss_x n i \/ gauss_x n (n - 1 - i) = SFopp (gauss_x n i).
Proof.
  intros Hi Hn. destruct (Z.eq_dec (2 * i) (n - 1)) as [E|E]; [left; f_equal; lia|right].
  destruct (gauss_x_num n i Hi Hn) as [V1 N1]. destruct (gauss_x_num n (n - 1 - i) ltac:(lia) Hn) as [V2 N2].
  assert (0 < 2 ^ 1073) by (apply Z.pow_pos_nonneg; lia).
  apply (num_inj _ _ _ V2 (ok_opp _ V1) N2).
  - rewrite (sf_num_opp _ _ N1). f_equal. rewrite <- Z.mul_opp_l. f_equal. lia.
  - apply Z.neq_mul_0. split; lia.
Qed.

Lemma gauss_t_sym exp_ fixed n sc i : 0 <= i < n -> n <= 2147483647 -> (fixed = true -> n = 1 \/ n = 3 \/ n = 5 \/ n = 7) ->
  gauss_t exp_ fixed n sc (n - 1 - i) = gauss_t exp_ fixed n sc i.
Proof.
  intros Hi Hn Hf. unfold gauss_t. destruct fixed.
  - f_equal. f_equal. destruct (Hf eq_refl) as [-> |[-> |[-> | ->]]].
    + assert (i = 0) as -> by lia. reflexivity.
    + assert (C : i = 0 \/ i = 1 \/ i = 2) by lia. destruct C as [-> |[-> | ->]]; reflexivity.
    + assert (C : i = 0 \/ i = 1 \/ i = 2 \/ i = 3 \/ i = 4) by lia. destruct C as [-> |[-> |[-> |[-> | ->]]]]; reflexivity.
    + assert (C : i = 0 \/ i = 1 \/ i = 2 \/ i = 3 \/ i = 4 \/ i = 5 \/ i = 6) by lia.
      destruct C as [-> |[-> |[-> |[-> |[-> |[-> | ->]]]]]]; reflexivity.
  - f_equal. destruct (gauss_x_sym n i Hi Hn) as [-> | ->]; auto.
    rewrite !mul_opp_r, mul_opp_l, opp_opp. reflexivity.
Qed.

Lemma fixed_size n sigma : 0 < n -> gauss_fixed n sigma = true -> n = 1 \/ n = 3 \/ n = 5 \/ n = 7.
Proof. intros Hn H. unfold gauss_fixed in H. apply andb_prop in H as [H _]. lia. Qed.

Lemma weight_sym (w : bool) n T i : 0 <= i < n -> T (n - 1 - i) = T i ->
  (if w then weight4 else weight5) n T (n - 1 - i) = (if w then weight4 else weight5) n T i.
Proof. intros Hi E. destruct w; unfold weight4, weight5, tap; now rewrite E. Qed.
