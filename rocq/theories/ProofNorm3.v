(** * Proofs: normalisation, the properties. *)
From Verif Require Import Base ModelCore ModelFloat ModelDouble ModelConv ModelImage ModelNorm SpecBase SpecImage SpecImage2 SpecNum SpecMatrix SpecStat SpecNorm.
From Verif Require Import Logic ProofCore ProofHM ProofWord ProofArr ProofGrid ProofFloat ProofFloat2 ProofDiv ProofConv ProofGrad ProofStat ProofFold ProofMatrix ProofValid.
From Verif Require Import ProofAtof ProofSpectral ProofSpectral4 ProofNorm ProofNorm2 ProofRot.
From Coq Require Import Floats.SpecFloat Lia ZifyBool ZifyNat.
Open Scope Z_scope.

Lemma bytes_of s src dst ms md W : normalizable s src dst ms md W ->
  sm_type ms = 1 -> forall i, 0 <= i < sm_rows ms * sm_cols ms -> 0 <= W i < 256.
Proof.
  intros H T i Hi. pose proof (nz_data _ _ _ _ _ _ H i Hi) as D. rewrite T in D.
  exact (ProofSpectral.word_range _ _ _ 1 _ D).
Qed.
Lemma norm_run e s src dst ms md W t alpha beta : normalizable s src dst ms md W -> In t [1; 2; 4; 32] ->
  let ty := sm_type ms in let n := sm_rows ms * sm_cols ms in
  exists s', hypercv_normalize src dst alpha beta t e s = Ret tt s'
    /\ elements_of s' (sm_data md) (elem_size ty) n
         (fun i => elem_coded ty (saturate_cast_float2uchar (norm_value ty t n alpha beta W (elem_reading ty (W i)))))
    /\ only_bytes s (sm_data md) 0 (n * elem_size ty) s'.
Proof.
  intros [H1 H2 H3 H4 [H5 H6] H7 H8 H9 H10] Ht. now apply normalize_run.
Qed.
Lemma nearest_exists N m : 0 < m -> exists z, nearest_even N m z.
Proof. intros Hm. exists (rne N m). now apply rne_nearest. Qed.

Lemma norm_rescaled e s src dst ms md W t alpha beta N m : normalizable s src dst ms md W -> In t [1; 2; 4; 32] -> 0 < m ->
  let ty := sm_type ms in let n := sm_rows ms * sm_cols ms in
  (forall i z, 0 <= i < n -> nearest_even (N i) m z ->
     saturate_cast_float2uchar (norm_value ty t n alpha beta W (elem_reading ty (W i))) = clamp 0 255 z) ->
  exists s', hypercv_normalize src dst alpha beta t e s = Ret tt s' /\ rescaled s' (sm_data md) ty n N m
    /\ only_bytes s (sm_data md) 0 (n * elem_size ty) s'.
Proof.
  intros H Ht Hm ty n HV. destruct (norm_run e s src dst ms md W t alpha beta H Ht) as (s' & E & A & O). fold ty n in A, O.
  exists s'. split; auto. split; auto. intros i Hi. destruct (nearest_exists (N i) m Hm) as (z & Hz).
  specialize (A i Hi). cbv beta in A. rewrite (HV i z Hi Hz) in A. eexists _, z. split; [exact A|]. split; auto.
  apply coded_int; [exact (nz_type _ _ _ _ _ _ H)|]. unfold clamp. lia.
Qed.

Theorem minmax_exact : forall e s src dst ms md W z lo hi alpha beta A B, normalizable s src dst ms md W ->
  let ty := sm_type ms in let n := sm_rows ms * sm_cols ms in
  (forall i, 0 <= i < n -> denotes_int ty (W i) (z i)) -> extremes n z lo hi -> lo < hi -> hi - lo <= 4096 -> -1000000 <= lo -> hi <= 1000000 ->
  is_int alpha A -> is_int beta B -> -255 <= A <= 255 -> -255 <= B <= 255 ->
  exists s', hypercv_normalize src dst alpha beta 32 e s = Ret tt s'
    /\ rescaled s' (sm_data md) ty n (fun i => (z i - lo) * Z.abs (B - A) + Z.min A B * (hi - lo)) (hi - lo)
    /\ only_bytes s (sm_data md) 0 (n * elem_size ty) s'.
Proof.
  intros e s src dst ms md W z lo hi alpha beta A B H ty n HZ HE Hlt Hr Hlo Hhi Fa Fb HA HB.
  assert (Hn : 0 < n) by (destruct (nz_pos _ _ _ _ _ _ H); unfold n; nia). pose proof (nz_type _ _ _ _ _ _ H) as HT. fold ty in HT.
  pose proof (bytes_of _ _ _ _ _ _ H) as HBy.
  apply (norm_rescaled e s src dst ms md W 32 alpha beta); auto; [cbn; auto 6|lia|]. fold ty n.
  intros i v Hi Hv. unfold norm_value. change (32 =? 2) with false. change (32 =? 4) with false. change (32 =? 1) with false. cbv iota.
  pose proof (min_max ty n W z Hn HT HZ HBy lo hi HE Hlo Hhi) as MM. cbv zeta in MM |- *.
  set (mm := foldz n _ _) in *. destruct MM as [F1 F2]. clearbody mm.
  pose proof (reading_int ty n W z HT HZ HBy i Hi) as X. pose proof (proj2 (proj2 HE) i Hi) as Rg.
  assert (LB : fint (if SFltb beta alpha then beta else alpha) (Z.min A B) /\ fint (if SFltb beta alpha then alpha else beta) (Z.max A B)).
  { rewrite (fint_ltb _ _ _ _ Fb Fa). destruct (Z.ltb_spec B A); [rewrite Z.min_r, Z.max_l by lia|rewrite Z.min_l, Z.max_r by lia]; auto. }
  destruct LB as [L1 L2]. set (a := if SFltb beta alpha then beta else alpha) in *. set (b := if SFltb beta alpha then alpha else beta) in *.
  assert (EB : Z.max A B - Z.min A B = Z.abs (B - A)) by lia.
  assert (PB : 0 <= (z i - lo) * Z.abs (B - A) <= 510 * (hi - lo)) by (clear - Rg HA HB; nia).
  apply (shifted_rounds _ _ a ((z i - lo) * Z.abs (B - A)) (hi - lo) (Z.min A B)); try lia; auto.
  - apply fint_mul; [apply fint_sub; auto; lia| |lia]. rewrite <- EB. apply fint_sub; auto; lia.
  - apply fint_sub; auto; lia.
Qed.

Theorem l1_exact : forall e s src dst ms md W z alpha beta A, normalizable s src dst ms md W ->
  let ty := sm_type ms in let n := sm_rows ms * sm_cols ms in
  (forall i, 0 <= i < n -> denotes_int ty (W i) (z i)) -> (forall i, 0 <= i < n -> 0 <= z i) -> 0 < sumz n z <= 16777216 ->
  is_int alpha A -> (forall i, 0 <= i < n -> 0 <= z i * A < 4194304) ->
  exists s', hypercv_normalize src dst alpha beta 2 e s = Ret tt s'
    /\ rescaled s' (sm_data md) ty n (fun i => z i * A) (sumz n z)
    /\ only_bytes s (sm_data md) 0 (n * elem_size ty) s'.
Proof.
  intros e s src dst ms md W z alpha beta A H ty n HZ H0 HS Fa HA.
  assert (Hn : 0 < n) by (destruct (nz_pos _ _ _ _ _ _ H); unfold n; nia). pose proof (nz_type _ _ _ _ _ _ H) as HT. fold ty in HT.
  pose proof (bytes_of _ _ _ _ _ _ H) as HBy.
  apply (norm_rescaled e s src dst ms md W 2 alpha beta); auto; [cbn; auto 6|lia|]. fold ty n.
  intros i v Hi Hv. unfold norm_value. change (2 =? 2) with true. cbv iota. specialize (HA i Hi).
  apply (quotient_rounds _ _ (z i * A) (sumz n z)); auto; try lia.
  - apply fint_mul; auto; [now apply (reading_int ty n W z HT HZ HBy)|lia].
  - apply (l1_sum ty n W z Hn HT HZ HBy H0). lia.
Qed.

Theorem inf_exact : forall e s src dst ms md W z lo hi alpha beta A, normalizable s src dst ms md W ->
  let ty := sm_type ms in let n := sm_rows ms * sm_cols ms in
  (forall i, 0 <= i < n -> denotes_int ty (W i) (z i)) -> extremes n z lo hi -> 0 <= lo -> 0 < hi <= 16777216 ->
  is_int alpha A -> (forall i, 0 <= i < n -> 0 <= z i * A < 4194304) ->
  exists s', hypercv_normalize src dst alpha beta 1 e s = Ret tt s'
    /\ rescaled s' (sm_data md) ty n (fun i => z i * A) hi
    /\ only_bytes s (sm_data md) 0 (n * elem_size ty) s'.
Proof.
  intros e s src dst ms md W z lo hi alpha beta A H ty n HZ HE Hlo Hhi Fa HA.
  assert (Hn : 0 < n) by (destruct (nz_pos _ _ _ _ _ _ H); unfold n; nia). pose proof (nz_type _ _ _ _ _ _ H) as HT. fold ty in HT.
  pose proof (bytes_of _ _ _ _ _ _ H) as HBy.
  apply (norm_rescaled e s src dst ms md W 1 alpha beta); auto; [cbn; auto 6|lia|]. fold ty n.
  intros i v Hi Hv. unfold norm_value. change (1 =? 2) with false. change (1 =? 4) with false. change (1 =? 1) with true. cbv iota. specialize (HA i Hi).
  apply (quotient_rounds _ _ (z i * A) hi); auto; try lia.
  - apply fint_mul; auto; [now apply (reading_int ty n W z HT HZ HBy)|lia].
  - apply (inf_max ty n W z Hn HT HZ HBy); eauto; [|lia]. intros k Hk. pose proof (proj2 (proj2 HE) k Hk). lia.
Qed.

Theorem l2_exact : forall e s src dst ms md W z r alpha beta A, normalizable s src dst ms md W ->
  let ty := sm_type ms in let n := sm_rows ms * sm_cols ms in
  (forall i, 0 <= i < n -> denotes_int ty (W i) (z i)) -> sumz n (fun i => z i * z i) = r * r -> 0 < r -> r * r <= 16777216 ->
  is_int alpha A -> (forall i, 0 <= i < n -> 0 <= z i * A < 4194304) ->
  exists s', hypercv_normalize src dst alpha beta 4 e s = Ret tt s'
    /\ rescaled s' (sm_data md) ty n (fun i => z i * A) r
    /\ only_bytes s (sm_data md) 0 (n * elem_size ty) s'.
Proof.
  intros e s src dst ms md W z r alpha beta A H ty n HZ HS Hr Hr2 Fa HA.
  assert (Hn : 0 < n) by (destruct (nz_pos _ _ _ _ _ _ H); unfold n; nia). pose proof (nz_type _ _ _ _ _ _ H) as HT. fold ty in HT.
  pose proof (bytes_of _ _ _ _ _ _ H) as HBy. assert (Hr4 : r <= 4096) by nia.
  apply (norm_rescaled e s src dst ms md W 4 alpha beta); auto; [cbn; auto 6|]. fold ty n.
  intros i v Hi Hv. unfold norm_value. change (4 =? 2) with false. change (4 =? 4) with true. cbv iota. specialize (HA i Hi).
  apply (double_quotient _ _ (z i * A) r); auto; try lia.
  - apply fint_mul; auto; [now apply (reading_int ty n W z HT HZ HBy)|lia].
  - apply sqrt_whole; [lia|]. rewrite <- HS in *. destruct (l2_sum ty n W z Hn HT HZ HBy Hr2) as [V N]. destruct (db_of_fl_ok _ V) as [V' N']. split; auto. now rewrite N'.
Qed.

(** Whatever the contents and the range, a float result consists of whole numbers from 0 to 255. *)
Theorem float_bytes : forall e s src dst ms md W t alpha beta, normalizable s src dst ms md W -> sm_type ms = 4 -> In t [1; 2; 4; 32] ->
  exists s' V, hypercv_normalize src dst alpha beta t e s = Ret tt s' /\ elements_of s' (sm_data md) 4 (sm_rows ms * sm_cols ms) V
    /\ forall i, 0 <= i < sm_rows ms * sm_cols ms -> exists v, 0 <= v <= 255 /\ is_int (fl_of_bits (V i)) v.
Proof.
  intros e s src dst ms md W t alpha beta H T Ht. destruct (norm_run e s src dst ms md W t alpha beta H Ht) as (s' & E & A & _).
  rewrite T in A. unfold elem_size in A. cbn [Z.eqb Pos.eqb] in A. exists s'. eexists. split; [exact E|]. split; [exact A|]. cbv beta. intros i Hi.
  match goal with |- context [saturate_cast_float2uchar ?x] => pose proof (saturate_byte x) as B; exists (saturate_cast_float2uchar x) end.
  split; [lia|]. apply (coded_int 4); auto.
Qed.

(** A constant matrix becomes 0, whatever the range. *)
Theorem minmax_constant : forall e s src dst ms md W c alpha beta A B, normalizable s src dst ms md W ->
  let ty := sm_type ms in let n := sm_rows ms * sm_cols ms in
  (forall i, 0 <= i < n -> denotes_int ty (W i) c) -> -1000000 <= c <= 1000000 ->
  is_int alpha A -> is_int beta B -> -255 <= A <= 255 -> -255 <= B <= 255 ->
  exists s', hypercv_normalize src dst alpha beta 32 e s = Ret tt s'
    /\ rescaled s' (sm_data md) ty n (fun _ => 0) 1.
Proof.
  intros e s src dst ms md W c alpha beta A B H ty n HZ Hc Fa Fb HA HB.
  assert (Hn : 0 < n) by (destruct (nz_pos _ _ _ _ _ _ H); unfold n; nia). pose proof (nz_type _ _ _ _ _ _ H) as HT. fold ty in HT.
  pose proof (bytes_of _ _ _ _ _ _ H) as HBy.
  destruct (norm_rescaled e s src dst ms md W 32 alpha beta (fun _ => 0) 1) as (s' & E & R & _); auto; [cbn; auto 6|lia| |eauto]. fold ty n.
  intros i v Hi Hv. assert (v = 0) by (destruct Hv; lia). subst v. unfold norm_value. change (32 =? 2) with false. change (32 =? 4) with false. change (32 =? 1) with false. cbv iota.
  pose proof (min_max ty n W (fun _ => c) Hn HT HZ HBy c c) as MM. cbv zeta in MM |- *.
  set (mm := foldz n _ _) in *. destruct MM as [F1 F2]; [|lia|lia|].
  { split; [exists 0; split; [lia|auto]|]. split; [exists 0; split; [lia|auto]|intros; lia]. }
  clearbody mm. pose proof (reading_int ty n W (fun _ => c) HT HZ HBy i Hi) as X. cbv beta in X.
  assert (LB : fint (if SFltb beta alpha then beta else alpha) (Z.min A B) /\ fint (if SFltb beta alpha then alpha else beta) (Z.max A B)).
  { rewrite (fint_ltb _ _ _ _ Fb Fa). destruct (Z.ltb_spec B A); [rewrite Z.min_r, Z.max_l by lia|rewrite Z.min_l, Z.max_r by lia]; auto. }
  destruct LB as [L1 L2]. set (a := if SFltb beta alpha then beta else alpha) in *. set (b := if SFltb beta alpha then alpha else beta) in *.
  assert (Z0 : forall x, fint x 0 -> exists g, x = S754_zero g).
  { intros x [V N]. destruct x as [g|g| |g m ex]; try discriminate; [eauto|]. exfalso. cbn [sf_num] in N. pose proof (fl_emin _ _ _ V) as Em.
    assert (0 < 2 ^ (ex + 1074)) by (apply pow_pos; lia). rewrite Z.mul_0_l in N. assert (N' : cond_Zopp g (Zpos m) * 2 ^ (ex + 1074) = 0) by congruence. destruct g; cbn [cond_Zopp] in N'; nia. }
  assert (D1 : fint (fl_mul (fl_sub (elem_reading ty (W i)) (snd mm)) (fl_sub b a)) 0).
  { replace 0 with ((c - c) * (Z.max A B - Z.min A B)) by ring. apply fint_mul; [apply fint_sub; auto; lia|apply fint_sub; auto; lia|]. rewrite Z.sub_diag. lia. }
  assert (D2 : fint (fl_sub (fst mm) (snd mm)) 0) by (replace 0 with (c - c) by ring; apply fint_sub; auto; lia).
  destruct (Z0 _ D1) as [g1 ->]. destruct (Z0 _ D2) as [g2 ->].
  assert (NA : fl_add (fl_div (S754_zero g1) (S754_zero g2)) a = S754_nan) by (destruct g1, g2, a; reflexivity). rewrite NA. reflexivity.
Qed.

(** A source of another type: nothing is done. *)
Theorem normalize_other : forall e s src dst ms md t alpha beta, sm_at s src = Some ms -> sm_at s dst = Some md ->
  sm_rows md = sm_rows ms -> sm_cols md = sm_cols ms -> sm_type ms <> 1 -> sm_type ms <> 4 ->
  hypercv_normalize src dst alpha beta t e s = Ret tt s.
Proof.
  intros e s src dst ms md t alpha beta H1 H2 ER EC T1 T4. unfold hypercv_normalize.
  rewrite bind_assert by (destruct src, dst; try discriminate; reflexivity). runs (sget_ok _ _ e _ H1). runs (sget_ok _ _ e _ H2). rewrite bind_assert by lia.
  replace (sm_type ms =? 1) with false by lia. replace (sm_type ms =? 4) with false by lia. reflexivity.
Qed.

(** Only the first rows * cols elements are written, whatever the number of channels. *)
Theorem normalize_channels : forall e s src dst ms md W t alpha beta, normalizable s src dst ms md W -> In t [1; 2; 4; 32] ->
  exists s', hypercv_normalize src dst alpha beta t e s = Ret tt s'
    /\ forall x, sm_rows ms * sm_cols ms * elem_size (sm_type ms) <= x -> byte_at s' (sm_data md) x = byte_at s (sm_data md) x.
Proof.
  intros e s src dst ms md W t alpha beta H Ht. destruct (norm_run e s src dst ms md W t alpha beta H Ht) as (s' & E & _ & O).
  exists s'. split; auto. intros x Hx. destruct O as (_ & _ & _ & _ & O). apply O. lia.
Qed.
