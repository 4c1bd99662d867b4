(** * Proofs: normalisation, the loops. *)
From Verif Require Import Base ModelCore ModelFloat ModelDouble ModelConv ModelImage ModelNorm SpecBase SpecImage SpecImage2 SpecNum SpecMatrix SpecStat SpecNorm.
From Verif Require Import Logic ProofCore ProofHM ProofWord ProofArr ProofGrid ProofFloat ProofFloat2 ProofDiv ProofConv ProofGrad ProofStat ProofFold ProofMatrix ProofValid.
From Verif Require Import ProofAtof ProofSpectral ProofNorm.
From Coq Require Import Floats.SpecFloat Lia ZifyBool ZifyNat.
Open Scope Z_scope.

(** Cells computed from the cells at the same place, possibly in place. *)
Lemma map_cells e s q n k (h W : Z -> Z) src body : 0 <= n -> let es := Z.of_nat (S k) in
  readable s (Some q) (n * es) -> elements_of s src es n W -> (forall t, 0 <= t < n -> 0 <= h t < 256 ^ es) ->
  (forall t s1, 0 <= t < n -> word_at s1 src (t * es) (S k) = Some (W t) -> body t e s1 = storele (Some q) (t * es) (S k) (h t) e s1) ->
  exists s', for_ 0 n body e s = Ret tt s' /\ elements_of s' (Some q) es n h /\ inside s q 0 (n * es) s'.
Proof.
  intros Hn es Hq HW Hh Hb. assert (Hes : 0 < es) by (unfold es; lia).
  destruct (readable_isb _ _ _ Hq) as (q' & sz & f & [= <-] & Hi & Hsz).
  destruct (for_inv e 0 n body (fun t s1 => inside s q 0 (t * es) s1 /\ forall r, 0 <= r < t -> word_at s1 (Some q) (r * es) (S k) = Some (h r)) s)
    as (s' & E & I & A); auto.
  - split; [eapply inside_refl; eauto|intros; lia].
  - intros t s1 Ht [I A].
    assert (Off : 0 <= t * es /\ (t + 1) * es <= n * es /\ t * es + es = (t + 1) * es) by (clear - Ht Hes; nia).
    assert (W1 : word_at s1 src (t * es) (S k) = Some (W t)).
    { specialize (HW t Ht). replace (Z.to_nat es) with (S k) in HW by (unfold es; lia).
      destruct (word_isb s src (t * es) k (W t) HW) as (p & N & d & -> & Ip & O1 & O2).
      destruct I as (N' & d0 & d' & Iq & -> & K). destruct (Nat.eq_dec p q) as [->|Hne].
      - unfold isb in Ip, Iq. rewrite Iq in Ip. injection Ip as -> ->. fold (isb s q N d) in Iq.
        rewrite (word_at_isb s q N d (S k) Iq) in HW by lia. rewrite (word_at_isb _ q N d' (S k) (isb_putd_eq _ _ _ _ d' Iq)) by lia.
        rewrite <- HW. f_equal. apply word_ext. intros u Hu. rewrite K; auto. lia.
      - rewrite (word_at_isb s p N d (S k) Ip) in HW by lia. rewrite (word_at_isb _ p N d (S k)) by (try lia; apply isb_putd_ne; auto). exact HW. }
    destruct I as (N' & d0 & d' & Iq & -> & K). unfold isb in Hi, Iq. rewrite Iq in Hi. injection Hi as -> ->. fold (isb s q sz f) in Iq.
    pose proof (isb_putd_eq _ _ _ _ d' Iq) as Iq'. rewrite (Hb t _ Ht W1).
    destruct (storele_ok e (putd s q d') q sz d' (S k) (h t) (t * es) Iq' ltac:(lia) ltac:(fold es; lia)) as (d2 & E & A2 & B).
    exists (putd (putd s q d') q d2). split; [exact E|]. rewrite putd_putd in *. split.
    + exists sz, f, d2. split; [exact Iq|]. split; [reflexivity|]. intros p Hp. fold es in B. rewrite B by lia. apply K. lia.
    + intros r Hr. pose proof (isb_putd_eq _ _ _ _ d2 Iq) as I2.
      assert (Or : 0 <= r * es /\ r * es + es <= (t + 1) * es) by (clear - Hr Hes; nia).
      rewrite (word_at_isb _ q sz d2 (S k) I2) by (fold es; lia).
      destruct (Z.eq_dec r t) as [->|Hne].
      * rewrite A2. f_equal. apply Z.mod_small. fold es. now apply Hh.
      * assert (Or2 : r * es + es <= t * es) by (clear - Hr Hne Hes; nia).
        rewrite <- A by lia. rewrite (word_at_isb _ q sz d' (S k) Iq') by (fold es; lia). f_equal. apply word_ext.
        intros u Hu. fold es in B. rewrite B by lia. reflexivity.
  - exists s'. split; [exact E|]. split; [|exact I]. intros t Ht. replace (Z.to_nat es) with (S k) by (unfold es; lia). now apply A.
Qed.

(** What the two functions do with an element: how they read it, and what they store. *)
Definition elem_reading (ty raw : Z) : sf := if ty =? 1 then fl_of_Z raw else fl_of_bits raw.
Definition elem_mag (ty raw : Z) : sf :=
  if ty =? 1 then fl_of_Z raw else if SFleb (fl_of_Z 0) (fl_of_bits raw) then fl_of_bits raw else SFopp (fl_of_bits raw).
Definition elem_sq (ty raw : Z) : sf := if ty =? 1 then fl_of_Z (raw * raw) else fl_mul (fl_of_bits raw) (fl_of_bits raw).
Definition elem_coded (ty v : Z) : Z := if ty =? 1 then v else bits_of_fl (fl_of_Z v).

Definition norm_value (ty t n : Z) (alpha beta : sf) (W : Z -> Z) (x : sf) : sf :=
  if t =? 2 then fl_div (fl_mul x alpha) (foldz n (fun a i => fl_add a (elem_mag ty (W i))) (fl_of_Z 0))
  else if t =? 4 then fl_of_db (db_div (db_of_fl (fl_mul x alpha))
         (db_sqrt (db_of_fl (foldz n (fun a i => fl_add a (elem_sq ty (W i))) (fl_of_Z 0)))))
  else if t =? 1 then fl_div (fl_mul x alpha)
         (foldz n (fun a i => let x := elem_reading ty (W i) in if SFltb a x then x else a) (fl_of_Z 0))
  else let mm := foldz n (fun mm i => let x := elem_reading ty (W i) in
                   (if SFltb x (fst mm) then fst mm else x, if SFltb (snd mm) x then snd mm else x)) (fl_of_Z (-1000000), fl_of_Z 1000000) in
       let b := if SFltb beta alpha then alpha else beta in
       let a := if SFltb beta alpha then beta else alpha in
       fl_add (fl_div (fl_mul (fl_sub x (snd mm)) (fl_sub b a)) (fl_sub (fst mm) (snd mm))) a.

Lemma saturate_byte x : 0 <= saturate_cast_float2uchar x < 256.
Proof. unfold saturate_cast_float2uchar, u8. destruct (SFltb _ _); [lia|]. destruct (SFltb _ _); [lia|]. apply Z.mod_pos_bound. lia. Qed.

Lemma store8_le p i v e s : storele p i 1 v e s = store8 p i v e s.
Proof.
  cbn [storele]. unfold bind, store8, ret. destruct (bytes_at s p) as [((q & n) & d)|]; [|reflexivity].
  destruct (inb i n); [|reflexivity]. rewrite Zmod_mod. reflexivity.
Qed.
Lemma normalize_run e s src dst ms md t alpha beta W : sm_at s src = Some ms -> sm_at s dst = Some md ->
  sm_rows md = sm_rows ms -> sm_cols md = sm_cols ms -> 0 < sm_rows ms -> 0 < sm_cols ms -> sm_type ms = 1 \/ sm_type ms = 4 ->
  In t [1; 2; 4; 32] ->
  let ty := sm_type ms in let n := sm_rows ms * sm_cols ms in
  n <= INT_MAX -> elements_of s (sm_data ms) (elem_size ty) n W -> readable s (sm_data md) (n * elem_size ty) ->
  exists s', hypercv_normalize src dst alpha beta t e s = Ret tt s'
    /\ elements_of s' (sm_data md) (elem_size ty) n
         (fun i => elem_coded ty (saturate_cast_float2uchar (norm_value ty t n alpha beta W (elem_reading ty (W i)))))
    /\ only_bytes s (sm_data md) 0 (n * elem_size ty) s'.
Proof.
  intros Hs Hd ER EC HR HC HT Ht ty n Hn HW RD. unfold INT_MAX in Hn.
  assert (Hn0 : 0 < n) by (unfold n; clear - HR HC; nia).
  assert (EX : (sm_rows ms * sm_cols ms)%C = Some n) by (apply cmul_ok; fold n; lia).
  destruct (readable_isb _ _ _ RD) as (q & sz & f & Eq & Iq & _). rewrite Eq in *.
  assert (NN : nonnull src && nonnull dst = true) by (destruct src, dst; try discriminate; reflexivity).
  unfold hypercv_normalize. rewrite bind_assert by exact NN. runs (sget_ok _ _ e _ Hs). runs (sget_ok _ _ e _ Hd). rewrite bind_assert by lia. fold ty.
  set (h := fun i => elem_coded ty (saturate_cast_float2uchar (norm_value ty t n alpha beta W (elem_reading ty (W i))))).
  assert (Hh : forall i, 0 <= i < n -> 0 <= h i < 256 ^ elem_size ty).
  { intros i Hi. unfold h, elem_coded, elem_size. pose proof (saturate_byte (norm_value ty t n alpha beta W (elem_reading ty (W i)))) as B.
    destruct (ty =? 1); [lia|]. apply bits_of_fl_range. apply fl_of_Z_ok. lia. }
  (* the two instances *)
  assert (GEN : forall k get mag sq put, Z.of_nat (S k) = elem_size ty ->
     (forall i s1 w, word_at s1 (sm_data ms) (i * elem_size ty) (S k) = Some w -> get (sm_data ms) i e s1 = Ret (elem_reading ty w) s1) ->
     (forall i w, word_at s (sm_data ms) (i * elem_size ty) (S k) = Some w -> mag (sm_data ms) i e s = Ret (elem_mag ty w) s) ->
     (forall i w, word_at s (sm_data ms) (i * elem_size ty) (S k) = Some w -> sq (sm_data ms) i e s = Ret (elem_sq ty w) s) ->
     (forall i v s1, put (Some q) i v e s1 = storele (Some q) (i * elem_size ty) (S k) (elem_coded ty v) e s1) ->
     exists s', normalize_with get mag sq put src dst alpha beta t e s = Ret tt s' /\ elements_of s' (Some q) (elem_size ty) n h
       /\ inside s q 0 (n * elem_size ty) s').
  { intros k get mag sq put Hk Hget Hmag Hsq Hput. unfold normalize_with. rewrite bind_assert by exact NN.
    runs (sget_ok _ _ e _ Hs). runs (sget_ok _ _ e _ Hd). rewrite bind_assert by lia. cbv zeta. rewrite Eq.
    assert (HW' : forall i, 0 <= i < n -> word_at s (sm_data ms) (i * elem_size ty) (S k) = Some (W i)).
    { intros i Hi. rewrite <- (HW i Hi). f_equal. lia. }
    assert (MAP : forall g, (forall x, g x = norm_value ty t n alpha beta W x) ->
      exists s', for_ 0 n (fun i => x <- get (sm_data ms) i ;; put (Some q) i (saturate_cast_float2uchar (g x))) e s = Ret tt s'
        /\ elements_of s' (Some q) (elem_size ty) n h /\ inside s q 0 (n * elem_size ty) s').
    { intros g Hg. rewrite <- Hk. apply (map_cells e s q n k h W (sm_data ms)); rewrite ?Hk; auto; try lia.
      intros i s1 Hi Hw. runs (Hget i s1 (W i) Hw). rewrite Hput, Hg. reflexivity. }
    assert (Ht4 : t = 1 \/ t = 2 \/ t = 4 \/ t = 32) by (clear - Ht; cbn [In] in Ht; lia).
    destruct Ht4 as [T|[T|[T|T]]]; rewrite T in *; cbn [Z.eqb Pos.eqb].
    - rewrite !(bind_ret _ _ _ _ _ _ (eq_refl : ret tt e s = Ret tt s)).
      assert (L : forS 0 n (fun i INF_norm => x <- get (sm_data ms) i ;; ret (if SFltb INF_norm x then x else INF_norm)) (fl_of_Z 0) e s
         = Ret (foldz n (fun a i => let x := elem_reading ty (W i) in if SFltb a x then x else a) (fl_of_Z 0)) s).
      { apply forS_pure; [lia|]. intros i y Hi. runs (Hget i s (W i) (HW' i Hi)). reflexivity. }
      destruct (MAP (fun x => fl_div (fl_mul x alpha) (foldz n (fun a i => let x := elem_reading ty (W i) in if SFltb a x then x else a) (fl_of_Z 0))))
        as (s' & E & A & I); [reflexivity|].
      exists s'. split; [|auto].
      assert (X : (n0 <- ev (sm_rows ms * sm_cols ms)%C ;;
        INF_norm <- forS 0 n0 (fun i INF_norm => x <- get (sm_data ms) i ;; ret (if SFltb INF_norm x then x else INF_norm)) (fl_of_Z 0) ;;
        for_ 0 n0 (fun i => x <- get (sm_data ms) i ;; put (Some q) i (saturate_cast_float2uchar (fl_div (fl_mul x alpha) INF_norm)))) e s = Ret tt s').
      { runs (ev_ok _ _ e s EX). runs L. exact E. }
      rewrite (bind_ret _ _ _ _ _ _ X). reflexivity.
    - assert (L : forS 0 n (fun i L1 => x <- mag (sm_data ms) i ;; ret (fl_add L1 x)) (fl_of_Z 0) e s
         = Ret (foldz n (fun a i => fl_add a (elem_mag ty (W i))) (fl_of_Z 0)) s).
      { apply forS_pure; [lia|]. intros i y Hi. runs (Hmag i (W i) (HW' i Hi)). reflexivity. }
      destruct (MAP (fun x => fl_div (fl_mul x alpha) (foldz n (fun a i => fl_add a (elem_mag ty (W i))) (fl_of_Z 0)))) as (s' & E & A & I); [reflexivity|].
      exists s'. split; [|auto].
      assert (X : (n0 <- ev (sm_rows ms * sm_cols ms)%C ;;
        L1 <- forS 0 n0 (fun i L1 => x <- mag (sm_data ms) i ;; ret (fl_add L1 x)) (fl_of_Z 0) ;;
        for_ 0 n0 (fun i => x <- get (sm_data ms) i ;; put (Some q) i (saturate_cast_float2uchar (fl_div (fl_mul x alpha) L1)))) e s = Ret tt s').
      { runs (ev_ok _ _ e s EX). runs L. exact E. }
      rewrite (bind_ret _ _ _ _ _ _ X). rewrite !(bind_ret _ _ _ _ _ _ (eq_refl : ret tt e s' = Ret tt s')). reflexivity.
    - rewrite (bind_ret _ _ _ _ _ _ (eq_refl : ret tt e s = Ret tt s)).
      assert (L : forS 0 n (fun i L2 => x <- sq (sm_data ms) i ;; ret (fl_add L2 x)) (fl_of_Z 0) e s
         = Ret (foldz n (fun a i => fl_add a (elem_sq ty (W i))) (fl_of_Z 0)) s).
      { apply forS_pure; [lia|]. intros i y Hi. runs (Hsq i (W i) (HW' i Hi)). reflexivity. }
      destruct (MAP (fun x => fl_of_db (db_div (db_of_fl (fl_mul x alpha)) (db_sqrt (db_of_fl (foldz n (fun a i => fl_add a (elem_sq ty (W i))) (fl_of_Z 0)))))))
        as (s' & E & A & I); [reflexivity|].
      exists s'. split; [|auto].
      assert (X : (n0 <- ev (sm_rows ms * sm_cols ms)%C ;;
        L2 <- forS 0 n0 (fun i L2 => x <- sq (sm_data ms) i ;; ret (fl_add L2 x)) (fl_of_Z 0) ;;
        for_ 0 n0 (fun i => x <- get (sm_data ms) i ;; put (Some q) i (saturate_cast_float2uchar
          (fl_of_db (db_div (db_of_fl (fl_mul x alpha)) (db_sqrt (db_of_fl L2))))))) e s = Ret tt s').
      { runs (ev_ok _ _ e s EX). runs L. exact E. }
      rewrite (bind_ret _ _ _ _ _ _ X). rewrite !(bind_ret _ _ _ _ _ _ (eq_refl : ret tt e s' = Ret tt s')). reflexivity.
    - rewrite !(bind_ret _ _ _ _ _ _ (eq_refl : ret tt e s = Ret tt s)).
      set (F := fun mm i => let x := elem_reading ty (W i) in
                   (if SFltb x (fst mm) then fst mm else x, if SFltb (snd mm) x then snd mm else x)).
      assert (L : forS 0 n (fun i mm => x <- get (sm_data ms) i ;; ret (if SFltb x (fst mm) then fst mm else x, if SFltb (snd mm) x then snd mm else x))
           (fl_of_Z (-1000000), fl_of_Z 1000000) e s = Ret (foldz n F (fl_of_Z (-1000000), fl_of_Z 1000000)) s).
      { apply forS_pure; [lia|]. intros i y Hi. runs (Hget i s (W i) (HW' i Hi)). reflexivity. }
      runs (ev_ok _ _ e s EX). runs L. apply MAP. reflexivity. }
  assert (FIN : forall m, (exists s', m e s = Ret tt s' /\ elements_of s' (Some q) (elem_size ty) n h /\ inside s q 0 (n * elem_size ty) s') ->
    exists s', m e s = Ret tt s' /\ elements_of s' (Some q) (elem_size ty) n h /\ only_bytes s (Some q) 0 (n * elem_size ty) s').
  { intros m (s' & E & A & I). exists s'. split; auto. split; auto. now apply inside_only. }
  destruct HT as [T|T]; fold ty in T; unfold elem_size, elem_reading, elem_mag, elem_sq, elem_coded in GEN; rewrite T in *; cbn [Z.eqb Pos.eqb] in *; apply FIN.
  - apply (GEN 0%nat); auto.
    + intros i s1 w Hw. rewrite Z.mul_1_r in Hw. cbn [word_at] in Hw. destruct (byte_at s1 (sm_data ms) i) as [b|] eqn:B; [|discriminate].
      runs (load8_byte _ _ e _ _ B). injection Hw as <-. unfold ret. do 2 f_equal. lia.
    + intros i w Hw. rewrite Z.mul_1_r in Hw. pose proof (ProofSpectral.word_range _ _ _ 1 _ Hw) as Rg. cbn [word_at] in Hw. destruct (byte_at s (sm_data ms) i) as [b|] eqn:B; [|discriminate].
      runs (load8_byte _ _ e _ _ B). assert (b = w) by (injection Hw as <-; lia). subst b. replace (w >=? 0) with true by lia. reflexivity.
    + intros i w Hw. rewrite Z.mul_1_r in Hw. pose proof (ProofSpectral.word_range _ _ _ 1 _ Hw) as Rg. cbn [word_at] in Hw. destruct (byte_at s (sm_data ms) i) as [b|] eqn:B; [|discriminate].
      runs (load8_byte _ _ e _ _ B). assert (b = w) by (injection Hw as <-; lia). subst b. assert (XX : (w * w)%C = Some (w * w)) by (apply cmul_ok; nia). runs (ev_ok _ _ e s XX). reflexivity.
    + intros i v s1. rewrite Z.mul_1_r. now rewrite store8_le.
  - apply (GEN 3%nat); auto.
    + intros i s1 w Hw. apply load_float. now rewrite Z.mul_comm.
    + intros i w Hw. rewrite Z.mul_comm in Hw. runs (load_float e s _ _ _ Hw). reflexivity.
    + intros i w Hw. rewrite Z.mul_comm in Hw. runs (load_float e s _ _ _ Hw). reflexivity.
    + intros i v s1. unfold storef. now rewrite (Z.mul_comm 4 i).
Qed.

(** Elements denoting integers. *)
Section Values.
  Variables (ty n : Z) (W z : Z -> Z).
  Hypotheses (Hn : 0 < n) (HT : ty = 1 \/ ty = 4) (HZ : forall i, 0 <= i < n -> denotes_int ty (W i) (z i)).
  Hypothesis HB : ty = 1 -> forall i, 0 <= i < n -> 0 <= W i < 256.

  Lemma reading_int i : 0 <= i < n -> fint (elem_reading ty (W i)) (z i).
  Proof using HT HZ HB.
    intros Hi. specialize (HZ i Hi). unfold denotes_int in HZ. unfold elem_reading. destruct HT as [-> | ->]; cbn [Z.eqb Pos.eqb] in *; [|exact HZ].
    rewrite <- HZ. apply fint_Z. specialize (HB eq_refl i Hi). lia.
  Qed.
  Lemma mag_int i : 0 <= i < n -> 0 <= z i -> fint (elem_mag ty (W i)) (z i).
  Proof using HT HZ HB.
    intros Hi H0. pose proof (reading_int i Hi) as R. unfold elem_mag, elem_reading in *. destruct (ty =? 1); [exact R|].
    destruct (SFleb (fl_of_Z 0) (fl_of_bits (W i))) eqn:L; [exact R|]. exfalso.
    destruct R as [V N]. destruct (fl_of_Z_ok 0 ltac:(lia)) as [V0 N0].
    pose proof (compare_num 24 128 ltac:(lia) ltac:(lia) ltac:(lia) _ _ _ _ V0 V N0 N) as C. unfold SFleb in L. rewrite C in L.
    pose proof sf_one_pos. destruct (Z.compare_spec (0 * sf_one) (z i * sf_one)); try discriminate. nia.
  Qed.
  Lemma sq_int i : 0 <= i < n -> Z.abs (z i * z i) <= 16777216 -> fint (elem_sq ty (W i)) (z i * z i).
  Proof using HT HZ HB.
    intros Hi H0. pose proof (reading_int i Hi) as R. unfold elem_sq, elem_reading in *. specialize (HZ i Hi). unfold denotes_int in HZ. destruct (ty =? 1).
    - rewrite HZ in *. now apply fint_Z.
    - now apply fint_mul.
  Qed.
  Lemma coded_int v : 0 <= v < 256 -> denotes_int ty (elem_coded ty v) v.
  Proof using HT.
    clear HZ HB Hn n W z. intros Hv. unfold denotes_int, elem_coded. destruct HT as [-> | ->]; cbn [Z.eqb Pos.eqb]; [reflexivity|].
    unfold is_int. destruct (fl_of_Z_ok v ltac:(lia)). rewrite fl_bits_fl by assumption. split; assumption.
  Qed.

  Lemma l1_sum : (forall i, 0 <= i < n -> 0 <= z i) -> sumz n z <= 16777216 ->
    fint (foldz n (fun a i => fl_add a (elem_mag ty (W i))) (fl_of_Z 0)) (sumz n z).
  Proof using Hn HT HZ HB.
    intros H0 Hs. rewrite <- (Z.add_0_l (sumz n z)). apply foldz_int; auto; try lia; [apply fint_Z; lia|].
    intros i b y Hi Hb Hy Hyz. specialize (H0 i Hi). apply fint_add; auto; [now apply mag_int; auto|lia].
  Qed.
  Lemma l2_sum : sumz n (fun i => z i * z i) <= 16777216 ->
    fint (foldz n (fun a i => fl_add a (elem_sq ty (W i))) (fl_of_Z 0)) (sumz n (fun i => z i * z i)).
  Proof using Hn HT HZ HB.
    intros Hs. rewrite <- (Z.add_0_l (sumz n _)). apply foldz_int; auto; try lia; [apply fint_Z; lia|intros; nia|].
    intros i b y Hi Hb Hy Hyz. assert (0 <= z i * z i) by nia. apply fint_add; auto; [apply sq_int; auto; lia|lia].
  Qed.
  Lemma fint_ltb x y a b : fint x a -> fint y b -> SFltb x y = (a <? b).
  Proof using.
    clear HZ HB Hn HT n W z ty. intros [V N] [V' N']. rewrite (fl_ltb x y _ _ V V' N N'). pose proof sf_one_pos. nia.
  Qed.
  Lemma inf_max : (forall i, 0 <= i < n -> 0 <= z i) -> forall hi, (exists lo, extremes n z lo hi) -> 0 <= hi ->
    fint (foldz n (fun a i => let x := elem_reading ty (W i) in if SFltb a x then x else a) (fl_of_Z 0)) hi.
  Proof using Hn HT HZ HB.
    intros H0 hi Hhi H1.
    set (F0 := fun (a : sf) i => let x := elem_reading ty (W i) in if SFltb a x then x else a).
    assert (G : forall k, 0 <= k -> k <= n -> exists m, fint (foldz k F0 (fl_of_Z 0)) m
       /\ 0 <= m /\ (forall i, 0 <= i < k -> z i <= m) /\ (m = 0 \/ exists i, 0 <= i < k /\ z i = m)).
    { intros k Hk. pattern k. apply natlike_ind; auto.
      - intros _. exists 0. split; [apply fint_Z; lia|]. split; [lia|]. split; [intros; lia|auto].
      - intros j Hj IH Hjn. destruct (IH ltac:(lia)) as (m & F & M0 & A & B). unfold Z.succ. rewrite foldz_S by lia. set (mm := foldz j F0 _) in *. unfold F0. cbv zeta beta.
        pose proof (reading_int j ltac:(lia)) as R. rewrite (fint_ltb _ _ _ _ F R). destruct (Z.ltb_spec m (z j)).
        + exists (z j). split; [exact R|]. split; [lia|]. split; [intros i Hi; destruct (Z.eq_dec i j) as [->|]; [lia|]; specialize (A i ltac:(lia)); lia|].
          right. exists j. lia.
        + exists m. split; [exact F|]. split; [lia|]. split; [intros i Hi; destruct (Z.eq_dec i j) as [->|]; [lia|]; apply A; lia|].
          destruct B as [B|(i & Hi & B)]; [auto|]. right. exists i. lia. }
    destruct (G n ltac:(lia) ltac:(lia)) as (m & F & M0 & A & B).
    destruct Hhi as (lo & _ & (i & Hi & Ei) & Rg).
    assert (m = hi); [|now subst].
    pose proof (A i Hi). destruct B as [->|(i' & Hi' & <-)]; [lia|]. specialize (Rg i' Hi'). lia.
  Qed.
  Lemma min_max lo hi : extremes n z lo hi -> -1000000 <= lo -> hi <= 1000000 ->
    let mm := foldz n (fun mm i => let x := elem_reading ty (W i) in
                   (if SFltb x (fst mm) then fst mm else x, if SFltb (snd mm) x then snd mm else x)) (fl_of_Z (-1000000), fl_of_Z 1000000) in
    fint (fst mm) hi /\ fint (snd mm) lo.
  Proof using Hn HT HZ HB.
    intros ((i1 & Hi1 & E1) & (i2 & Hi2 & E2) & Rg) Hlo Hhi.
    set (F := fun mm i => let x := elem_reading ty (W i) in (if SFltb x (fst mm) then fst mm else x, if SFltb (snd mm) x then snd mm else x)).
    assert (G : forall k, 0 <= k -> k <= n -> exists a b, fint (fst (foldz k F (fl_of_Z (-1000000), fl_of_Z 1000000))) a
       /\ fint (snd (foldz k F (fl_of_Z (-1000000), fl_of_Z 1000000))) b
       /\ a <= hi /\ lo <= b /\ (forall i, 0 <= i < k -> b <= z i <= a)).
    { intros k Hk. pattern k. apply natlike_ind; auto.
      - intros _. exists (-1000000), 1000000. specialize (Rg i1 Hi1). split; [apply fint_Z; lia|]. split; [apply fint_Z; lia|]. split; [lia|]. split; [lia|]. intros; lia.
      - intros j Hj IH Hjn. destruct (IH ltac:(lia)) as (a & b & Fa & Fb & A1 & A2 & A3). unfold Z.succ. rewrite foldz_S by lia.
        set (mm := foldz j F _) in *. unfold F. cbv zeta. cbn [fst snd].
        pose proof (reading_int j ltac:(lia)) as R. rewrite (fint_ltb _ _ _ _ R Fa), (fint_ltb _ _ _ _ Fb R). specialize (Rg j ltac:(lia)).
        exists (if z j <? a then a else z j), (if b <? z j then b else z j).
        split; [destruct (z j <? a); auto|]. split; [destruct (b <? z j); auto|].
        destruct (Z.ltb_spec (z j) a), (Z.ltb_spec b (z j)); (split; [lia|]); (split; [lia|]);
          (intros i Hi; destruct (Z.eq_dec i j) as [->|]; [lia|]; specialize (A3 i ltac:(lia)); lia). }
    destruct (G n ltac:(lia) ltac:(lia)) as (a & b & Fa & Fb & A1 & A2 & A3). cbv zeta.
    pose proof (A3 i1 Hi1). pose proof (A3 i2 Hi2). assert (a = hi) by lia. assert (b = lo) by lia. subst a b. split; assumption.
  Qed.
End Values.
