(** * Proofs: correlation matrices. *)
From Verif Require Import Base Logic ModelFloat ModelDouble ModelCore ModelMatrix ModelCem
  SpecBase SpecNum SpecMatrix SpecCorr ProofCore ProofHM ProofFloat ProofFloat2 ProofDiv ProofWord ProofArr ProofGrid ProofMatrix.
From Coq Require Import ZifyBool ZifyNat Floats.SpecFloat.
Ltac Zify.zify_post_hook ::= Z.div_mod_to_equations.
Open Scope Z_scope.

Lemma only_trans s p lo hi s1 s2 : only_bytes s p lo hi s1 -> only_bytes s1 p lo hi s2 -> only_bytes s p lo hi s2.
Proof.
  intros (A1 & A2 & A3 & A4 & A5) (B1 & B2 & B3 & B4 & B5).
  split; [congruence|]. split; [congruence|]. split; [|split].
  - intros k Hk Hn. rewrite (B3 k) by (try rewrite A2; auto). apply A3; auto.
  - auto.
  - intros i Hi. rewrite B5, A5; auto.
Qed.

(** The division of every element. *)
Lemma quo_run e s es (quo : Z -> Z -> option Z) z n l m V R : 0 < es -> 0 <= l -> 0 <= m -> matrix s z es l m V ->
  (forall i j, 0 <= i < l -> 0 <= j < m -> exists r, quo (V i j) n = Some r /\ r mod 256 ^ es = R i j) ->
  exists s', for_ 0 (l * m) (fun i => w <- loadle z (i * es) (Z.to_nat es) ;; r <- ev (quo w n) ;; storele z (i * es) (Z.to_nat es) r) e s = Ret tt s'
    /\ matrix s' z es l m R /\ only_bytes s z 0 (l * m * es) s'.
Proof.
  intros He Hl Hm Hz HQ.
  destruct (Z.eq_dec l 0) as [->|Hl0].
  { exists s. split; [now rewrite for_empty by lia|]. split; [intros i j Hi; lia|apply only_refl]. }
  destruct (Z.eq_dec m 0) as [->|Hm0].
  { exists s. split; [rewrite Z.mul_0_r; now rewrite for_empty by lia|]. split; [intros i j Hi; lia|apply only_refl]. }
  destruct (matrix_arr s z es l m V He ltac:(lia) ltac:(lia) Hz) as (q & -> & A).
  set (g0 := fun t => V (t / m) (t mod m)) in A.
  assert (0 <= l * m) by (apply Z.mul_nonneg_nonneg; lia).
  destruct (for_inv e 0 (l * m) (fun i => w <- loadle (Some q) (i * es) (Z.to_nat es) ;; r <- ev (quo w n) ;; storele (Some q) (i * es) (Z.to_nat es) r)
    (fun k s1 => inside s q 0 (l * m * es) s1 /\ arr s1 q 0 es (l * m) (fun t => if t <? k then R (t / m) (t mod m) else g0 t)) s) as (s' & E & I & A').
  - lia.
  - split; [destruct (arr_isb _ _ _ _ _ _ A) as (N & d & Hd); eapply inside_refl; eauto|].
    eapply arr_ext; [|exact A]. intros i Hi. replace (i <? 0) with false by lia. reflexivity.
  - intros k s1 Hk (I1 & A1).
    rewrite (bind_ret _ _ _ _ _ _ (arr_load e s1 q 0 es (l * m) _ k (k * es) (Z.to_nat es) A1 Hk ltac:(lia) ltac:(lia))).
    rewrite Z.ltb_irrefl. unfold g0 at 1.
    destruct (cell_split l m k ltac:(lia) Hk) as (Et & H1 & H2).
    destruct (HQ (k / m) (k mod m) H1 H2) as (r & Er & Rr). rewrite Er.
    rewrite (bind_ret _ _ e s1 r s1 eq_refl).
    destruct (arr_store e s1 q 0 es (l * m) _ k (k * es) (Z.to_nat es) r A1 Hk ltac:(lia) ltac:(lia)) as (s3 & E3 & A3 & I3).
    exists s3. split; [exact E3|]. split.
    + eapply inside_trans; [exact I1|]. refine (inside_weaken _ _ _ _ _ _ _ _ _ I3); clear - Hk He; nia.
    + eapply arr_ext; [|exact A3]. intros i Hi. unfold fupd. rewrite Rr. destruct (Z.eqb_spec i k) as [->|Ne].
      * replace (k <? k + 1) with true by lia. reflexivity.
      * replace (i <? k + 1) with (i <? k) by lia. reflexivity.
  - exists s'. split; [exact E|]. split; [|now apply inside_only].
    apply arr_matrix. eapply arr_ext; [|exact A']. intros i Hi. cbv beta. replace (i <? l * m) with true by lia. reflexivity.
Qed.

Lemma corr_gen es mul (quo : Z -> Z -> option Z) e s res x y l n m s1 V R :
  0 < es -> 0 <= l -> 0 <= m -> l * m <= 2147483647 -> mul x y res l n m e s = Ret tt s1 ->
  matrix s1 res es l m V -> only_bytes s res 0 (l * m * es) s1 ->
  (forall i j, 0 <= i < l -> 0 <= j < m -> exists r, quo (V i j) n = Some r /\ r mod 256 ^ es = R i j) ->
  exists s', correlation_with es mul quo res x y l n m e s = Ret tt s' /\ matrix s' res es l m R /\ only_bytes s res 0 (l * m * es) s'.
Proof.
  intros He Hl Hm B E1 M1 O1 HQ. unfold correlation_with. runs E1.
  assert (0 <= l * m) by (apply Z.mul_nonneg_nonneg; lia).
  rewrite (bind_ret _ _ e s1 (l * m) s1) by (unfold ci; rewrite cmul_ok by lia; reflexivity).
  destruct (quo_run e s1 es quo res n l m V R He Hl Hm M1 HQ) as (s' & E & M' & O'). exists s'. split; [exact E|]. split; auto.
  eapply only_trans; eauto.
Qed.

Lemma pow256 es : 0 <= es -> 256 ^ es = 2 ^ (8 * es).
Proof. intros. rewrite Z.pow_mul_r by lia. reflexivity. Qed.
Lemma pow_half es : 0 < es -> 2 ^ (8 * es) = 2 * 2 ^ (8 * es - 1) /\ 0 < 2 ^ (8 * es - 1).
Proof. intros. split; [rewrite <- Z.pow_succ_r by lia; f_equal; lia|apply Z.pow_pos_nonneg; lia]. Qed.

Lemma value_cong sg es w : exists q, value sg es w = w + q * 2 ^ (8 * es).
Proof. unfold value, signed_word. destruct sg; [|exists 0; lia]. destruct (_ <? _); [exists 0|exists (-1)]; lia. Qed.
Lemma value_fits sg es w : 0 < es -> 0 <= w < 256 ^ es -> fits sg es (value sg es w).
Proof.
  intros He Hw. rewrite pow256 in Hw by lia. destruct (pow_half es He). unfold fits, value, signed_word. destruct sg; [|lia].
  destruct (Z.ltb_spec w (2 ^ (8 * es - 1))); lia.
Qed.
Lemma value_mod sg es v : 0 < es -> fits sg es v -> value sg es (v mod 256 ^ es) = v.
Proof.
  intros He Hv. rewrite pow256 by lia. destruct (pow_half es He) as [H1 H2]. unfold fits, value, signed_word in *. destruct sg.
  - rewrite H1 in *. set (h := 2 ^ (8 * es - 1)) in *. clearbody h.
    destruct (Z_lt_le_dec v 0).
    + assert (v mod (2 * h) = v + 2 * h) as -> by (symmetry; apply Z.mod_unique with (q := -1); lia). destruct (Z.ltb_spec (v + 2 * h) h); lia.
    + rewrite Z.mod_small by lia. destruct (Z.ltb_spec v h); lia.
  - apply Z.mod_small. lia.
Qed.
Lemma fits_quot sg es v n : 0 < n -> fits sg es v -> fits sg es (Z.quot v n).
Proof.
  intros Hn. unfold fits. assert (G : forall v, 0 <= v -> 0 <= Z.quot v n <= v).
  { clear - Hn. intros v Hv. split; [apply Z.quot_pos; lia|]. apply Z.quot_le_upper_bound; [lia|nia]. }
  destruct sg.
  - intros Hv. destruct (Z_lt_le_dec v 0).
    + pose proof (G (- v) ltac:(lia)) as Q. rewrite Z.quot_opp_l in Q by lia. lia.
    + pose proof (G v ltac:(lia)). lia.
  - intros Hv. pose proof (G v ltac:(lia)). lia.
Qed.
Lemma fits_int sg es v : (es = 1 \/ es = 2 \/ (es = 4 /\ sg = true)) -> fits sg es v -> int_range v.
Proof.
  unfold fits, int_range. intros [->|[->|[-> ->]]]; [| |cbn; lia]; destruct sg; cbn; lia.
Qed.

(** The integer types. *)
Definition correlations : list (Z * bool * (ptr -> ptr -> ptr -> Z -> Z -> Z -> M unit)) :=
  [ (1, false, correlation_matrix_uchar); (1, true, correlation_matrix_char); (2, true, correlation_matrix_short);
    (2, false, correlation_matrix_ushort); (4, true, correlation_matrix_int); (4, false, correlation_matrix_uint) ].

Section Corr.
  Variables (es : Z) (sg : bool) (mac : Z -> Z -> Z -> option Z) (quo : Z -> Z -> option Z).
  Hypothesis Hes : 0 < es.
  Variables (e : env) (s : st) (x y z : ptr) (l n m : Z) (X Y W : Z -> Z -> Z).
  Let v := value sg es.
  Hypotheses (Hl : 0 <= l) (Hn : 0 < n) (Hm : 0 <= m).
  Hypotheses (Bln : l * n <= 2147483647) (Bnm : n * m <= 2147483647) (Blm : l * m <= 2147483647).
  Hypotheses (Hx : matrix s x es l n X) (Hy : matrix s y es n m Y) (Hz : matrix s z es l m W).
  Hypotheses (Hxz : x <> z) (Hyz : y <> z).
  Let S i j t := v (W i j) + sumz t (fun t => v (X i t) * v (Y t j)).
  Hypothesis F : forall i j t, 0 <= i < l -> 0 <= j < m -> 0 <= t < n -> fits sg es (S i j (t + 1)).
  Hypothesis MAC : forall i j t, 0 <= i < l -> 0 <= j < m -> 0 <= t < n -> fits sg es (S i j t) -> fits sg es (S i j (t + 1)) ->
    exists r, mac (S i j t mod 256 ^ es) (X i t) (Y t j) = Some r /\ r mod 256 ^ es = S i j (t + 1) mod 256 ^ es.
  Hypothesis QUO : forall w, fits sg es w -> exists r, quo (w mod 256 ^ es) n = Some r /\ r mod 256 ^ es = Z.quot w n mod 256 ^ es.

  Lemma corr_run : exists s' V, correlation_with es (MulMatrix_with es mac) quo z x y l n m e s = Ret tt s'
    /\ matrix s' z es l m V
    /\ (forall i j, 0 <= i < l -> 0 <= j < m -> v (V i j) = Z.quot (S i j n) n)
    /\ only_bytes s z 0 (l * m * es) s'.
  Proof.
    assert (F0 : forall i j t, 0 <= i < l -> 0 <= j < m -> 0 <= t <= n -> fits sg es (S i j t)).
    { intros i j t Hi Hj Ht. destruct (Z.eq_dec t 0) as [->|Nt].
      - unfold S. rewrite sumz_0, Z.add_0_r. apply value_fits; auto. eapply matrix_range; eauto.
      - replace t with (t - 1 + 1) by lia. apply F; auto. lia. }
    destruct (mul_run es mac Hes e s x y z l n m X Y W (fun i j t => S i j t mod 256 ^ es)) as (s1 & E1 & M1 & O1); auto; try lia.
    - intros i j Hi Hj. unfold S. rewrite sumz_0, Z.add_0_r. unfold v. destruct (value_cong sg es (W i j)) as [q ->].
      rewrite pow256 by lia. rewrite Z_mod_plus_full. rewrite <- pow256 by lia. apply Z.mod_small. eapply matrix_range; eauto.
    - intros i j t Hi Hj Ht. destruct (MAC i j t Hi Hj Ht) as (r & E & R); [apply F0; auto; lia|apply F; auto|]. exists r. auto.
    - destruct (corr_gen es _ quo e s z x y l n m s1 _ (fun i j => Z.quot (S i j n) n mod 256 ^ es) Hes Hl Hm Blm E1 M1 O1) as (s' & E & M' & O').
      + intros i j Hi Hj. apply QUO. apply F0; auto. lia.
      + exists s', (fun i j => Z.quot (S i j n) n mod 256 ^ es). split; [exact E|]. split; auto. split; auto.
        intros i j Hi Hj. apply value_mod; auto. apply fits_quot; auto. apply F0; auto. lia.
  Qed.
End Corr.

Lemma promoted_step dec sg es a b c : 0 < es -> es <= 4 -> (forall w, 0 <= w < 256 ^ es -> dec w = value sg es w) ->
  0 <= a < 256 ^ es -> 0 <= b < 256 ^ es -> fits sg es c -> int_range (value sg es a * value sg es b) ->
  int_range (c + value sg es a * value sg es b) ->
  mac_promoted dec (c mod 256 ^ es) a b = Some (c + value sg es a * value sg es b).
Proof.
  intros He H4 D Ha Hb Fc I1 I2. assert (0 < 256 ^ es) by (apply Z.pow_pos_nonneg; lia).
  rewrite promoted_ok; rewrite !D; auto; try (apply Z.mod_pos_bound; lia); rewrite value_mod; auto.
Qed.

Lemma sgn_value es w : 0 < es -> 0 <= w < 256 ^ es -> sgn (8 * es) w = value true es w.
Proof.
  intros He Hw. rewrite pow256 in Hw by lia. unfold sgn, value, signed_word. cbv zeta. rewrite Z.mod_small by lia. reflexivity.
Qed.

Lemma promoted_quo dec sg es n w : 0 < es -> (es = 1 \/ es = 2 \/ (es = 4 /\ sg = true)) -> 0 < n -> (forall w, 0 <= w < 256 ^ es -> dec w = value sg es w) ->
  fits sg es w -> exists r, quo_promoted dec (w mod 256 ^ es) n = Some r /\ r mod 256 ^ es = Z.quot w n mod 256 ^ es.
Proof.
  intros He Hs Hn D Fw. assert (0 < 256 ^ es) by (apply Z.pow_pos_nonneg; lia).
  unfold quo_promoted, ci. rewrite D by (apply Z.mod_pos_bound; lia). rewrite value_mod by auto.
  pose proof (fits_int _ _ _ Hs (fits_quot _ _ _ _ Hn Fw)) as I. unfold int_range in I.
  rewrite cdiv_ok by lia. eexists. split; reflexivity.
Qed.

Lemma corr_int es sg f e s x y z l n m X Y W :
  In (es, sg, f) correlations -> 0 <= l -> 0 < n <= 2147483647 -> 0 <= m ->
  l * n <= 2147483647 -> n * m <= 2147483647 -> l * m <= 2147483647 ->
  matrix s x es l n X -> matrix s y es n m Y -> matrix s z es l m W -> x <> z -> y <> z ->
  (forall i j t, 0 <= i < l -> 0 <= j < m -> 0 <= t < n ->
     fits sg es (value sg es (W i j) + sumz (t + 1) (fun t => value sg es (X i t) * value sg es (Y t j)))
     /\ (es = 4 -> sg = true -> int_range (value sg es (X i t) * value sg es (Y t j)))) ->
  exists s' V, f z x y l n m e s = Ret tt s'
    /\ matrix s' z es l m V
    /\ (forall i j, 0 <= i < l -> 0 <= j < m ->
          value sg es (V i j) = Z.quot (value sg es (W i j) + sumz n (fun t => value sg es (X i t) * value sg es (Y t j))) n)
    /\ only_bytes s z 0 (l * m * es) s'.
Proof.
  intros Hin Hl Hn Hm B1 B2 B3 Hx Hy Hz N1 N2 F. unfold correlations in Hin.
  assert (PR : forall dec, (es = 1 \/ es = 2 \/ (es = 4 /\ sg = true)) -> (forall w, 0 <= w < 256 ^ es -> dec w = value sg es w) ->
    exists s' V, correlation_with es (MulMatrix_with es (mac_promoted dec)) (quo_promoted dec) z x y l n m e s = Ret tt s'
    /\ matrix s' z es l m V
    /\ (forall i j, 0 <= i < l -> 0 <= j < m ->
          value sg es (V i j) = Z.quot (value sg es (W i j) + sumz n (fun t => value sg es (X i t) * value sg es (Y t j))) n)
    /\ only_bytes s z 0 (l * m * es) s').
  { intros dec Hes D. assert (0 < es <= 4) by (destruct Hes as [->|[->|[-> _]]]; lia).
    apply corr_run with (X := X) (Y := Y); auto; try lia.
    - intros i j t Hi Hj Ht. apply F; auto.
    - intros i j t Hi Hj Ht F1 F2.
      pose proof (matrix_range s x es l n X i t ltac:(lia) Hx Hi Ht) as RX. pose proof (matrix_range s y es n m Y t j ltac:(lia) Hy Ht Hj) as RY.
      destruct (F i j t Hi Hj Ht) as [_ F3].
      pose proof (fits_int _ _ _ Hes F2) as I2. pose proof (fits_int _ _ _ Hes F1) as I1.
      rewrite sumz_S in F2, I2 |- * by lia. rewrite !Z.add_assoc in *.
      eexists. split; [apply promoted_step; auto; try lia|reflexivity].
      destruct Hes as [E|[E|[E E']]]; [| |auto].
      + pose proof (fits_int sg es _ ltac:(auto) (value_fits sg es _ ltac:(lia) RX)).
        pose proof (value_fits sg es _ ltac:(lia) RX) as FX. pose proof (value_fits sg es _ ltac:(lia) RY) as FY.
        subst es. unfold fits, int_range in *. destruct sg; cbn in FX, FY; nia.
      + subst es. unfold fits, int_range in *. cbn in *. destruct sg.
        * pose proof (value_fits true 2 _ ltac:(lia) RX) as FX. pose proof (value_fits true 2 _ ltac:(lia) RY) as FY. unfold fits in FX, FY. cbn in FX, FY. nia.
        * unfold value in *. lia.
    - intros w Fw. apply promoted_quo with (sg := sg); auto; lia. }
  cbn [In] in Hin. destruct Hin as [E|[E|[E|[E|[E|[E|[]]]]]]]; injection E as <- <- <-.
  - apply PR; auto.
  - apply PR; auto. intros w Hw. now apply (sgn_value 1).
  - apply PR; auto. intros w Hw. now apply (sgn_value 2).
  - apply PR; auto.
  - apply PR; auto. intros w Hw. now apply (sgn_value 4).
  - clear PR. apply corr_run with (X := X) (Y := Y); auto; try lia.
    + intros i j t Hi Hj Ht. apply F; auto.
    + intros i j t Hi Hj Ht F1 F2. unfold mac_uint. eexists. split; [reflexivity|]. unfold u32. change (256 ^ 4) with 4294967296.
      rewrite Z.mod_mod by lia. rewrite Z.add_mod_idemp_r, Z.add_mod_idemp_l by lia. rewrite sumz_S by lia. f_equal. unfold value. ring.
    + intros w Fw. unfold quo_uint, u32. unfold fits in Fw. change (2 ^ (8 * 4)) with 4294967296 in Fw. change (256 ^ 4) with 4294967296.
      rewrite (Z.mod_small n) by lia. replace (n =? 0) with false by lia. rewrite (Z.mod_small w) by lia.
      eexists. split; [reflexivity|]. now rewrite Z.quot_div_nonneg by lia.
Qed.

(** float: the rounded sum divided by n, rounded again. *)
Lemma corr_float e s x y z l n m X Y W :
  0 <= l -> 0 < n <= 2147483647 -> 0 <= m -> l * n <= 2147483647 -> n * m <= 2147483647 -> l * m <= 2147483647 ->
  matrix s x 4 l n X -> matrix s y 4 n m Y -> matrix s z 4 l m W -> x <> z -> y <> z ->
  exists s', correlation_matrix_float z x y l n m e s = Ret tt s'
    /\ matrix s' z 4 l m (fun i j => bits_of_fl (fl_div
         (foldz n (fun a t => fl_add a (fl_mul (fl_of_bits (X i t)) (fl_of_bits (Y t j)))) (fl_of_bits (W i j))) (fl_of_Z n)) mod 4294967296)
    /\ only_bytes s z 0 (l * m * 4) s'.
Proof.
  intros Hl Hn Hm B1 B2 B3 Hx Hy Hz N1 N2.
  destruct (mul_float e s x y z l n m X Y W) as (s1 & V & E1 & M1 & HV & O1); auto; try lia.
  destruct (corr_gen 4 _ quo_float e s z x y l n m s1 V (fun i j => bits_of_fl (fl_div (fl_of_bits (V i j)) (fl_of_Z n)) mod 4294967296)
    ltac:(lia) Hl Hm B3 E1 M1 O1) as (s' & E & M' & O').
  - intros i j Hi Hj. eexists. split; reflexivity.
  - exists s'. split; [exact E|]. split; auto.
    intros i j Hi Hj. rewrite <- HV by auto. apply M'; auto.
Qed.

Lemma corr_float_int e s x y z l n m X Y W X' Y' W' Q :
  0 <= l -> 0 < n <= 16777216 -> 0 <= m -> l * n <= 2147483647 -> n * m <= 2147483647 -> l * m <= 2147483647 ->
  matrix s x 4 l n X -> matrix s y 4 n m Y -> matrix s z 4 l m W -> x <> z -> y <> z ->
  (forall i t, 0 <= i < l -> 0 <= t < n -> float_int (X i t) (X' i t)) ->
  (forall t j, 0 <= t < n -> 0 <= j < m -> float_int (Y t j) (Y' t j)) ->
  (forall i j, 0 <= i < l -> 0 <= j < m -> float_int (W i j) (W' i j)) ->
  (forall i j t, 0 <= i < l -> 0 <= j < m -> 0 <= t < n ->
     Z.abs (X' i t * Y' t j) <= 16777216
     /\ Z.abs (W' i j + sumz (t + 1) (fun t => X' i t * Y' t j)) <= 16777216) ->
  (forall i j, 0 <= i < l -> 0 <= j < m -> W' i j + sumz n (fun t => X' i t * Y' t j) = n * Q i j) ->
  exists s' V, correlation_matrix_float z x y l n m e s = Ret tt s'
    /\ matrix s' z 4 l m V /\ (forall i j, 0 <= i < l -> 0 <= j < m -> float_int (V i j) (Q i j))
    /\ only_bytes s z 0 (l * m * 4) s'.
Proof.
  intros Hl Hn Hm B1 B2 B3 Hx Hy Hz N1 N2 FX FY FW B HQ.
  destruct (mul_float_int e s x y z l n m X Y W X' Y' W') as (s1 & V & E1 & M1 & HV & O1); auto; try lia.
  destruct (corr_gen 4 _ quo_float e s z x y l n m s1 V (fun i j => bits_of_fl (fl_div (fl_of_bits (V i j)) (fl_of_Z n)) mod 4294967296)
    ltac:(lia) Hl Hm B3 E1 M1 O1) as (s' & E & M' & O').
  - intros i j Hi Hj. eexists. split; reflexivity.
  - eexists s', _. split; [exact E|]. split; [exact M'|]. split; auto.
    intros i j Hi Hj. cbv beta. pose proof (HV i j Hi Hj) as V1. rewrite HQ in V1 by auto.
    pose proof (matrix_range s1 z 4 l m V i j ltac:(lia) M1 Hi Hj) as R. change (256 ^ 4) with 4294967296 in R.
    assert (HB : Z.abs (n * Q i j) <= 16777216).
    { pose proof (proj2 (B i j (n - 1) Hi Hj ltac:(lia))) as P. replace (n - 1 + 1) with n in P by lia. now rewrite HQ in P. }
    assert (Z.abs (Q i j) <= 16777216) by (clear - Hn HB; nia).
    assert (I : isint 24 128 (fl_div (fl_of_bits (V i j)) (fl_of_Z n)) (Q i j)).
    { eapply (div_int 24 128 ltac:(lia) ltac:(lia) ltac:(lia) ltac:(lia)) with (a := n * Q i j) (b := n); try lia.
      - split; [now apply fl_of_bits_ok|exact V1].
      - apply of_Z_int; try lia. }
    destruct I as [I1 I2]. unfold float_int. rewrite Z.mod_small by (now apply bits_of_fl_range). rewrite fl_bits_fl; auto.
Qed.
