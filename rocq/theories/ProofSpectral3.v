(** * Proofs: sum and logarithm of float matrices. *)
From Verif Require Import Base ModelFloat ModelDouble ModelCore ModelImage ModelFile ModelFilter SpecBase SpecCore SpecImage SpecImage2 SpecPixel SpecNum
  SpecMatrix SpecFilter SpecStat SpecSpectral Logic ProofCore ProofLayout ProofCore2 ProofImage ProofImage2 ProofHM ProofCopy ProofImage3 ProofPixel ProofWord ProofArr
  ProofGrid ProofFold ProofMatrix ProofFloat ProofFloat2 ProofDiv ProofGrad ProofFilter ProofStat ProofValid ProofSpectral ProofSpectral2.
From Verif Require Import ModelSpectral.
From Coq Require Import Floats.SpecFloat ZifyBool ZifyNat.
Ltac Zify.zify_post_hook ::= Z.div_mod_to_equations.
Open Scope Z_scope.

Lemma for3_inv e R C K (body : Z -> Z -> Z -> M unit) (P : Z -> st -> Prop) s : 0 <= R -> 0 <= C -> 0 <= K -> P 0 s ->
  (forall i j k s1, 0 <= i < R -> 0 <= j < C -> 0 <= k < K -> P ((i * C + j) * K + k) s1 ->
     exists s2, body i j k e s1 = Ret tt s2 /\ P ((i * C + j) * K + k + 1) s2) ->
  exists s', for_ 0 R (fun i => for_ 0 C (fun j => for_ 0 K (body i j))) e s = Ret tt s' /\ P (R * C * K) s'.
Proof.
  intros HR HC HK H0 Hb.
  destruct (for_inv e 0 R (fun i => for_ 0 C (fun j => for_ 0 K (body i j))) (fun i s1 => P (i * C * K) s1) s) as (s' & E & Q); auto.
  - intros i s1 Hi P1.
    destruct (for_inv e 0 C (fun j => for_ 0 K (body i j)) (fun j s1 => P ((i * C + j) * K) s1) s1) as (s2 & E2 & Q2); auto.
    + now rewrite Z.add_0_r.
    + intros j s2 Hj P2.
      destruct (for_inv e 0 K (body i j) (fun k s1 => P ((i * C + j) * K + k) s1) s2) as (s3 & E3 & Q3); auto.
      * now rewrite Z.add_0_r.
      * intros k s3 Hk P3. destruct (Hb i j k s3 Hi Hj Hk P3) as (s4 & E4 & P4). exists s4. split; auto. now rewrite Z.add_assoc.
      * exists s3. split; auto. replace ((i * C + (j + 1)) * K) with ((i * C + j) * K + K) by ring. exact Q3.
    + exists s2. split; auto. replace ((i + 1) * C * K) with ((i * C + C) * K) by ring. exact Q2.
  - exists s'. split; auto.
Qed.

(** Words that can be read and are computed to new ones, cell by cell in order:
    reads at or after the cell being written see the old contents. *)
Section Cells.
  Variables (e : env) (s : st) (q : nat) (n : Z) (h : Z -> Z).
  Definition progress (t : Z) (s1 : st) : Prop :=
    inside s q 0 (4 * t) s1 /\ (forall r, 0 <= r < t -> word_at s1 (Some q) (4 * r) 4 = Some (h r)).
  Hypothesis Hq : readable s (Some q) (n * 4).
  Lemma progress_0 : progress 0 s.
  Proof using Hq. apply readable_isb in Hq as (q' & sz & f & [= <-] & Hi & Hn). split; [eapply inside_refl; eauto|intros; lia]. Qed.
  Lemma progress_word t s1 p w r : progress t s1 -> 0 <= t <= r -> word_at s p (4 * r) 4 = Some w -> word_at s1 p (4 * r) 4 = Some w.
  Proof using.
    intros [I _] Hr W. destruct (word_isb s p (4 * r) 3 w W) as (k & N & d & -> & Ik & A & B).
    destruct I as (N' & d0 & d' & Iq & -> & K). destruct (Nat.eq_dec k q) as [->|Hne].
    - unfold isb in Ik, Iq. rewrite Iq in Ik. injection Ik as -> ->. fold (isb s q N d) in Iq.
      rewrite (word_at_isb s q N d 4 Iq) in W by lia. rewrite (word_at_isb _ q N d' 4 (isb_putd_eq _ _ _ _ d' Iq)) by lia.
      rewrite <- W. f_equal. apply word_ext. intros u Hu. rewrite K; auto. lia.
    - rewrite (word_at_isb s k N d 4 Ik) in W by lia. rewrite (word_at_isb _ k N d 4) by (try lia; apply isb_putd_ne; auto). exact W.
  Qed.
  Hypothesis Hh : forall t, 0 <= t < n -> 0 <= h t < 4294967296.
  Lemma progress_store t s1 v : progress t s1 -> 0 <= t < n -> v = h t -> exists s2, storele (Some q) (4 * t) 4 v e s1 = Ret tt s2 /\ progress (t + 1) s2.
  Proof.
    intros [I W] Ht ->. apply readable_isb in Hq as (q' & sz & f & [= <-] & Hi & Hn).
    destruct I as (N' & d0 & d' & Iq & -> & K). unfold isb in Hi, Iq. rewrite Iq in Hi. injection Hi as -> ->. fold (isb s q sz f) in Iq.
    pose proof (isb_putd_eq _ _ _ _ d' Iq) as Iq'.
    destruct (storele_ok e (putd s q d') q sz d' 4 (h t) (4 * t) Iq' ltac:(lia) ltac:(lia)) as (d2 & E & A & B).
    exists (putd (putd s q d') q d2). split; [exact E|]. rewrite putd_putd in *. split.
    - exists sz, f, d2. split; [exact Iq|]. split; [reflexivity|]. intros p Hp. rewrite B by lia. apply K. lia.
    - intros r Hr. pose proof (isb_putd_eq _ _ _ _ d2 Iq) as I2. rewrite (word_at_isb _ q sz d2 4 I2) by lia.
      destruct (Z.eq_dec r t) as [->|Hne].
      + rewrite A. f_equal. apply Z.mod_small. change (256 ^ Z.of_nat 4) with 4294967296. now apply Hh.
      + rewrite <- W by lia. rewrite (word_at_isb _ q sz d' 4 Iq') by lia. f_equal. apply word_ext. intros u Hu. first [apply B; lia|symmetry; apply B; lia|rewrite B by lia; reflexivity].
  Qed.
  Lemma progress_hdr t s1 p m : progress t s1 -> sm_at s p = Some m -> sm_at s1 p = Some m.
  Proof using. intros [(N & d & d' & I & -> & _) _] H. now rewrite (sm_at_putd _ _ _ _ _ _ I). Qed.
End Cells.

Lemma addition_run : forall e s p1 m1 p2 m2 d md W1 W2, sm_at s p1 = Some m1 -> sm_at s p2 = Some m2 -> sm_at s d = Some md ->
  sm_chan m1 = sm_chan m2 -> sm_cols m1 = sm_cols m2 -> 0 < sm_rows m1 -> 0 < sm_rows m2 -> 0 < sm_cols m1 -> 0 < sm_chan m1 ->
  let n := Z.min (sm_rows m1) (sm_rows m2) * sm_cols m1 * sm_chan m1 in
  n <= INT_MAX -> elements_of s (sm_data m1) 4 n W1 -> elements_of s (sm_data m2) 4 n W2 -> readable s (sm_data md) (n * 4) ->
  exists s', simple_mat_addition_float p1 p2 d e s = Ret tt s'
    /\ combined s (sm_data m1) (sm_data m2) (sm_data md) n fl_add s' /\ exists q, sm_data md = Some q /\ inside s q 0 (4 * n) s'.
Proof.
  intros e s p1 m1 p2 m2 d md W1 W2 H1 H2 Hd EC EL R1 R2 HC HK n Hn E1 E2 RD. unfold simple_mat_addition_float.
  rewrite bind_assert by (destruct p1, p2, d; try discriminate; reflexivity). runs (sget_ok _ _ e _ H1). runs (sget_ok _ _ e _ H2).
  rewrite bind_assert by lia. cbv zeta. runs (sget_ok _ _ e _ Hd). rewrite <- EL.
  assert (EQR : (if sm_rows m1 >=? sm_rows m2 then sm_rows m2 else sm_rows m1) = Z.min (sm_rows m1) (sm_rows m2)) by (destruct (sm_rows m1 >=? sm_rows m2) eqn:Q; lia).
  rewrite EQR. rewrite (Z.geb_leb (sm_cols m1)), Z.leb_refl.
  set (R := Z.min (sm_rows m1) (sm_rows m2)) in *. set (C := sm_cols m1) in *. set (K := sm_chan m1) in *. assert (HR : 0 < R) by lia. clearbody R. clear EQR.
  destruct (readable_isb _ _ _ RD) as (q & sz & f & Eq & _ & _). rewrite Eq in *.
  set (h := fun t => bits_of_fl (fl_add (fl_of_bits (W1 t)) (fl_of_bits (W2 t)))).
  assert (E1' : forall t, 0 <= t < n -> word_at s (sm_data m1) (4 * t) 4 = Some (W1 t)) by (intros t Ht; rewrite Z.mul_comm; now apply E1).
  assert (E2' : forall t, 0 <= t < n -> word_at s (sm_data m2) (4 * t) 4 = Some (W2 t)) by (intros t Ht; rewrite Z.mul_comm; now apply E2).
  assert (Hh : forall t, 0 <= t < n -> 0 <= h t < 4294967296).
  { intros t Ht. apply bits_of_fl_range. change 4294967296 with (256 ^ Z.of_nat 4) in *.
    apply fl_add_ok; apply fl_of_bits_ok; [apply (word_range _ _ _ 4 _ (E1' t Ht))|apply (word_range _ _ _ 4 _ (E2' t Ht))]. }
  destruct (for3_inv e R C K (fun i j k => x <- ev (i * C * K + j * K + k)%C ;; a <- loadf (sm_data m1) x ;; b <- loadf (sm_data m2) x ;; storef (Some q) x (fl_add a b))
    (progress s q h) s ltac:(lia) ltac:(lia) ltac:(lia) (progress_0 s q n h RD)) as (s' & E & P').
  - intros i j k s1 Hi Hj Hk P1. assert (B1 : 0 <= i * C + j < R * C) by (clear - Hi Hj; nia).
    assert (B2 : 0 <= (i * C + j) * K + k < R * C * K) by (clear - B1 Hk; nia). fold n in B2.
    assert (U1 : 0 <= i * C) by (clear - Hi Hj; nia). assert (U2 : 0 <= i * C * K) by (clear - U1 Hk; nia). assert (U3 : i * C <= i * C * K) by (clear - U1 Hk; nia).
    assert (U4 : 0 <= j * K) by (clear - Hj Hk; nia). assert (U5 : i * C * K + j * K + k = (i * C + j) * K + k) by ring.
    assert (EX : (i * C * K + j * K + k)%C = Some ((i * C + j) * K + k)).
    { unfold ci. unfold INT_MAX in Hn. rewrite (cmul_ok i C), (cmul_ok (i * C)), (cmul_ok j K) by lia. rewrite cadd_ok by lia. rewrite cadd_ok by lia. now rewrite U5. }
    set (t := (i * C + j) * K + k) in *. runs (ev_ok _ _ e s1 EX).
    runs (load_float e s1 _ _ _ (progress_word s q h t s1 _ _ t P1 ltac:(lia) (E1' t B2))).
    runs (load_float e s1 _ _ _ (progress_word s q h t s1 _ _ t P1 ltac:(lia) (E2' t B2))).
    unfold storef. apply (progress_store e s q n h RD Hh t s1 _ P1 B2). reflexivity.
  - exists s'. split; [exact E|]. fold n in P'. destruct P' as [I V]. split.
    + intros t Ht. exists (W1 t), (W2 t). split; [now apply E1'|]. split; [now apply E2'|]. now apply V.
    + exists q. auto.
Qed.
Theorem addition_float_exact : forall e s p1 m1 p2 m2 d md W1 W2, sm_at s p1 = Some m1 -> sm_at s p2 = Some m2 -> sm_at s d = Some md ->
  sm_chan m1 = sm_chan m2 -> sm_cols m1 = sm_cols m2 -> 0 < sm_rows m1 -> 0 < sm_rows m2 -> 0 < sm_cols m1 -> 0 < sm_chan m1 ->
  let n := Z.min (sm_rows m1) (sm_rows m2) * sm_cols m1 * sm_chan m1 in
  n <= INT_MAX -> elements_of s (sm_data m1) 4 n W1 -> elements_of s (sm_data m2) 4 n W2 -> readable s (sm_data md) (n * 4) ->
  exists s', simple_mat_addition_float p1 p2 d e s = Ret tt s'
    /\ combined s (sm_data m1) (sm_data m2) (sm_data md) n fl_add s' /\ only_bytes s (sm_data md) 0 (4 * n) s'.
Proof.
  intros e s p1 m1 p2 m2 d md W1 W2 H1 H2 H3 H4 H5 H6 H7 H8 H9 n H10 H11 H12 H13.
  destruct (addition_run e s p1 m1 p2 m2 d md W1 W2 H1 H2 H3 H4 H5 H6 H7 H8 H9 H10 H11 H12 H13) as (s' & E & C & q & Eq & I).
  exists s'. split; auto. split; auto. rewrite Eq. now apply inside_only.
Qed.

Theorem log_exact : forall log_ e s p ms d md W, sm_at s p = Some ms -> sm_at s d = Some md -> sm_type ms = 4 -> sm_type md = 4 ->
  sm_rows md = sm_rows ms -> sm_cols md = sm_cols ms -> 0 < sm_rows ms -> 0 < sm_cols ms -> (forall x, db_ok x -> db_ok (log_ x)) ->
  let n := sm_rows ms * sm_cols ms in
  n <= INT_MAX -> elements_of s (sm_data ms) 4 n W -> readable s (sm_data md) (n * 4) ->
  exists s', simple_mat_log log_ p d e s = Ret tt s'
    /\ combined s (sm_data ms) (sm_data ms) (sm_data md) n (fun x _ => fl_of_db (log_ (db_of_fl x))) s' /\ only_bytes s (sm_data md) 0 (4 * n) s'.
Proof.
  intros log_ e s p ms d md W H1 Hd T1 T2 ER EC HR HC HL n Hn E1 RD. unfold simple_mat_log.
  runs (sget_ok _ _ e _ H1). rewrite bind_assert by lia. runs (sget_ok _ _ e _ Hd). rewrite bind_assert by lia. rewrite bind_assert by lia.
  assert (Hn0 : 0 < n) by (unfold n; clear - HR HC; nia).
  assert (EX : (sm_rows ms * sm_cols ms)%C = Some n) by (apply cmul_ok; fold n; unfold INT_MAX in Hn; lia).
  runs (ev_ok _ _ e s EX). destruct (readable_isb _ _ _ RD) as (q & sz & f & Eq & _ & _). rewrite Eq in *.
  set (h := fun t => bits_of_fl (fl_of_db (log_ (db_of_fl (fl_of_bits (W t)))))).
  assert (E1' : forall t, 0 <= t < n -> word_at s (sm_data ms) (4 * t) 4 = Some (W t)) by (intros t Ht; rewrite Z.mul_comm; now apply E1).
  assert (Hh : forall t, 0 <= t < n -> 0 <= h t < 4294967296).
  { intros t Ht. apply bits_of_fl_range. apply fl_of_db_valid. apply HL. apply db_of_fl_ok. apply fl_of_bits_ok.
    change 4294967296 with (256 ^ Z.of_nat 4). apply (word_range _ _ _ 4 _ (E1' t Ht)). }
  destruct (for_inv e 0 n (fun i => v <- loadf (sm_data ms) i ;; storef (Some q) i (fl_of_db (log_ (db_of_fl v)))) (progress s q h) s) as (s' & E & I & V).
  - lia.
  - exact (progress_0 s q n h RD).
  - intros t s1 Ht P1. runs (load_float e s1 _ _ _ (progress_word s q h t s1 _ _ t P1 ltac:(lia) (E1' t Ht))).
    unfold storef. apply (progress_store e s q n h RD Hh t s1 _ P1 Ht). reflexivity.
  - exists s'. split; [exact E|]. split; [|now apply inside_only]. intros t Ht. exists (W t), (W t). split; [now apply E1'|]. split; [now apply E1'|]. now apply V.
Qed.
