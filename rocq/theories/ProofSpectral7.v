(** * Proofs: linear stretching of a cube. *)
From Verif Require Import Base ModelFloat ModelDouble ModelCore ModelImage ModelFile ModelFilter SpecBase SpecCore SpecImage SpecImage2 SpecPixel SpecNum
  SpecMatrix SpecFilter SpecStat SpecSpectral Logic ProofCore ProofLayout ProofCore2 ProofImage ProofImage2 ProofHM ProofCopy ProofImage3 ProofPixel ProofWord ProofArr
  ProofGrid ProofFold ProofMatrix ProofFloat ProofFloat2 ProofDiv ProofGrad ProofFilter ProofStat ProofLoop ProofSpectral.
From Verif Require Import ModelSpectral.
From Coq Require Import Floats.SpecFloat ZifyBool ZifyNat.
Ltac Zify.zify_post_hook ::= Z.div_mod_to_equations.
Open Scope Z_scope.

Lemma foldz_pair {A B} n (f : A -> Z -> A) (g : B -> Z -> B) a b : 0 <= n ->
  foldz n (fun p i => (f (fst p) i, g (snd p) i)) (a, b) = (foldz n f a, foldz n g b).
Proof. intros Hn. pattern n. apply natlike_ind; [reflexivity| |exact Hn]. intros m Hm IH. unfold Z.succ. rewrite !foldz_S by lia. now rewrite IH. Qed.

Lemma store8_mod p i v e s : store8 p i (v mod 256) e s = store8 p i v e s.
Proof. unfold store8. destruct (bytes_at s p) as [[[q n] d]|]; [|reflexivity]. now rewrite Z.mod_mod by lia. Qed.
Lemma for_any e lo hi body (I : st -> Prop) s : I s ->
  (forall i s1, lo <= i < hi -> I s1 -> body i e s1 = UB \/ exists s2, body i e s1 = Ret tt s2 /\ I s2) ->
  for_ lo hi body e s = UB \/ exists s2, for_ lo hi body e s = Ret tt s2 /\ I s2.
Proof.
  intros Hs Hb. remember (Z.to_nat (hi - lo)) as n eqn:Hn. revert lo s Hs Hb Hn. induction n as [|n IH]; intros lo s Hs Hb Hn.
  - right. exists s. split; [|exact Hs]. apply for_empty. lia.
  - rewrite for_first by lia. destruct (Hb lo s ltac:(lia) Hs) as [E|(s1 & E & H1)].
    + left. unfold bind. now rewrite E.
    + rewrite (bind_ret _ _ _ _ _ _ E). apply IH; auto; try lia. intros i s2 Hi H2. apply Hb; auto; lia.
Qed.

Lemma stretched_spec mx mn x : stretched (fl_div (fl_of_Z 255) (fl_sub mx mn)) (fl_div (fl_mul (SFopp mn) (fl_of_Z 255)) (fl_sub mx mn)) x = stretch mx mn x.
Proof.
  unfold stretched, stretch, int_of_sf, chk, in_int. destruct (sf_trunc _) as [r|]; [|reflexivity].
  destruct ((INT_MIN <=? r) && (r <=? INT_MAX)); [|reflexivity]. f_equal. destruct (r <=? 0); [reflexivity|]. destruct (r >=? 255) eqn:Q; lia.
Qed.

Lemma bsq_idx S L B k i j : 0 <= k < B -> 0 <= i < L -> 0 <= j < S -> S * L * B * 4 <= 2147483647 ->
  (k * S * L + i * S + j)%C = Some ((k * L + i) * S + j) /\ 0 <= (k * L + i) * S + j < B * L * S.
Proof.
  intros Hk Hi Hj Hn. assert (R1 : 0 <= k * L + i < B * L) by (clear - Hk Hi; nia). assert (R2 : 0 <= (k * L + i) * S + j < B * L * S) by (clear - R1 Hj; nia).
  split; [|exact R2]. assert (U1 : 0 <= k * S) by (clear - Hk Hj; nia). assert (U2 : 0 <= k * S * L) by (clear - U1 Hi; nia).
  assert (U3 : k * S <= k * S * L) by (clear - U1 Hi; nia). assert (U4 : 0 <= i * S) by (clear - Hi Hj; nia).
  assert (U5 : k * S * L + i * S + j = (k * L + i) * S + j) by ring.
  assert (U6 : B * L * S * 4 = S * L * B * 4) by ring. unfold ci. rewrite (cmul_ok k S), (cmul_ok (k * S)), (cmul_ok i S) by lia. rewrite cadd_ok by lia. rewrite cadd_ok by lia. now rewrite U5.
Qed.

Section Tension.
  Variables (e : env) (s : st) (p d : ptr) (ms md : hmat) (q w : nat) (szq szw : Z) (f g : Z -> Z).
  Hypothesis (CU : cube s p ms BSQ 4).
  Hypothesis (Hd : hm_at s d = Some md).
  Hypothesis (ES : hm_samples md = hm_samples ms) (EL : hm_lines md = hm_lines ms) (EB : hm_bands md = hm_bands ms) (ET : hm_type md = 1).
  Hypothesis (Eq : hm_data md = Some q) (Ew : hm_data ms = Some w) (Hqw : w <> q) (Iq : isb s q szq f) (Iw : isb s w szw g).
  Let S := hm_samples ms.
  Let L := hm_lines ms.
  Let B := hm_bands ms.
  Hypothesis (Nq : B * L * S <= szq) (Nw : S * L * B * 4 <= szw).
  Let V k i j := fl_of_bits (word g (4 * ((k * L + i) * S + j)) 4).
  Let MX k := band_max L S (V k).
  Let MN k := band_min L S (V k).
  Definition band_find (ms : hmat) (k : Z) : M (sf * sf) :=
    forS 0 (hm_lines ms) (fun i acc => forS 0 (hm_samples ms) (fun j acc =>
      x <- ev (k * hm_samples ms * hm_lines ms + i * hm_samples ms + j)%C ;; tmp <- loadf (hm_data ms) x ;; ret (extremes acc tmp)) acc) (fl_of_Z 0, fl_of_Z 1000000000).
  Definition band_body (ms md : hmat) (k : Z) : M unit :=
    acc <- band_find ms k ;;
    let (maxdata, mindata) := (acc : sf * sf) in
    let m := fl_div (fl_of_Z 255) (fl_sub maxdata mindata) in
    let n := fl_div (fl_mul (SFopp mindata) (fl_of_Z 255)) (fl_sub maxdata mindata) in
    for_ 0 (hm_lines ms) (fun i => for_ 0 (hm_samples ms) (fun j =>
      x <- ev (k * hm_samples ms * hm_lines ms + i * hm_samples ms + j)%C ;; tmp <- loadf (hm_data ms) x ;; r <- ev (stretched m n tmp) ;; store8 (hm_data md) x r)).
  Let cub := CU.
  Lemma ten_pos : 0 < S /\ 0 < L /\ 0 < B /\ S * L * B * 4 <= 2147483647.
  Proof using CU. destruct CU as [Hp Ht Hpad Hty HS HL HB Hsz Hws Dp Hw]. auto. Qed.

  Lemma ten_load s1 k i j : isb s1 w szw g -> 0 <= k < B -> 0 <= i < L -> 0 <= j < S ->
    forall {T} (K : Z -> sf -> M T), bind (ev (k * S * L + i * S + j)%C) (fun x => bind (loadf (Some w) x) (K x)) e s1 = K ((k * L + i) * S + j) (V k i j) e s1.
  Proof using CU Nw Hqw.
    intros I1 Hk Hi Hj T K. destruct ten_pos as (P1 & P2 & P3 & P4). destruct (bsq_idx S L B k i j Hk Hi Hj P4) as [E R]. rewrite (bind_ret _ _ _ _ _ _ (ev_ok _ _ e s1 E)).
    assert (EQ4 : B * L * S * 4 = S * L * B * 4) by ring.
    assert (W : word_at s1 (Some w) (4 * ((k * L + i) * S + j)) 4 = Some (word g (4 * ((k * L + i) * S + j)) 4)) by (apply (word_at_isb s1 w szw g 4 I1); lia).
    rewrite (bind_ret _ _ _ _ _ _ (load_float e s1 _ _ _ W)). reflexivity.
  Qed.

  Lemma find_ok s1 k : isb s1 w szw g -> 0 <= k < B -> band_find ms k e s1 = Ret (MX k, MN k) s1.
  Proof using CU Nw Ew Hqw.
    intros I1 Hk. destruct ten_pos as (P1 & P2 & P3 & P4). unfold band_find. rewrite Ew. unfold MX, MN, band_max, band_min.
    rewrite <- foldz_pair by lia. apply forS_pure; [lia|]. intros i [a b] Hi. cbn [fst snd]. rewrite <- foldz_pair by lia. apply forS_pure; [lia|]. intros j [a' b'] Hj.
    fold S L. rewrite (ten_load s1 k i j I1 Hk Hi Hj (fun x tmp => ret (extremes (a', b') tmp))). reflexivity.
  Qed.

  Let N := B * L * S.
  (** One band: everything is an int. *)
  Lemma band_ok s1 k (h : Z -> Z) g0 : isb s1 w szw g -> 0 <= k < B -> arr s1 q 0 1 N (upto (k * L * S) h g0) ->
    (forall i j, 0 <= i < L -> 0 <= j < S -> exists r, stretch (MX k) (MN k) (V k i j) = Some r /\ h ((k * L + i) * S + j) = r mod 256) ->
    exists s2, band_body ms md k e s1 = Ret tt s2 /\ arr s2 q 0 1 N (upto ((k + 1) * L * S) h g0) /\ inside s1 q 0 N s2.
  Proof using CU Nw Ew Eq Hqw.
    intros I1 Hk A1 Hst. destruct ten_pos as (P1 & P2 & P3 & P4). unfold band_body. rewrite (bind_ret _ _ _ _ _ _ (find_ok s1 k I1 Hk)). cbv zeta. rewrite Ew, Eq. fold S L.
    destruct (arr_isb _ _ _ _ _ _ A1) as (n1 & f1 & Iq1).
    match goal with |- context [for_ 0 L ?b] => set (body := b) end.
    destruct (for_inv e 0 L body (fun i s2 => arr s2 q 0 1 N (upto ((k * L + i) * S) h g0) /\ inside s1 q 0 N s2) s1) as (s2 & E & A & I).
    - lia.
    - rewrite Z.add_0_r. split; [exact A1|]. eapply inside_refl; eauto.
    - intros i s2 Hi (A2 & I2). unfold body. match goal with |- context [for_ 0 S ?b] => set (cell := b) end.
      destruct (for_inv e 0 S cell (fun j s3 => arr s3 q 0 1 N (upto ((k * L + i) * S + j) h g0) /\ inside s1 q 0 N s3) s2) as (s3 & E & A & I).
      + lia.
      + rewrite Z.add_0_r. auto.
      + intros j s3 Hj (A3 & I3). unfold cell. pose proof (inside_old _ _ _ _ _ _ _ _ I3 Hqw I1) as I3w.
        destruct (bsq_idx S L B k i j Hk Hi Hj P4) as [_ R]. fold N in R.
        rewrite (ten_load s3 k i j I3w Hk Hi Hj (fun x tmp => bind (ev (stretched _ _ tmp)) (fun r => store8 (Some q) x r))).
        destruct (Hst i j Hi Hj) as (r & Er & Eh). rewrite stretched_spec. rewrite (bind_ret _ _ _ _ _ _ (ev_ok _ _ e s3 Er)).
        destruct (arr_store e s3 q 0 1 N _ ((k * L + i) * S + j) ((k * L + i) * S + j) 1 r A3 R ltac:(lia) eq_refl) as (s4 & E4 & A4 & I4).
        assert (E4' : store8 (Some q) ((k * L + i) * S + j) r e s3 = Ret tt s4).
        { revert E4. cbn [storele]. unfold bind. rewrite store8_mod. destruct (store8 (Some q) ((k * L + i) * S + j) r e s3) as [[] sx| | |]; intros H; try discriminate H; exact H. }
        exists s4. split; [exact E4'|]. rewrite Z.add_assoc. split.
        * eapply upto_step; [exact A4|]. symmetry. exact Eh.
        * eapply inside_trans; [exact I3|]. eapply inside_weaken; [| |exact I4]; lia.
      + exists s3. split; [exact E|]. replace ((k * L + (i + 1)) * S) with ((k * L + i) * S + S) by ring. auto.
    - exists s2. split; [exact E|]. replace ((k + 1) * L * S) with ((k * L + L) * S) by ring. auto.
  Qed.

  (** One band, in any case: it finishes or it is undefined, and it is undefined
      when some sample has no int. *)
  Let Inv s1 := isb s1 w szw g /\ exists f1, isb s1 q szq f1.
  Lemma band_any s1 k : Inv s1 -> 0 <= k < B -> band_body ms md k e s1 = UB \/ exists s2, band_body ms md k e s1 = Ret tt s2 /\ Inv s2.
  Proof using CU Nw Nq Ew Eq Hqw.
    intros I1 Hk. destruct ten_pos as (P1 & P2 & P3 & P4). unfold band_body. rewrite (bind_ret _ _ _ _ _ _ (find_ok s1 k (proj1 I1) Hk)). cbv zeta. rewrite Ew, Eq. fold S L.
    apply for_any; auto. intros i s2 Hi I2. apply for_any; auto. intros j s3 Hj (I3w & f3 & I3q).
    destruct (bsq_idx S L B k i j Hk Hi Hj P4) as [_ R]. fold N in R.
    rewrite (ten_load s3 k i j I3w Hk Hi Hj (fun x tmp => bind (ev (stretched _ _ tmp)) (fun r => store8 (Some q) x r))). rewrite stretched_spec.
    destruct (stretch (MX k) (MN k) (V k i j)) as [r|] eqn:Er; [right|left; reflexivity].
    rewrite (bind_ret _ _ _ _ _ _ (ev_ok _ _ e s3 eq_refl)). eexists. split; [apply (store8_ok e s3 q szq f3); [exact I3q|fold N in Nq; lia]|].
    split; [apply isb_putd_ne; auto|]. eexists. eapply isb_putd_eq; exact I3q.
  Qed.
  Lemma band_bad s1 k i0 j0 : Inv s1 -> 0 <= k < B -> 0 <= i0 < L -> 0 <= j0 < S -> stretch (MX k) (MN k) (V k i0 j0) = None -> band_body ms md k e s1 = UB.
  Proof using CU Nw Nq Ew Eq Hqw.
    intros I1 Hk Hi0 Hj0 HU. destruct ten_pos as (P1 & P2 & P3 & P4). unfold band_body. rewrite (bind_ret _ _ _ _ _ _ (find_ok s1 k (proj1 I1) Hk)). cbv zeta. rewrite Ew, Eq. fold S L.
    assert (Cell : forall i j s3, 0 <= i < L -> 0 <= j < S -> Inv s3 ->
      (x <- ev (k * S * L + i * S + j)%C ;; tmp <- loadf (Some w) x ;;
       r <- ev (stretched (fl_div (fl_of_Z 255) (fl_sub (MX k) (MN k))) (fl_div (fl_mul (SFopp (MN k)) (fl_of_Z 255)) (fl_sub (MX k) (MN k))) tmp) ;; store8 (Some q) x r) e s3
      = (r <- ev (stretch (MX k) (MN k) (V k i j)) ;; store8 (Some q) ((k * L + i) * S + j) r) e s3).
    { intros i j s3 Hi Hj (I3w & f3 & I3q). rewrite (ten_load s3 k i j I3w Hk Hi Hj (fun x tmp => bind (ev (stretched _ _ tmp)) (fun r => store8 (Some q) x r))). now rewrite stretched_spec. }
    assert (Any : forall i j s3, 0 <= i < L -> 0 <= j < S -> Inv s3 ->
      (r <- ev (stretch (MX k) (MN k) (V k i j)) ;; store8 (Some q) ((k * L + i) * S + j) r) e s3 = UB
      \/ exists s4, (r <- ev (stretch (MX k) (MN k) (V k i j)) ;; store8 (Some q) ((k * L + i) * S + j) r) e s3 = Ret tt s4 /\ Inv s4).
    { intros i j s3 Hi Hj (I3w & f3 & I3q). destruct (bsq_idx S L B k i j Hk Hi Hj P4) as [_ R]. fold N in R.
      destruct (stretch (MX k) (MN k) (V k i j)) as [r|] eqn:Er; [right|left; reflexivity].
      rewrite (bind_ret _ _ _ _ _ _ (ev_ok _ _ e s3 eq_refl)). eexists. split; [apply (store8_ok e s3 q szq f3); [exact I3q|fold N in Nq; lia]|].
      split; [apply isb_putd_ne; auto|]. eexists. eapply isb_putd_eq; exact I3q. }
    apply (for_ub_some e 0 L _ Inv i0 s1 Hi0 I1).
    - intros i s2 Hi I2. apply for_any; auto. intros j s3 Hj I3. rewrite Cell by auto. apply Any; auto.
    - intros s2 I2. apply (for_ub_some e 0 S _ Inv j0 s2 Hj0 I2).
      + intros j s3 Hj I3. rewrite Cell by auto. apply Any; auto.
      + intros s3 I3. rewrite Cell by auto. rewrite HU. reflexivity.
  Qed.
End Tension.

Lemma band_max_ext n c v v' : (forall i j, 0 <= i < n -> 0 <= j < c -> v i j = v' i j) -> band_max n c v = band_max n c v'.
Proof. intros H. unfold band_max. apply foldz_ext. intros a i Hi. apply foldz_ext. intros b j Hj. now rewrite H. Qed.
Lemma band_min_ext n c v v' : (forall i j, 0 <= i < n -> 0 <= j < c -> v i j = v' i j) -> band_min n c v = band_min n c v'.
Proof. intros H. unfold band_min. apply foldz_ext. intros a i Hi. apply foldz_ext. intros b j Hj. now rewrite H. Qed.

Lemma stretch_range mx mn x r : stretch mx mn x = Some r -> 0 <= r <= 255.
Proof. unfold stretch. destruct (sf_trunc _) as [t|]; [|discriminate]. destruct (_ && _); [|discriminate]. intros [= <-]. destruct (Z.leb_spec t 0); [destruct (SFeqb _ _); lia|lia]. Qed.

Lemma tension_setup s p ms md : cube s p ms BSQ 4 -> readable s (hm_data md) (hm_bands ms * hm_lines ms * hm_samples ms) -> hm_data md <> hm_data ms ->
  exists q w szq szw f g, hm_data md = Some q /\ hm_data ms = Some w /\ w <> q /\ isb s q szq f /\ isb s w szw g
    /\ hm_bands ms * hm_lines ms * hm_samples ms <= szq /\ hm_samples ms * hm_lines ms * hm_bands ms * 4 <= szw
    /\ (forall X, (forall i j k, in_cube ms i j k -> sample_word s ms BSQ 4 i j k = Some (X i j k)) ->
        forall i j k, in_cube ms i j k -> word g (4 * ((k * hm_lines ms + i) * hm_samples ms + j)) 4 = X i j k).
Proof.
  intros CU RD Hne. destruct CU as [Hp Ht Hpad Hty HS HL HB Hsz Hws Dp Hw].
  apply readable_isb in RD as (q & szq & f & Eq & Hq & Hnq). apply readable_isb in Dp as (w & szw & g & Ew & Hw' & Hnw).
  exists q, w, szq, szw, f, g. do 2 (split; [assumption|]). split; [congruence|]. do 4 (split; [assumption|]).
  intros X HX i j k Hi. pose proof (HX i j k Hi) as H. destruct Hi as (Hi & Hj & Hk). unfold sample_word, offset in H. rewrite Ew in H.
  destruct (bsq_idx (hm_samples ms) (hm_lines ms) (hm_bands ms) k i j Hk Hi Hj Hsz) as [_ R].
  assert (EQ4 : hm_bands ms * hm_lines ms * hm_samples ms * 4 = hm_samples ms * hm_lines ms * hm_bands ms * 4) by ring.
  assert (EO : 4 * ((k * hm_lines ms + i) * hm_samples ms + j) = ((k * hm_lines ms + i) * hm_samples ms + j) * 4) by ring. rewrite EO.
  rewrite (word_at_isb s w szw g _ Hw') in H by (change (Z.of_nat (Z.to_nat 4)) with 4; lia). now injection H.
Qed.

Theorem tension_exact : forall e s p d ms md X Y, cube s p ms BSQ 4 -> hm_at s d = Some md ->
  hm_samples md = hm_samples ms -> hm_lines md = hm_lines ms -> hm_bands md = hm_bands ms -> hm_type md = 1 ->
  readable s (hm_data md) (hm_bands ms * hm_lines ms * hm_samples ms) -> hm_data md <> hm_data ms ->
  (forall i j k, in_cube ms i j k -> sample_word s ms BSQ 4 i j k = Some (X i j k)) ->
  (forall i j k, in_cube ms i j k ->
     stretch (band_max (hm_lines ms) (hm_samples ms) (fun i j => fl_of_bits (X i j k))) (band_min (hm_lines ms) (hm_samples ms) (fun i j => fl_of_bits (X i j k)))
             (fl_of_bits (X i j k)) = Some (Y i j k)) ->
  exists s', hyper_mat_linear_tension p d e s = Ret tt s'
    /\ (forall i j k, in_cube ms i j k -> sample_byte s' md BSQ 1 i j k 0 = Some (Y i j k)) /\ only_written (hm_data md) s s'.
Proof.
  intros e s p d ms md X Y CU Hd ES EL EB ET RD Hne HX HY.
  destruct (tension_setup s p ms md CU RD Hne) as (q & w & szq & szw & f & g & Eq & Ew & Hqw & Iq & Iw & Nq & Nw & GX). specialize (GX X HX).
  pose proof (ten_pos s p ms CU) as (P1 & P2 & P3 & P4). pose proof CU as [Hp Ht Hpad _ _ _ _ _ _ _ _].
  unfold hyper_mat_linear_tension. runs (hget_ok _ _ e _ Hp). runs (il_cmp_bsq ms BSQ e s Ht Hpad). rewrite bind_assert by reflexivity. cbv zeta.
  runs (hget_ok _ _ e _ Hd). rewrite bind_assert by lia. rewrite bind_assert by lia.
  set (S := hm_samples ms) in *. set (L := hm_lines ms) in *. set (B := hm_bands ms) in *.
  set (h := fun t => Y (t / S mod L) (t mod S) (t / S / L)).
  assert (Hh : forall i j k, 0 <= k < B -> 0 <= i < L -> 0 <= j < S -> h ((k * L + i) * S + j) = Y i j k) by (intros i j k Hk Hi Hj; unfold h; now rewrite !cell_div, !cell_mod by lia).
  set (g0 := fun t => word f (0 + t * 1) (Z.to_nat 1)).
  destruct (for_inv e 0 B (band_body ms md) (fun k s1 => arr s1 q 0 1 (B * L * S) (upto (k * L * S) h g0) /\ inside s q 0 (B * L * S) s1) s) as (s' & E & A & I).
  - lia.
  - split; [|eapply inside_refl; eauto]. apply (arr_ext _ _ _ _ _ g0); [intros t Ht'; symmetry; apply upto_le; lia|]. apply (arr_of s q szq f); auto; lia.
  - intros k s1 Hk (A1 & I1). pose proof (inside_old _ _ _ _ _ _ _ _ I1 Hqw Iw) as I1w.
    destruct (band_ok e s p ms md q w szw g CU Eq Ew Hqw Nw s1 k h g0 I1w Hk A1) as (s2 & E2 & A2 & I2).
    + intros i j Hi Hj. exists (Y i j k). fold L S. 
      assert (IC : in_cube ms i j k) by (split; [exact Hi|split; [exact Hj|exact Hk]]).
      rewrite (band_max_ext _ _ _ (fun i j => fl_of_bits (X i j k))), (band_min_ext _ _ _ (fun i j => fl_of_bits (X i j k))).
      * rewrite (GX i j k IC). split; [now apply HY|]. rewrite Hh by auto. pose proof (stretch_range _ _ _ _ (HY i j k IC)). symmetry. apply Z.mod_small. lia.
      * intros i' j' Hi' Hj'. f_equal. apply GX. split; [exact Hi'|split; [exact Hj'|exact Hk]].
      * intros i' j' Hi' Hj'. f_equal. apply GX. split; [exact Hi'|split; [exact Hj'|exact Hk]].
    + exists s2. split; [exact E2|]. split; [exact A2|]. eapply inside_trans; eauto.
  - exists s'. split; [exact E|]. split.
    + intros i j k (Hi & Hj & Hk). unfold sample_byte, offset. rewrite ES, EL, Eq. fold S L B. destruct (bsq_idx S L B k i j Hk Hi Hj P4) as [_ R].
      destruct A as (N' & d' & Id & _ & _ & Hb & W). rewrite (byte_at_isb s' q N' d') by (auto; lia).
      specialize (W _ R). change (Z.to_nat 1) with 1%nat in W. rewrite upto_lt in W by lia. rewrite Hh in W by auto. rewrite <- W. cbn [word]. f_equal.
      replace (((k * L + i) * S + j) * 1 + 0) with (0 + ((k * L + i) * S + j) * 1) by ring. lia.
    + rewrite Eq. destruct I as (N' & d0 & d' & _ & -> & _). apply only_written_putd.
Qed.

Theorem tension_undefined : forall e s p d ms md X i0 j0 k0, cube s p ms BSQ 4 -> hm_at s d = Some md ->
  hm_samples md = hm_samples ms -> hm_lines md = hm_lines ms -> hm_bands md = hm_bands ms -> hm_type md = 1 ->
  readable s (hm_data md) (hm_bands ms * hm_lines ms * hm_samples ms) -> hm_data md <> hm_data ms ->
  (forall i j k, in_cube ms i j k -> sample_word s ms BSQ 4 i j k = Some (X i j k)) -> in_cube ms i0 j0 k0 ->
  stretch (band_max (hm_lines ms) (hm_samples ms) (fun i j => fl_of_bits (X i j k0))) (band_min (hm_lines ms) (hm_samples ms) (fun i j => fl_of_bits (X i j k0)))
             (fl_of_bits (X i0 j0 k0)) = None ->
  hyper_mat_linear_tension p d e s = UB.
Proof.
  intros e s p d ms md X i0 j0 k0 CU Hd ES EL EB ET RD Hne HX H0 HU.
  destruct (tension_setup s p ms md CU RD Hne) as (q & w & szq & szw & f & g & Eq & Ew & Hqw & Iq & Iw & Nq & Nw & GX). specialize (GX X HX).
  pose proof CU as [Hp Ht Hpad _ _ _ _ _ _ _ _].
  unfold hyper_mat_linear_tension. runs (hget_ok _ _ e _ Hp). runs (il_cmp_bsq ms BSQ e s Ht Hpad). rewrite bind_assert by reflexivity. cbv zeta.
  runs (hget_ok _ _ e _ Hd). rewrite bind_assert by lia. rewrite bind_assert by lia.
  pose proof H0 as (Hi0 & Hj0 & Hk0).
  apply (for_ub_some e 0 (hm_bands ms) (band_body ms md) (fun s1 => isb s1 w szw g /\ exists f1, isb s1 q szq f1) k0 s Hk0).
  - split; [exact Iw|eauto].
  - intros k s1 Hk I1. apply (band_any e s p ms md q w szq szw g CU Eq Ew Hqw Nq Nw s1 k I1 Hk).
  - intros s1 I1. apply (band_bad e s p ms md q w szq szw g CU Eq Ew Hqw Nq Nw s1 k0 i0 j0 I1 Hk0 Hi0 Hj0).
    rewrite (band_max_ext _ _ _ (fun i j => fl_of_bits (X i j k0))), (band_min_ext _ _ _ (fun i j => fl_of_bits (X i j k0))).
    + rewrite (GX i0 j0 k0 H0). exact HU.
    + intros i' j' Hi' Hj'. f_equal. apply GX. split; [exact Hi'|split; [exact Hj'|exact Hk0]].
    + intros i' j' Hi' Hj'. f_equal. apply GX. split; [exact Hi'|split; [exact Hj'|exact Hk0]].
Qed.

(** ** Constant bands *)

Lemma fold_const n c (f : sf -> sf) a b : 0 < n -> 0 < c -> f a = b -> f b = b ->
  foldz n (fun x _ => foldz c (fun y _ => f y) x) a = b.
Proof.
  intros Hn Hc Ha Hb.
  assert (R : forall m x, 0 < m -> (f x = b) -> foldz m (fun y (_ : Z) => f y) x = b).
  { intros m x Hm Hx. replace m with (1 + (m - 1)) by lia. apply foldz_fixed; auto; try lia. }
  assert (R2 : forall m x, 0 < m -> f x = b -> foldz m (fun y (_ : Z) => foldz c (fun z (_ : Z) => f z) y) x = b).
  { intros m x Hm Hx. replace m with (1 + (m - 1)) by lia. apply foldz_fixed; try lia.
    - change (foldz c (fun z (_ : Z) => f z) x = b). apply R; auto.
    - intros i. apply R; auto. }
  apply R2; auto.
Qed.

Lemma mul_sign prec emax s1 m1 e1 s2 m2 e2 :
  match SFmul prec emax (S754_finite s1 m1 e1) (S754_finite s2 m2 e2) with
  | S754_zero b | S754_infinity b | S754_finite b _ _ => b = xorb s1 s2
  | S754_nan => True
  end.
Proof.
  cbn [SFmul]. unfold binary_round_aux. destruct (shr_fexp prec emax _ _ loc_Exact) as [mrs e']. destruct (shr_fexp prec emax _ e' loc_Exact) as [mrs' e''].
  destruct (shr_m mrs'); auto. now destruct (e'' <=? emax - prec).
Qed.

Lemma stretch_constant n c v a : 0 < n -> 0 < c -> fl_ok v -> sf_num v = Some a -> 0 <= a <= 1000000000 * sf_one ->
  stretch (band_max n c (fun _ _ => v)) (band_min n c (fun _ _ => v)) v = None.
Proof.
  intros Hn Hc V N Ha. pose proof sf_one_pos as HO.
  destruct (fl_of_Z_ok 0 ltac:(lia)) as [V0 N0].
  assert (V9 : fl_ok (fl_of_Z 1000000000)) by reflexivity. assert (N9 : sf_num (fl_of_Z 1000000000) = Some (1000000000 * sf_one)) by (vm_compute; reflexivity).
  assert (MXE : band_max n c (fun _ _ => v) = if 0 <? a then v else fl_of_Z 0).
  { unfold band_max. apply (fold_const n c (fun x => if SFltb x v then v else x)); auto.
    - rewrite (fl_ltb _ _ _ _ V0 V N0 N). now rewrite Z.mul_0_l.
    - destruct (0 <? a) eqn:Q.
      + now destruct (SFltb v v).
      + rewrite (fl_ltb _ _ _ _ V0 V N0 N). now rewrite Z.mul_0_l, Q. }
  assert (MNE : band_min n c (fun _ _ => v) = if a <? 1000000000 * sf_one then v else fl_of_Z 1000000000).
  { unfold band_min. apply (fold_const n c (fun x => if SFltb v x then v else x)); auto.
    - now rewrite (fl_ltb _ _ _ _ V V9 N N9).
    - destruct (a <? 1000000000 * sf_one) eqn:Q.
      + now destruct (SFltb v v).
      + now rewrite (fl_ltb _ _ _ _ V V9 N N9), Q. }
  rewrite MXE, MNE. unfold stretch.
  assert (EB : (if a <? 1000000000 * sf_one then v else fl_of_Z 1000000000) = v).
  { destruct (a <? 1000000000 * sf_one) eqn:Q; [reflexivity|]. assert (a = 1000000000 * sf_one) by lia. subst a. symmetry. apply (num_canonical _ _ _ V V9 N N9). lia. }
  rewrite EB. destruct (0 <? a) eqn:Q.
  - destruct v as [b|b| |b m e]; try discriminate N; [cbn in N; injection N as <-; lia|].
    assert (b = false). { destruct b; [|reflexivity]. assert (N2 : - Zpos m * 2 ^ (e + 1074) = a) by (cbn [sf_num cond_Zopp] in N; congruence). pose proof (fl_emin _ _ _ V) as HE. assert (H0 : 0 < 2 ^ (e + 1074)) by (apply pow_pos; clear - HE; lia). assert (0 < a) by lia. clear - N2 H0 H. nia. }
    subst b. assert (D0 : fl_sub (S754_finite false m e) (S754_finite false m e) = S754_zero false) by (unfold fl_sub; cbn [SFsub]; rewrite Z.sub_diag; reflexivity).
    rewrite D0. change (fl_of_Z 255) with (S754_finite false 16711680 (-16)). change (SFopp (S754_finite false m e)) with (S754_finite true m e).
    pose proof (mul_sign 24 128 true m e false 16711680 (-16)) as MS. fold fl_mul in MS.
    change (fl_div (S754_finite false 16711680 (-16)) (S754_zero false)) with (S754_infinity false).
    change (fl_mul (S754_finite false m e) (S754_infinity false)) with (S754_infinity false).
    change (SFmul 24 128 (S754_finite true m e) (S754_finite false 16711680 (-16))) with (fl_mul (S754_finite true m e) (S754_finite false 16711680 (-16))) in MS.
    destruct (fl_mul (S754_finite true m e) (S754_finite false 16711680 (-16))) as [b|b| |b m' e']; try (rewrite MS); reflexivity.
  - assert (a = 0) by lia. subst a. destruct v as [b|b| |b m e]; try discriminate N.
    + destruct b; reflexivity.
    + exfalso. assert (N2 : cond_Zopp b (Zpos m) * 2 ^ (e + 1074) = 0) by (cbn [sf_num] in N; congruence). pose proof (fl_emin _ _ _ V) as HE. assert (H0 : 0 < 2 ^ (e + 1074)) by (apply pow_pos; clear - HE; lia). clear - N2 H0. destruct b; cbn [cond_Zopp] in N2; nia.
Qed.

(** A band of one number between 0 and 10^9: undefined. *)
Theorem tension_constant : forall e s p d ms md X v a k0, cube s p ms BSQ 4 -> hm_at s d = Some md ->
  hm_samples md = hm_samples ms -> hm_lines md = hm_lines ms -> hm_bands md = hm_bands ms -> hm_type md = 1 ->
  readable s (hm_data md) (hm_bands ms * hm_lines ms * hm_samples ms) -> hm_data md <> hm_data ms ->
  (forall i j k, in_cube ms i j k -> sample_word s ms BSQ 4 i j k = Some (X i j k)) -> 0 <= k0 < hm_bands ms ->
  (forall i j, in_cube ms i j k0 -> fl_of_bits (X i j k0) = v) -> fl_ok v -> sf_num v = Some a -> 0 <= a <= 1000000000 * sf_one ->
  hyper_mat_linear_tension p d e s = UB.
Proof.
  intros e s p d ms md X v a k0 CU Hd ES EL EB ET RD Hne HX Hk HV V N Ha. pose proof (ten_pos s p ms CU) as (P1 & P2 & P3 & P4).
  assert (I0 : in_cube ms 0 0 k0) by (split; [lia|split; [lia|exact Hk]]).
  apply (tension_undefined e s p d ms md X 0 0 k0); auto.
  rewrite (band_max_ext _ _ _ (fun _ _ => v)), (band_min_ext _ _ _ (fun _ _ => v)), (HV 0 0 I0).
  - apply (stretch_constant _ _ v a); auto.
  - intros i j Hi Hj. apply HV. split; [exact Hi|split; [exact Hj|exact Hk]].
  - intros i j Hi Hj. apply HV. split; [exact Hi|split; [exact Hj|exact Hk]].
Qed.

(** Whole numbers whose range divides 255. *)
Theorem stretch_whole : forall mx mn x zx zn z u, is_int mx zx -> is_int mn zn -> is_int x z -> 0 <= zn -> zn < zx <= 65793 -> zn <= z <= zx -> u * (zx - zn) = 255 ->
  stretch mx mn x = Some (if (z =? zn) then (if z =? 0 then 0 else 1) else (z - zn) * u).
Proof.
  intros mx mn x zx zn z u Fx Fn Fz H0 H1 H2 Hu. assert (Up : 0 < u <= 255) by (clear - Hu H1; nia).
  assert (FD : fint (fl_sub mx mn) (zx - zn)) by (apply (sub_int 24 128 ltac:(lia) ltac:(lia) ltac:(lia)); auto; change (2 ^ 24) with 16777216; lia).
  assert (FU : fint (fl_div (fl_of_Z 255) (fl_sub mx mn)) u).
  { apply (div_int 24 128 ltac:(lia) ltac:(lia) ltac:(lia) ltac:(lia) _ _ 255 (zx - zn) u); auto; [apply fint_Z; lia|lia|]. change (2 ^ 24) with 16777216. lia. }
  assert (FO : fint (SFopp mn) (- zn)).
  { destruct Fn as [V N]. split; [now apply (opp_ok 24 128)|]. destruct mn as [b|b| |b m e]; try discriminate N; cbn [SFopp sf_num] in *.
    - injection N as N. f_equal. pose proof sf_one_pos. clear - N H. nia.
    - injection N as N. f_equal. rewrite Z.mul_opp_l, <- N. destruct b; cbn [negb cond_Zopp]; lia. }
  assert (FM : fint (fl_mul (SFopp mn) (fl_of_Z 255)) (- zn * 255)) by (apply fint_mul; auto; [apply fint_Z; lia|lia]).
  assert (BU : zn * u <= 65793 * 255) by (clear - Up H0 H1; nia). assert (BZ : z * u <= 65793 * 255) by (clear - Up H0 H1 H2; nia).
  assert (B0 : 0 <= zn * u) by (clear - Up H0; nia). assert (B1 : zn * u <= z * u) by (clear - Up H2; nia).
  assert (FN : fint (fl_div (fl_mul (SFopp mn) (fl_of_Z 255)) (fl_sub mx mn)) (- zn * u)).
  { apply (div_int 24 128 ltac:(lia) ltac:(lia) ltac:(lia) ltac:(lia) _ _ (- zn * 255) (zx - zn) (- zn * u)); auto; [lia| |].
    - rewrite <- Hu. ring.
    - change (2 ^ 24) with 16777216. lia. }
  assert (FP : fint (fl_mul x (fl_div (fl_of_Z 255) (fl_sub mx mn))) (z * u)) by (apply fint_mul; auto; lia).
  assert (FS : fint (fl_add (fl_mul x (fl_div (fl_of_Z 255) (fl_sub mx mn))) (fl_div (fl_mul (SFopp mn) (fl_of_Z 255)) (fl_sub mx mn))) (z * u + - zn * u)) by (apply fint_add; auto; lia).
  unfold stretch. destruct FS as [VS NS]. rewrite (fl_trunc _ _ VS NS). pose proof sf_one_pos as HO. rewrite Z.quot_mul by lia.
  replace (z * u + - zn * u) with ((z - zn) * u) by ring.
  assert (R : 0 <= (z - zn) * u <= 255) by (clear - Hu H2 Up; nia). unfold INT_MIN, INT_MAX.
  replace ((-2147483648 <=? (z - zn) * u) && ((z - zn) * u <=? 2147483647)) with true by lia. f_equal.
  assert (EQ0 : SFeqb x (fl_of_Z 0) = (z =? 0)).
  { destruct Fz as [Vz Nz]. destruct (fl_of_Z_ok 0 ltac:(lia)) as [V0 N0]. unfold SFeqb. rewrite (compare_num 24 128 ltac:(lia) ltac:(lia) ltac:(lia) _ _ _ _ Vz V0 Nz N0).
    destruct (Z.eqb_spec z 0) as [->|Hne]; [now rewrite Z.compare_refl|]. destruct (Z.compare_spec (z * sf_one) (0 * sf_one)) as [Q|Q|Q]; try reflexivity. exfalso. clear - Q HO Hne. nia. }
  rewrite EQ0. destruct (Z.eqb_spec z zn) as [->|Hne].
  - rewrite Z.sub_diag. reflexivity.
  - assert (P : 0 < (z - zn) * u) by (clear - Hne H2 Up; nia). replace ((z - zn) * u <=? 0) with false by lia. lia.
Qed.
