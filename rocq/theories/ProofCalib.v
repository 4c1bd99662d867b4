(** * Proofs: radiometric calibration. *)
From Verif Require Import Base Logic ModelCore ModelFloat ModelPixel ModelStat SpecBase SpecCore SpecImage SpecImage2 SpecPixel SpecNum SpecMatrix
  SpecFilter SpecStat ProofCore ProofLayout ProofHM ProofCore2 ProofImage3 ProofImage4 ProofBorder ProofPixel ProofColor ProofFloat ProofWord
  ProofArr ProofFloat2 ProofConv ProofLoop.
From Coq Require Import Floats.SpecFloat ZifyBool ZifyNat.
Ltac Zify.zify_post_hook ::= Z.div_mod_to_equations.
Open Scope Z_scope.

Lemma calib_run e s p m es (body : ptr -> Z -> Z -> Z -> M unit) (g : Z -> Z) : env_ok e -> heap_ok s -> cube s p m BIP es ->
  hm_samples m * hm_lines m * hm_bands m * 4 <= 2147483647 ->
  (forall x, 0 <= g x < 4294967296) ->
  (forall d0 w0 i j k, in_cube m i j k ->
     let s1 := newhm e s (hm_samples m) (hm_lines m) (hm_bands m) 4 4 (tag_of BIP) d0 w0 in
     let n := (List.length (objs s) + 1)%nat in
     isb s1 n (hm_samples m * hm_lines m * hm_bands m * 4) d0 ->
     let x := (i * hm_samples m + j) * hm_bands m + k in
     wr e s1 n (body (Some n) i j k) (fun b => x * 4 <= b < (x + 1) * 4) (elems 4 g)) ->
  exists p' s',
  (res <- create_hyper_mat (hm_samples m) (hm_lines m) (hm_bands m) 4 (hm_il m) ;;
   m' <- hget res ;;
   for_ 0 (hm_lines m) (fun i => for_ 0 (hm_samples m) (fun j => for_ 0 (hm_bands m) (fun k => body (hm_data m') i j k))) ;;;
   ret res) e s = Ret p' s'
  /\ exists m', cube s' p' m' BIP 4
    /\ fresh_in s p' /\ fresh_in s (hm_data m')
    /\ hm_samples m' = hm_samples m /\ hm_lines m' = hm_lines m /\ hm_bands m' = hm_bands m /\ hm_type m' = 4
    /\ (forall i j k, in_cube m i j k -> sample_word s' m' BIP 4 i j k = Some (g ((i * hm_samples m + j) * hm_bands m + k)))
    /\ old_unchanged s s' /\ files s' = files s /\ heap_ok s'.
Proof.
  intros He Hs CU Hsz' Hg HB0. pose proof CU as [Hh Ht Hp Hty HS HL HB Hsz Hws Hd Hw]. unfold in_cube in HB0 |- *.
  set (S := hm_samples m) in *. set (L := hm_lines m) in *. set (B := hm_bands m) in *.
  set (k := List.length (objs s)) in *.
  assert (HSL : 0 < S * L) by (clear - HS HL; nia). assert (HN : 0 < S * L * B) by (clear - HSL HB; nia).
  destruct (create_hm0 e s S L B 4 4 (nth 0 (tag_of BIP) 0) (nth 1 (tag_of BIP) 0) (nth 2 (tag_of BIP) 0) nil) as (d0 & w0 & E & Z1 & Z2); auto.
  change [nth 0 (tag_of BIP) 0; nth 1 (tag_of BIP) 0; nth 2 (tag_of BIP) 0] with (tag_of BIP) in E.
  rewrite Ht. runs E. fold k.
  set (s1 := newhm e s S L B 4 4 (tag_of BIP) d0 w0).
  pose proof (newhm_hdr e s S L B 4 4 (tag_of BIP) d0 w0) as H1. fold s1 k in H1.
  runs (hget_ok _ _ e _ H1). cbn [newhdr hm_data hm_wave]. fold k.
  pose proof (newhm_data e s S L B 4 4 (tag_of BIP) d0 w0) as H2. fold s1 k in H2.
  assert (W : wr e s1 (k + 1)%nat (for_ 0 L (fun i => for_ 0 S (fun j => for_ 0 B (fun k0 => body (Some (k + 1)%nat) i j k0))))
                (fun p => 0 <= p < S * L * B * 4) (elems 4 g)).
  { eapply wr_iff.
    - apply wr_for. intros i Hi. apply wr_for. intros j Hj. apply wr_for. intros c Hc. apply (HB0 d0 w0 i j c); auto.
    - intros b. split.
      + intros (i & Hi & j & Hj & c & Hc & Hb). pose proof (offset_range BIP S L B i j c Hi Hj Hc) as O. cbn [offset] in O. lia.
      + intros Hb. set (x := b / 4). assert (Hx : 0 <= x < S * L * B) by (unfold x; lia).
        exists (x / B / S). assert (X1 : 0 <= x / B < L * S).
        { split; [apply Z.div_pos; lia|]. apply Z.div_lt_upper_bound; [lia|]. replace (B * (L * S)) with (S * L * B) by ring. lia. }
        split; [split; [apply Z.div_pos; lia|apply Z.div_lt_upper_bound; lia]|].
        exists (x / B mod S). split; [apply Z.mod_pos_bound; lia|]. exists (x mod B). split; [apply Z.mod_pos_bound; lia|].
        replace (x / B / S * S + (x / B) mod S) with (x / B) by (rewrite (Z.div_mod (x / B) S) at 1 by lia; ring).
        replace (x / B * B + x mod B) with x by (rewrite (Z.div_mod x B) at 1 by lia; ring). unfold x. lia. }
  destruct (wr_run _ _ _ _ _ _ _ _ H2 W) as (dd & E1 & A & _).
  runs E1. unfold s1, k at 1. rewrite newhm_putd1.
  eexists _, _. split; [reflexivity|].
  exists (newhdr e s S L B 4 (tag_of BIP)). clear E1 W H1 H2 s1 E.
  pose proof (newhm_data e s S L B 4 4 (tag_of BIP) dd w0) as H2. fold k in H2.
  pose proof (newhm_wave e s S L B 4 4 (tag_of BIP) dd w0) as H3. fold k in H3.
  split.
  { constructor; cbn [newhdr hm_samples hm_lines hm_bands hm_type hm_il hm_data hm_wave]; auto.
    - apply newhm_hdr.
    - apply newhm_pad; auto.
    - eapply isb_readable; eauto. lia.
    - right. eapply isb_readable; eauto. lia. }
  cbn [newhdr hm_samples hm_lines hm_bands hm_type hm_il hm_data hm_wave]. fold k.
  split; [exists k; auto|]. split; [exists (k + 1)%nat; split; auto; lia|].
  do 4 (split; [reflexivity|]).
  split; [|split; [|split; [reflexivity|]]].
  - intros i j c (Hi & Hj & Hk).
    pose proof (offset_range BIP S L B i j c Hi Hj Hk) as O.
    unfold sample_word; cbn [newhdr hm_samples hm_lines hm_bands hm_data]. fold k. cbn [offset] in *.
    set (o := (i * S + j) * B + c) in *. clearbody o.
    rewrite (word_at_isb _ _ _ _ _ H2) by (rewrite ?Z2Nat.id by lia; lia). f_equal.
    apply (word_elems dd 4 g o); [lia|apply Hg|]. intros b Hb. apply A. lia.
  - apply newhm_old_unchanged.
  - apply newhm_heap_ok; auto.
Qed.

(** Loops with equal bodies. *)
Lemma for_ext' e lo hi (b1 b2 : Z -> M unit) : (forall i s, b1 i e s = b2 i e s) -> forall s, for_ lo hi b1 e s = for_ lo hi b2 e s.
Proof.
  intros H. unfold for_. generalize (Z.to_nat (hi - lo)) as n. intros n. revert lo.
  induction n as [|n IH]; intros lo s; [reflexivity|]. cbn [iter_]. unfold bind. rewrite H.
  destruct (b2 lo e s); auto.
Qed.

Lemma bind_congr {A B} e s (x : M A) (k1 k2 : A -> M B) : (forall a s, k1 a e s = k2 a e s) -> bind x k1 e s = bind x k2 e s.
Proof. intros H. unfold bind. destruct (x e s); auto. Qed.
Lemma bind_congr_l {A B} e s (x y : M A) (k : A -> M B) : x e s = y e s -> bind x k e s = bind y k e s.
Proof. intros H. unfold bind. now rewrite H. Qed.
(** A loop that fails at iteration k. *)
Lemma for_ub_at e lo k hi body (I : Z -> st -> Prop) : lo <= k < hi -> forall s, I lo s ->
  (forall i s1, lo <= i < k -> I i s1 -> exists s2, body i e s1 = Ret tt s2 /\ I (i + 1) s2) ->
  (forall s1, I k s1 -> body k e s1 = UB) -> for_ lo hi body e s = UB.
Proof.
  intros Hk. remember (Z.to_nat (k - lo)) as n eqn:Hn. revert lo Hk Hn.
  induction n as [|n IH]; intros lo Hk Hn s Hs Hi Hu.
  - assert (k = lo) by lia. subst k. apply for_ub_first; auto. lia.
  - rewrite for_first by lia. destruct (Hi lo s ltac:(lia) Hs) as (s2 & E & H2). rewrite (bind_ret _ _ _ _ _ _ E).
    apply IH; auto; try lia. intros i s1 Hi1. apply Hi. lia.
Qed.

(** One sample. *)
Lemma calib_elem e s1 n N d0 g x v : isb s1 n N d0 -> 0 <= x -> (x + 1) * 4 <= N -> bits_of_fl v mod 4294967296 = g x mod 4294967296 ->
  wr e s1 n (storef (Some n) x v) (fun b => x * 4 <= b < (x + 1) * 4) (elems 4 g).
Proof. intros I Hx HN Hv. unfold storef. apply (wr_elem e s1 n N d0 4 g x (4 * x)); auto; lia. Qed.

Lemma place_split S B i j k : 0 <= j < S -> 0 <= k < B ->
  ((i * S + j) * B + k) / B mod S = j /\ ((i * S + j) * B + k) mod B = k.
Proof.
  intros Hj Hk. rewrite Z.div_add_l, Z.div_small, Z.add_0_r by lia.
  rewrite (Z.add_comm (i * S)), Z.mod_add, Z.mod_small by lia.
  rewrite Z.add_comm, Z.mod_add, Z.mod_small by lia. auto.
Qed.

Section Calib.
  Variables (e : env) (s : st) (p t : ptr) (m : hmat) (es N : Z) (load : ptr -> Z -> M sf) (read : Z -> sf) (F : Z -> Z -> Z).
  Hypothesis (He : env_ok e) (Hs : heap_ok s) (CU : cube s p m BIP es) (Hes : 0 < es).
  Hypothesis Hsz : hm_samples m * hm_lines m * hm_bands m * 4 <= 2147483647.
  Hypothesis Ht : readable s t N.
  Hypothesis HF : forall j k, 0 <= j < hm_samples m -> 0 <= k < hm_bands m -> 0 <= F j k /\ 4 * F j k + 4 <= N.
  Hypothesis Hread : forall x, 0 <= x < 256 ^ es -> fl_ok (read x).
  Hypothesis Hload : forall s1 q n sz d x, q <> n -> isb s1 q sz d -> 0 <= x -> (x + 1) * es <= sz ->
    rdv e s1 n (load (Some q) x) (read (word d (x * es) (Z.to_nat es))).

  Lemma calib_with : forall cidx, (forall j k, 0 <= j < hm_samples m -> 0 <= k < hm_bands m -> cidx j k = Some (F j k)) ->
    exists p' s',
    (res <- create_hyper_mat (hm_samples m) (hm_lines m) (hm_bands m) 4 (hm_il m) ;;
     m' <- hget res ;;
     for_ 0 (hm_lines m) (fun i => for_ 0 (hm_samples m) (fun j => for_ 0 (hm_bands m) (fun k =>
        x <- ev (i * hm_samples m * hm_bands m + j * hm_bands m + k)%C ;;
        v <- load (hm_data m) x ;;
        y <- ev (cidx j k) ;;
        c <- loadf t y ;;
        storef (hm_data m') x (fl_mul v c)))) ;;;
     ret res) e s = Ret p' s'
    /\ calibrated s m es read t F s' p'.
  Proof.
    intros cidx Hc. pose proof CU as [Hh Htg Hp Hty HS HL HB Hsz0 Hws Hd Hw].
    apply readable_isb in Hd as (q & sz & d & Eq & Hq & Hnq). apply readable_isb in Ht as (qt & szt & dt & Et & Hqt & Hnt).
    set (g := fun x => bits_of_fl (fl_mul (read (word d (x * es) (Z.to_nat es)))
                 (fl_of_bits (word dt (4 * F (x / hm_bands m mod hm_samples m) (x mod hm_bands m)) 4)))).
    assert (Hg : forall x, 0 <= g x < 4294967296).
    { intros x. apply bits_of_fl_range. apply fl_mul_ok.
      - apply Hread. pose proof (word_range d (Z.to_nat es) (x * es)) as R. rewrite Z2Nat.id in R by lia. exact R.
      - apply fl_of_bits_ok. apply (word_range dt 4). }
    destruct (calib_run e s p m es (fun dp i j k =>
        x <- ev (i * hm_samples m * hm_bands m + j * hm_bands m + k)%C ;;
        v <- load (hm_data m) x ;;
        y <- ev (cidx j k) ;;
        c <- loadf t y ;;
        storef dp x (fl_mul v c)) g He Hs CU Hsz Hg) as (p' & s' & X & m' & CU' & A1 & A2 & A3 & A4 & A5 & A6 & A7 & A8).
    - intros d0 w0 i j k (Hi & Hj & Hk) s1 n I1 x.
      pose proof (offset_range BIP (hm_samples m) (hm_lines m) (hm_bands m) i j k Hi Hj Hk) as O. cbn [offset] in O. fold x in O.
      destruct (place_split (hm_samples m) (hm_bands m) i j k Hj Hk) as [P1 P2]. fold x in P1, P2.
      assert (Hxe : (x + 1) * es <= sz) by (clear - O Hnq Hes; nia). destruct (HF j k Hj Hk) as [F0 F1].
      rewrite Eq, Et.
      eapply wr_bind; [apply rdv_ev; apply (idx_c (hm_lines m)); auto; replace (hm_lines m * hm_samples m * hm_bands m) with (hm_samples m * hm_lines m * hm_bands m) by ring; lia|].
      eapply wr_bind; [apply (Hload s1 q n sz d); [eapply isb_old_ne; eauto|apply newhm_old; auto|lia|exact Hxe]|].
      eapply wr_bind; [apply rdv_ev; now apply Hc|].
      eapply wr_bind; [apply (rdv_loadf e s1 n qt szt dt); [eapply isb_old_ne; eauto|apply newhm_old; auto|exact F0|lia]|].
      eapply (calib_elem e s1 n (hm_samples m * hm_lines m * hm_bands m * 4) d0 g x); [exact I1|lia|lia|]. unfold g. rewrite P1, P2. reflexivity.
    - exists p', s'. split; [exact X|]. exists m'. do 7 (split; [assumption|]). split; [|exact A8].
      intros i j k Hin. destruct Hin as (Hi & Hj & Hk).
      pose proof (offset_range BIP (hm_samples m) (hm_lines m) (hm_bands m) i j k Hi Hj Hk) as O. cbn [offset] in O.
      destruct (place_split (hm_samples m) (hm_bands m) i j k Hj Hk) as [P1 P2]. destruct (HF j k Hj Hk) as [F0 F1].
      exists (word d (((i * hm_samples m + j) * hm_bands m + k) * es) (Z.to_nat es)), (word dt (4 * F j k) 4).
      unfold sample_word at 1. cbn [offset]. rewrite Eq, Et.
      split; [|split].
      + assert (B1 : 0 <= ((i * hm_samples m + j) * hm_bands m + k) * es) by (apply Z.mul_nonneg_nonneg; lia).
        assert (B2 : ((i * hm_samples m + j) * hm_bands m + k) * es + es <= sz).
        { set (x := (i * hm_samples m + j) * hm_bands m + k) in *. clearbody x. set (n := hm_samples m * hm_lines m * hm_bands m) in *. clearbody n.
          clear - O Hnq Hes. nia. }
        apply (word_at_isb s q sz d _ Hq); rewrite ?Z2Nat.id by lia; lia.
      + apply (word_at_isb s qt szt dt _ Hqt); lia.
      + rewrite A7 by (repeat split; lia). unfold g. rewrite P1, P2. reflexivity.
  Qed.
End Calib.

Lemma fl_small x : 0 <= x < 65536 -> fl_ok (fl_of_Z x).
Proof. intros H. apply fl_of_Z_ok. lia. Qed.

(** Relative correction: the coefficient of column j and band k is read at k * bands + j. *)
Theorem relative_run : forall e s p t m N, env_ok e -> heap_ok s -> cube s p m BIP 2 ->
  hm_samples m * hm_lines m * hm_bands m * 4 <= 2147483647 ->
  readable s t N -> 4 * ((hm_bands m - 1) * hm_bands m + hm_samples m) <= N ->
  (hm_bands m - 1) * hm_bands m + hm_samples m <= 2147483647 ->
  exists p' s', relative_radiometric_correction p t e s = Ret p' s'
    /\ calibrated s m 2 fl_of_Z t (fun j k => k * hm_bands m + j) s' p'.
Proof.
  intros e s p t m N He Hs CU Hsz Ht HN Hm. pose proof CU as [Hh _ _ _ HS HL HB _ _ _ _].
  assert (Hk : forall j k, 0 <= j < hm_samples m -> 0 <= k < hm_bands m -> 0 <= k * hm_bands m
     /\ k * hm_bands m + j <= (hm_bands m - 1) * hm_bands m + hm_samples m - 1) by (clear - HB; intros; nia).
  destruct (calib_with e s p t m 2 N (fun p x => v <- loadle p (2 * x) 2 ;; ret (fl_of_Z v)) fl_of_Z (fun j k => k * hm_bands m + j)
     He Hs CU ltac:(lia) Hsz Ht) with (cidx := fun j k => (k * hm_bands m + j)%C) as (p' & s' & X & Y).
  - intros j k Hj Hk'. specialize (Hk j k Hj Hk'). lia.
  - intros x Hx. change (256 ^ 2) with 65536 in Hx. now apply fl_small.
  - intros s1 q n sz d x Hne I Hx Hsz1. rewrite (Z.mul_comm x 2). eapply rdv_bind; [apply (rdv_loadle e s1 n q sz d 2 Hne I); lia|]. apply rdv_ret.
  - intros j k Hj Hk'. specialize (Hk j k Hj Hk'). unfold ci. rewrite (cmul_ok k (hm_bands m)) by lia. apply cadd_ok. lia.
  - exists p', s'. split; [|exact Y]. unfold relative_radiometric_correction. runs (hget_ok _ _ e _ Hh). rewrite <- X.
    apply bind_congr. intros r s1. apply bind_congr. intros m' s2. cbv beta. apply bind_congr_l.
    apply for_ext'. intros i s4. apply for_ext'. intros j s5. apply for_ext'. intros k s6.
    apply bind_congr. intros x s7. unfold bind. destruct (loadle _ _ _ e s7) as [v s8| | |]; auto.
Qed.

Theorem absolute_run : forall e s p t m, env_ok e -> heap_ok s -> cube s p m BIP 4 ->
  readable s t (hm_bands m * 4) ->
  exists p' s', absolute_radiometric_correction p t e s = Ret p' s'
    /\ calibrated s m 4 fl_of_bits t (fun _ k => k) s' p'.
Proof.
  intros e s p t m He Hs CU Ht. pose proof CU as [Hh _ _ _ HS HL HB Hsz _ _ _].
  destruct (calib_with e s p t m 4 (hm_bands m * 4) loadf fl_of_bits (fun j k => k)
     He Hs CU ltac:(lia) Hsz Ht) with (cidx := fun (j k : Z) => ci k) as (p' & s' & X & Y).
  - intros j k Hj Hk'. lia.
  - intros x Hx. change (256 ^ 4) with 4294967296 in Hx. now apply fl_of_bits_ok.
  - intros s1 q n sz d x Hne I Hx Hsz1. rewrite (Z.mul_comm x 4). apply (rdv_loadf e s1 n q sz d x Hne I); lia.
  - reflexivity.
  - exists p', s'. split; [|exact Y]. unfold absolute_radiometric_correction. runs (hget_ok _ _ e _ Hh). exact X.
Qed.

(** As many columns as bands: the coefficient of the own column and band. *)
Theorem relative_square : forall e s p t m, env_ok e -> heap_ok s -> cube s p m BIP 2 -> hm_samples m = hm_bands m ->
  hm_samples m * hm_lines m * hm_bands m * 4 <= 2147483647 ->
  readable s t (hm_samples m * hm_bands m * 4) ->
  exists p' s', relative_radiometric_correction p t e s = Ret p' s'
    /\ calibrated s m 2 fl_of_Z t (own_coefficient (hm_samples m)) s' p'.
Proof.
  intros e s p t m He Hs CU Esb Hsz Ht. pose proof CU as [_ _ _ _ HS HL HB _ _ _ _].
  assert (G : (hm_bands m - 1) * hm_bands m + hm_samples m = hm_samples m * hm_bands m) by (rewrite Esb; ring).
  assert (G' : hm_samples m * hm_bands m <= hm_samples m * hm_lines m * hm_bands m) by (clear - HS HL HB; nia).
  destruct (relative_run e s p t m _ He Hs CU Hsz Ht) as (p' & s' & X & Y); [lia|lia|].
  exists p', s'. split; [exact X|]. unfold own_coefficient. rewrite Esb. exact Y.
Qed.

(** More bands than columns: a table of that many coefficients is overrun. *)
Theorem relative_overrun : forall e s p q d m, env_ok e -> heap_ok s -> cube s p m BIP 2 -> hm_samples m < hm_bands m ->
  hm_samples m * hm_lines m * hm_bands m * 4 <= 2147483647 -> hm_samples m * hm_bands m <= 2147483647 ->
  bytes_at s (Some q) = Some (q, hm_samples m * hm_bands m * 4, d) ->
  relative_radiometric_correction p (Some q) e s = UB.
Proof.
  intros e s p q d m He Hs CU Hlt Hsz Hsb Iq. fold (isb s q (hm_samples m * hm_bands m * 4) d) in Iq. pose proof CU as [Hh Ht Hp Hty HS HL HB Hsz0 Hws Hd Hw].
  unfold relative_radiometric_correction. runs (hget_ok _ _ e _ Hh).
  set (S := hm_samples m) in *. set (L := hm_lines m) in *. set (B := hm_bands m) in *.
  set (k := List.length (objs s)) in *.
  assert (HSL : 0 < S * L) by (clear - HS HL; nia). assert (HN : 0 < S * L * B) by (clear - HSL HB; nia).
  destruct (create_hm0 e s S L B 4 4 (nth 0 (tag_of BIP) 0) (nth 1 (tag_of BIP) 0) (nth 2 (tag_of BIP) 0) nil) as (d0 & w0 & E & Z1 & Z2); auto.
  change [nth 0 (tag_of BIP) 0; nth 1 (tag_of BIP) 0; nth 2 (tag_of BIP) 0] with (tag_of BIP) in E.
  rewrite Ht. runs E. fold k.
  set (s1 := newhm e s S L B 4 4 (tag_of BIP) d0 w0).
  pose proof (newhm_hdr e s S L B 4 4 (tag_of BIP) d0 w0) as H1. fold s1 k in H1.
  runs (hget_ok _ _ e _ H1). cbn [newhdr hm_data hm_wave]. fold k.
  pose proof (newhm_data e s S L B 4 4 (tag_of BIP) d0 w0) as H2. fold s1 k in H2.
  apply readable_isb in Hd as (qs & sz & ds & Eq & Hq & Hnq). rewrite Eq.
  assert (Is : isb s1 qs sz ds) by (apply newhm_old; auto). assert (It : isb s1 q (S * B * 4) d) by (apply newhm_old; auto).
  assert (Ns : qs <> (k + 1)%nat) by (eapply isb_old_ne; eauto). assert (Nt : q <> (k + 1)%nat) by (eapply isb_old_ne; eauto).
  apply bind_ub. apply for_ub_first; [lia|]. apply for_ub_first; [lia|].
  assert (SL : S <= S * L) by (clear - HS HL; nia). assert (SLB : S * L <= S * L * B) by (clear - HSL HB; nia).
  assert (BL : B <= S * L * B) by (clear - HSL HB; nia).
  assert (OFF : forall c, 0 <= c < B -> (0 * S * B + 0 * B + c)%C = Some c).
  { intros c Hc. assert (G : L * S * B = S * L * B) by ring. rewrite (idx_c L S B 0 0 c) by lia. reflexivity. }
  assert (Bc : forall c, 0 <= c <= S -> 0 <= c * B <= S * B) by (clear - HB; intros; nia).
  assert (LOAD : forall c, 0 <= c < B -> rdv e s1 (k + 1)%nat (loadle (Some qs) (2 * c) 2) (word ds (2 * c) 2)).
  { intros c Hc. apply (rdv_loadle e s1 (k + 1)%nat qs sz ds 2 Ns Is); lia. }
  apply (for_ub_at e 0 S B _ (fun _ s2 => exists f, s2 = putd s1 (k + 1)%nat f)); [lia| | |].
  - exists d0. symmetry. eapply putd_id; eauto.
  - intros c s2 Hc (f & ->). pose proof (Bc c ltac:(lia)) as Hcb.
    assert (W : wr e s1 (k + 1)%nat (x <- ev (0 * S * B + 0 * B + c)%C ;; v <- loadle (Some qs) (2 * x) 2 ;;
       y <- ev (c * B + 0)%C ;; c0 <- loadf (Some q) y ;; storef (Some (k + 1)%nat) x (fl_mul (fl_of_Z v) c0))
       (fun b => c * 4 <= b < (c + 1) * 4) (elems 4 (fun c => bits_of_fl (fl_mul (fl_of_Z (word ds (2 * c) 2)) (fl_of_bits (word d (4 * (c * B)) 4)))))).
    { eapply wr_bind; [apply rdv_ev; apply OFF; lia|]. eapply wr_bind; [apply LOAD; lia|].
      eapply wr_bind; [apply rdv_ev; unfold ci; rewrite (cmul_ok c B), cadd_ok, Z.add_0_r by lia; reflexivity|].
      eapply wr_bind; [apply (rdv_loadf e s1 (k + 1)%nat q _ d _ Nt It); [lia|]|].
      { assert (c * B + B <= S * B) by (clear - Hc HB; nia). lia. }
      eapply calib_elem; [exact H2|lia|lia|reflexivity]. }
    destruct (W f) as (h' & X & _). exists (putd s1 (k + 1)%nat h'). split; [exact X|]. eauto.
  - intros s2 (f & ->). pose proof (Bc S ltac:(lia)) as HSB.
    assert (It2 : isb (putd s1 (k + 1)%nat f) q (S * B * 4) d) by (now apply isb_putd_ne).
    assert (E1 : ev (0 * S * B + 0 * B + S)%C e (putd s1 (k + 1)%nat f) = Ret S (putd s1 (k + 1)%nat f)) by (apply ev_ok; apply OFF; lia).
    runs E1. rewrite (bind_ret _ _ _ _ _ _ (LOAD S ltac:(lia) f)).
    assert (E2 : ev (S * B + 0)%C e (putd s1 (k + 1)%nat f) = Ret (S * B) (putd s1 (k + 1)%nat f)).
    { apply ev_ok. unfold ci. rewrite (cmul_ok S B), cadd_ok, Z.add_0_r by lia. reflexivity. }
    runs E2. apply bind_ub. unfold loadf. apply bind_ub. cbn [loadle]. apply bind_ub. apply (load8_oob _ _ _ _ _ _ It2). lia.
Qed.
