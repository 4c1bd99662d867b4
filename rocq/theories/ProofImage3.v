(** * Proofs: the remaining functions of imageprocess.c, small core functions. *)
From Verif Require Import Base Logic ModelCore ModelImage SpecBase SpecCore SpecImage SpecImage2 ProofCore ProofLayout ProofHM ProofCopy ProofCore2.
From Coq Require Import String ZifyBool ZifyNat.
Ltac Zify.zify_post_hook ::= Z.div_mod_to_equations.
Open Scope Z_scope.

Lemma unchanged_putd s q f : unchanged_except [Some q] s (putd s q f).
Proof.
  intros k Hk Hn. rewrite objs_putd_ne; auto. intros ->. apply Hn. now left.
Qed.

Lemma only_written_putd s q f : only_written (Some q) s (putd s q f).
Proof. split; [apply unchanged_putd|apply same_blocks_putd]. Qed.

(** Only the bytes of one array were written. *)
Definition written (s : st) (p : ptr) (s' : st) : Prop :=
  exists q n d f, p = Some q /\ isb s q n d /\ s' = putd s q f.

Lemma written_putd s q n d f : isb s q n d -> written s (Some q) (putd s q f).
Proof. intros. exists q, n, d, f. auto. Qed.

Lemma written_only s p s' : written s p s' -> only_written p s s'.
Proof. intros (q & n & d & f & -> & _ & ->). apply only_written_putd. Qed.

Lemma written_readable s p s' r n : written s p s' -> readable s r n -> readable s' r n.
Proof.
  intros (q & n' & d & f & -> & H & ->) R. apply readable_isb in R as (k & sz & g & -> & Hk & Hn).
  destruct (Nat.eq_dec k q) as [-> | Hne].
  - eapply isb_readable; [eapply isb_putd_eq; eauto|]. unfold isb in *. rewrite H in Hk.
    injection Hk as -> ->. auto.
  - eapply isb_readable; [apply isb_putd_ne; eauto|auto].
Qed.

Lemma written_image s p s' r m es : written s p s' -> image s r m es -> image s' r m es.
Proof.
  intros W [Hh T R C Ch Sz D]. constructor; auto.
  - destruct W as (q & n' & d & f & -> & H & ->). now rewrite (sm_at_putd _ _ _ _ _ _ H).
  - eapply written_readable; eauto.
Qed.

Lemma written_cube s p s' r m l es : written s p s' -> cube s r m l es -> cube s' r m l es.
Proof.
  intros W [Hh Ht Hp Hty HS HL HB Hsz Hws Hd Hw]. constructor; auto.
  - destruct W as (q & n' & d & f & -> & H & ->). now rewrite (hm_at_putd _ _ _ _ _ _ H).
  - eapply written_readable; eauto.
  - destruct Hw; auto. right. eapply written_readable; eauto.
Qed.

Lemma written_byte s p s' r x : written s p s' -> r <> p -> byte_at s' r x = byte_at s r x.
Proof. intros (q & n' & d & f & -> & H & ->) Hne. now apply byte_at_putd_ne. Qed.

Lemma written_heap_ok s p s' : written s p s' -> heap_ok s -> heap_ok s'.
Proof. intros (q & n' & d & f & -> & H & ->). apply heap_ok_putd. Qed.

(** ** C19, C20 *)

Lemma bsq_byte S L k i j es t :
  offset BSQ S L 0 i j k * es + t = S * L * k * es + ((i * S + j) * es + t).
Proof. cbn. ring. Qed.

Lemma row_byte S L i j es t : 0 <= i < L -> 0 <= j < S -> 0 <= t < es ->
  0 <= (i * S + j) * es + t < S * L * es.
Proof.
  intros. assert (0 <= i * S + j < S * L) by nia. nia.
Qed.

Lemma extract_band_run e s p m es d md band :
  cube s p m BSQ es -> sm_at s d = Some md ->
  readable s (sm_data md) (hm_samples m * hm_lines m * es) -> sm_data md <> hm_data m ->
  1 <= band <= hm_bands m ->
  exists s', hyper_mat_2_simple_mat p d band e s = Ret tt s' /\ band_extracted s m es d md band s'.
Proof.
  intros [Hh Ht Hp Hty HS HL HB Hsz Hws Hd Hw] Hmd Hrd Hne Hband.
  assert (Hes := type_size_range _ _ Hty).
  set (S := hm_samples m) in *. set (L := hm_lines m) in *. set (B := hm_bands m) in *.
  apply readable_isb in Hd as (q & sz & f & Eq & Hq & Hn).
  apply readable_isb in Hrd as (r & szr & g & Er & Hr & Hnr).
  destruct (sm_nonnull _ _ _ Hmd) as (kd & ->).
  unfold hyper_mat_2_simple_mat.
  runs (hget_ok _ _ e _ Hh). runs (il_cmp_bsq _ _ e s Ht Hp). rewrite bind_assert by reflexivity.
  runs (sget_ok _ _ e _ Hmd). runs (set_header_ok_sm e s kd md (CSM (mkSM (hm_lines m) (hm_samples m) (hm_type m) (sm_chan md) (sm_esize md) (sm_data md))) Hmd).
  fold S L. rewrite (type_size_elemsize _ _ Hty).
  assert (0 < S * L) by nia. assert (S * L * band <= S * L * B) by nia.
  assert (S * L * B <= S * L * B * es) by nia.
  assert (S * L * (band - 1) <= S * L * B) by nia.
  assert (S * L * (band - 1) * es + S * L * es <= S * L * B * es) by nia.
  assert (S * L * es <= S * L * B * es) by nia. assert (0 <= S * L * (band - 1)) by nia.
  assert (band <= S * L * B) by nia.
  assert (S <= S * L) by nia. assert (S * L <= S * L * B) by nia.
  erewrite bind_ret; [|apply ev_ok; unfold ci; rewrite (cmul_ok S L), (csub_ok band 1) by lia;
    rewrite (cmul_ok (S * L)) by lia; apply cmul_ok; nia].
  erewrite bind_ret; [|apply ev_ok; unfold ci; rewrite (cmul_ok S L) by lia; apply cmul_ok; nia].
  rewrite Eq, Er. set (m2 := mkSM L S (hm_type m) (sm_chan md) (sm_esize md) (Some r)).
  assert (kd <> r) by exact (sm_isb_ne _ _ _ _ _ _ Hmd Hr).
  assert (kd <> q) by exact (sm_isb_ne _ _ _ _ _ _ Hmd Hq).
  assert (Hq2 : isb (putc s kd (CSM m2)) q sz f) by (unfold isb; rewrite bytes_at_putc_ne; auto; congruence).
  assert (Hr2 : isb (putc s kd (CSM m2)) r szr g) by (unfold isb; rewrite bytes_at_putc_ne; auto; congruence).
  assert (q <> r) by congruence.
  eexists. split. { apply (memcpy_ok e _ r szr g q sz f); auto; nia. }
  unfold band_extracted. rewrite Er. split.
  { rewrite (sm_at_putd _ _ _ _ _ _ Hr2). apply (sm_at_putc_eq _ _ md); auto. }
  split; [|split; [|split]].
  - intros i j t Hi Hj Htt. fold S L in Hi, Hj |- *. pose proof (row_byte S L i j es t Hi Hj Htt) as R.
    unfold sample_byte. fold S L B. rewrite Eq.
    rewrite (byte_at_putd_eq _ _ _ _ _ _ Hr2), inb_true by lia.
    replace ((0 <=? (i * S + j) * es + t) && ((i * S + j) * es + t <? 0 + S * L * es)) with true by lia.
    replace (offset BSQ S L B i j (band - 1) * es + t) with (S * L * (band - 1) * es + ((i * S + j) * es + t)) by (cbn; ring).
    rewrite (byte_at_isb _ _ _ _ _ Hq) by nia. do 3 f_equal. lia.
  - fold S L. intros x Hx. rewrite (byte_at_putd_eq _ _ _ _ _ _ Hr2), (byte_at_isb_all _ _ _ _ _ Hr).
    replace (x <? 0 + S * L * es) with false by lia. now rewrite andb_false_r.
  - intros k Hk Hnk. rewrite objs_putd_ne by (intros ->; apply Hnk; right; now left).
    unfold putc; cbn. apply lupd_nth_ne. intros ->. apply Hnk. now left.
  - eapply same_blocks_trans; [apply same_blocks_putc|apply same_blocks_putd].
Qed.

Lemma ev_cases {A} c (k : Z -> M A) e s :
  (exists z, c = Some z /\ bind (ev c) k e s = k z e s) \/ bind (ev c) k e s = UB.
Proof. destruct c as [z|]; [left; exists z; auto|right; auto]. Qed.

Lemma cop_some f a b z : cop f a b = Some z -> exists x y, a = Some x /\ b = Some y /\ z = f x y.
Proof.
  destruct a as [x|], b as [y|]; try discriminate. cbn. unfold chk.
  destruct (in_int (f x y)); try discriminate. intros [= <-]. eauto.
Qed.

Lemma extract_band_oob e s p m es d md band q f :
  cube s p m BSQ es -> sm_at s d = Some md ->
  bytes_at s (hm_data m) = Some (q, hm_samples m * hm_lines m * hm_bands m * es, f) ->
  band < 1 \/ hm_bands m < band ->
  hyper_mat_2_simple_mat p d band e s = UB.
Proof.
  intros [Hh Ht Hp Hty HS HL HB Hsz Hws Hd Hw] Hmd Hq Hband.
  assert (Hes := type_size_range _ _ Hty).
  set (S := hm_samples m) in *. set (L := hm_lines m) in *. set (B := hm_bands m) in *.
  destruct (sm_nonnull _ _ _ Hmd) as (kd & ->).
  unfold hyper_mat_2_simple_mat.
  runs (hget_ok _ _ e _ Hh). runs (il_cmp_bsq _ _ e s Ht Hp). rewrite bind_assert by reflexivity.
  runs (sget_ok _ _ e _ Hmd). runs (set_header_ok_sm e s kd md (CSM (mkSM (hm_lines m) (hm_samples m) (hm_type m) (sm_chan md) (sm_esize md) (sm_data md))) Hmd).
  fold S L. rewrite (type_size_elemsize _ _ Hty).
  assert (0 < S * L) by nia. assert (S * L <= S * L * B) by nia. assert (S * L * B <= S * L * B * es) by nia.
  assert (S <= S * L) by nia.
  match goal with |- bind (ev ?c) ?k e ?st = _ => destruct (ev_cases c k e st) as [(off & Eo & X)|X]; rewrite X; auto end.
  clear X. unfold ci in Eo. apply cop_some in Eo as (x1 & x2 & Eo & [= <-] & ->).
  apply cop_some in Eo as (x3 & x4 & Eo & E4 & ->). apply cop_some in Eo as (? & ? & [= <-] & [= <-] & ->).
  apply cop_some in E4 as (? & ? & [= <-] & [= <-] & ->).
  erewrite bind_ret; [|apply ev_ok; unfold ci; rewrite (cmul_ok S L) by lia; apply cmul_ok; nia].
  apply bytes_at_inv in Hq as [Eq Hq]. rewrite Eq.
  assert (kd <> q) by exact (sm_isb_ne _ _ _ _ _ _ Hmd Hq).
  unfold memcpy. rewrite (bytes_at_putc_ne _ _ _ (Some q)) by congruence.
  destruct (bytes_at _ (sm_data md)) as [((? & ?) & ?)|]; auto.
  unfold isb in Hq. rewrite Hq.
  destruct Hband as [Hb|Hb].
  - assert (S * L * (band - 1) * es < 0) by nia.
    replace (0 <=? S * L * (band - 1) * es) with false by lia. now rewrite !andb_false_r.
  - assert (S * L * B * es < S * L * (band - 1) * es + S * L * es) by nia.
    replace (S * L * (band - 1) * es + S * L * es <=? S * L * B * es) with false by lia.
    now rewrite !andb_false_r.
Qed.

(** What the band insertion stores, whatever the element size: samples*lines
    BYTES at BYTE offset samples*lines*(band-1). *)
Lemma insert_band_run e s p m es d ms band :
  cube s p m BSQ es -> sm_at s d = Some ms ->
  sm_rows ms = hm_lines m -> sm_cols ms = hm_samples m ->
  readable s (sm_data ms) (hm_samples m * hm_lines m) -> sm_data ms <> hm_data m ->
  1 <= band <= hm_bands m ->
  exists s', simple_mat_2_hyper_mat p d band e s = Ret tt s'
    /\ (forall x, byte_at s' (hm_data m) x =
          if (hm_samples m * hm_lines m * (band - 1) <=? x) && (x <? hm_samples m * hm_lines m * band)
          then byte_at s (sm_data ms) (x - hm_samples m * hm_lines m * (band - 1))
          else byte_at s (hm_data m) x)
    /\ only_written (hm_data m) s s'.
Proof.
  intros [Hh Ht Hp Hty HS HL HB Hsz Hws Hd Hw] Hmd ER EC Hrd Hne Hband.
  assert (Hes := type_size_range _ _ Hty).
  set (S := hm_samples m) in *. set (L := hm_lines m) in *. set (B := hm_bands m) in *.
  apply readable_isb in Hd as (q & sz & f & Eq & Hq & Hn).
  apply readable_isb in Hrd as (r & szr & g & Er & Hr & Hnr).
  unfold simple_mat_2_hyper_mat.
  runs (hget_ok _ _ e _ Hh). runs (sget_ok _ _ e _ Hmd). fold S L B.
  rewrite bind_assert by lia. rewrite bind_assert by lia.
  runs (il_cmp_bsq _ _ e s Ht Hp). rewrite bind_assert by reflexivity.
  assert (0 < S * L) by nia. assert (S * L * band <= S * L * B) by nia.
  assert (S * L * B <= S * L * B * es) by nia.
  assert (S * L * (band - 1) + S * L <= S * L * B) by nia.
  assert (0 <= S * L * (band - 1)) by nia.
  assert (band <= S * L * B) by nia.
  assert (S <= S * L) by nia. assert (S * L <= S * L * B) by nia.
  erewrite bind_ret; [|apply ev_ok; unfold ci; rewrite (cmul_ok S L), (csub_ok band 1) by lia;
    apply cmul_ok; lia].
  erewrite bind_ret; [|apply ev_ok; apply cmul_ok; nia].
  rewrite Eq, Er. assert (q <> r) by congruence.
  eexists. split. { apply (memcpy_ok e _ q sz f r szr g); auto; nia. }
  split; [|apply only_written_putd].
  intros x. rewrite (byte_at_putd_eq _ _ _ _ _ _ Hq), (byte_at_isb_all _ _ _ _ x Hq).
  replace (S * L * band) with (S * L * (band - 1) + S * L) by lia.
  destruct ((S * L * (band - 1) <=? x) && (x <? S * L * (band - 1) + S * L)) eqn:E; auto.
  rewrite inb_true by nia. rewrite (byte_at_isb _ _ _ _ _ Hr) by lia. do 3 f_equal. lia.
Qed.

Lemma insert_band_bytes e s p m d ms band :
  cube s p m BSQ 1 -> sm_at s d = Some ms ->
  sm_rows ms = hm_lines m -> sm_cols ms = hm_samples m ->
  readable s (sm_data ms) (hm_samples m * hm_lines m) -> sm_data ms <> hm_data m ->
  1 <= band <= hm_bands m ->
  exists s', simple_mat_2_hyper_mat p d band e s = Ret tt s'
    /\ band_inserted s m 1 (sm_data ms) band s'.
Proof.
  intros C Hmd ER EC Hrd Hne Hband.
  destruct (insert_band_run e s p m 1 d ms band) as (s' & E & A & O); auto.
  exists s'. split; auto. split; [|split; auto].
  - intros i j t Hi Hj Ht. unfold sample_byte. rewrite A.
    pose proof (row_byte _ _ i j 1 t Hi Hj Ht).
    replace (offset BSQ (hm_samples m) (hm_lines m) (hm_bands m) i j (band - 1) * 1 + t)
      with (hm_samples m * hm_lines m * (band - 1) + ((i * hm_samples m + j) * 1 + t)) by (cbn; ring).
    replace (hm_samples m * hm_lines m * band) with (hm_samples m * hm_lines m * (band - 1) + hm_samples m * hm_lines m) by lia.
    match goal with |- (if ?b then _ else _) = _ => replace b with true by lia end. f_equal. lia.
  - intros i j k t (Hi & Hj & Hk) Hkb Ht. unfold sample_byte. rewrite A.
    pose proof (row_byte _ _ i j 1 t Hi Hj Ht).
    replace (offset BSQ (hm_samples m) (hm_lines m) (hm_bands m) i j k * 1 + t)
      with (hm_samples m * hm_lines m * k + ((i * hm_samples m + j) * 1 + t)) by (cbn; ring).
    match goal with |- (if ?b then _ else _) = _ => replace b with false; auto end.
    destruct (Z_lt_ge_dec k (band - 1)).
    + assert (hm_samples m * hm_lines m * k + hm_samples m * hm_lines m <= hm_samples m * hm_lines m * (band - 1)) by nia. lia.
    + assert (hm_samples m * hm_lines m * band <= hm_samples m * hm_lines m * k) by nia. lia.
Qed.

(** ** C21 *)

Lemma transport_run e s r mr p ms es :
  image s r mr es -> image s p ms es -> sm_chan mr = 1 -> sm_chan ms = 1 ->
  sm_rows mr = sm_cols ms -> sm_cols mr = sm_rows ms -> sm_type mr = sm_type ms ->
  sm_data mr <> sm_data ms ->
  exists s', simple_mat_transport r p e s = Ret tt s' /\ transposed s ms mr es s'
    /\ written s (sm_data mr) s'.
Proof.
  intros Ir Ip Cr Cp ER EC ET Hne.
  pose proof (image_pos _ _ _ _ Ir) as (Hes & P1 & P2 & P3).
  destruct Ir as [Hr Tr Rr Crr Chr Szr Dr]. destruct Ip as [Hp Tp Rp Cpp Chp Szp Dp].
  rewrite Cr, Z.mul_1_r in *. rewrite Cp, Z.mul_1_r in *. rewrite <- ER, <- EC in *.
  set (R := sm_rows mr) in *. set (C := sm_cols mr) in *.
  apply readable_isb in Dr as (q & szq & f & Eq & Hq & Hnq).
  apply readable_isb in Dp as (w & szw & g & Ew & Hw & Hnw).
  unfold simple_mat_transport. runs (sget_ok _ _ e _ Hr). runs (sget_ok _ _ e _ Hp).
  fold R C. rewrite bind_assert by lia. rewrite (type_size_elemsize _ _ Tp).
  rewrite Eq, Ew. assert (w <> q) by congruence.
  set (spec := fun x => g ((x / es mod C * R + x / es / C) * es + x mod es) mod 256).
  assert (W : wr e s q
    (for_ 0 R (fun i => for_ 0 C (fun j => for_ 0 es (fun k =>
        d <- ev (i * C * es + j * es + k)%C ;;
        s <- ev (j * R * es + i * es + k)%C ;;
        x <- load8 (Some w) s ;;
        store8 (Some q) d x))))
     (fun x => exists i, 0 <= i < R /\ exists j, 0 <= j < C /\ exists t, 0 <= t < es /\
        x = (i * C + j) * es + t) spec).
  { apply wr_for. intros i Hi. apply wr_for. intros j Hj. apply wr_for. intros t Ht.
    assert (B1 : 0 <= (i * C + j) * es + t < R * C * es).
    { assert (0 <= i * C + j < R * C) by nia. nia. }
    assert (B2 : 0 <= (j * R + i) * es + t < C * R * es).
    { assert (0 <= j * R + i < C * R) by nia. nia. }
    assert (0 <= i * C) by nia. assert (0 <= i * C * es) by nia. assert (0 <= j * es) by nia.
    assert (i * C <= i * C * es) by nia.
    assert (0 <= j * R) by nia. assert (0 <= j * R * es) by nia. assert (0 <= i * es) by nia.
    assert (j * R <= j * R * es) by nia. assert (C * R * es = R * C * es) by ring.
    eapply wr_bind. { apply rdv_ev. unfold ci. rewrite (cmul_ok i C), (cmul_ok (i * C)), (cmul_ok j es) by lia.
      rewrite (cadd_ok (i * C * es)) by lia. apply cadd_ok. lia. }
    eapply wr_bind. { apply rdv_ev. unfold ci. rewrite (cmul_ok j R), (cmul_ok (j * R)), (cmul_ok i es) by lia.
      rewrite (cadd_ok (j * R * es)) by lia. apply cadd_ok. lia. }
    eapply wr_bind; [eapply rdv_load8; eauto; lia|].
    replace (i * C * es + j * es + t) with ((i * C + j) * es + t) by ring.
    replace (j * R * es + i * es + t) with ((j * R + i) * es + t) by ring.
    eapply wr_store8; [eauto|lia|].
    unfold spec. destruct (radix2 (i * C + j) t es Ht) as [-> ->].
    rewrite Z.mod_mod by lia.
    destruct (radix2 i j C Hj) as [-> ->]. reflexivity. }
  destruct (wr_run _ _ _ _ _ _ _ _ Hq W) as (f' & E & A & _).
  eexists. split; [exact E|]. split; [|rewrite ?Eq; eapply written_putd; eauto].
  intros i j t Hi Hj Ht. unfold pixel_byte. fold R C in Hi, Hj |- *. rewrite Cr, Cp, !Z.mul_1_r, !Z.add_0_r.
  rewrite <- ER. fold R. rewrite Eq, Ew.
  assert (B1 : 0 <= (i * C + j) * es + t < R * C * es).
  { assert (0 <= i * C + j < R * C) by nia. nia. }
  assert (B2 : 0 <= (j * R + i) * es + t < C * R * es).
  { assert (0 <= j * R + i < C * R) by nia. nia. }
  rewrite (byte_at_putd_eq _ _ _ _ _ _ Hq), inb_true by lia.
  rewrite A by (exists i; split; auto; exists j; split; auto; exists t; auto).
  unfold spec. destruct (radix2 (i * C + j) t es Ht) as [-> ->].
  destruct (radix2 i j C Hj) as [-> ->].
  rewrite (byte_at_isb _ _ _ _ _ Hw) by lia. reflexivity.
Qed.

Lemma transport_twice e s r mr p ms b mb es :
  image s r mr es -> image s p ms es -> image s b mb es ->
  sm_chan mr = 1 -> sm_chan ms = 1 -> sm_chan mb = 1 ->
  sm_rows mr = sm_cols ms -> sm_cols mr = sm_rows ms ->
  sm_rows mb = sm_rows ms -> sm_cols mb = sm_cols ms ->
  sm_type mr = sm_type ms -> sm_type mb = sm_type ms ->
  sm_data mr <> sm_data ms -> sm_data mr <> sm_data mb ->
  exists s1 s2, simple_mat_transport r p e s = Ret tt s1 /\ simple_mat_transport b r e s1 = Ret tt s2
    /\ forall i j t, 0 <= i < sm_rows ms -> 0 <= j < sm_cols ms -> 0 <= t < es ->
         pixel_byte s2 mb es i j 0 t = pixel_byte s ms es i j 0 t.
Proof.
  intros Ir Ip Ib Cr Cp Cb E1 E2 E3 E4 T1 T2 N1 N2.
  destruct (transport_run e s r mr p ms es) as (s1 & X1 & A1 & W1); auto.
  destruct (transport_run e s1 b mb r mr es) as (s2 & X2 & A2 & W2); auto; try congruence;
    try (eapply written_image; eauto).
  exists s1, s2. split; auto. split; auto. intros i j t Hi Hj Ht.
  rewrite A2 by congruence. apply A1; congruence.
Qed.

(** ** C22 *)

(** In-place pixel-wise writing: every cell of P gets a value computed from its
    old value. *)
Definition mapw (e : env) (s0 : st) (q : nat) (m : M unit) (P : Z -> Prop) (h : Z -> Z -> Z) : Prop :=
  forall f, exists f',
    m e (putd s0 q f) = Ret tt (putd s0 q f')
    /\ (forall p, P p -> f' p mod 256 = h p (f p mod 256))
    /\ (forall p, ~ P p -> f' p = f p).

Lemma mapw_iff e s0 q m P P' h : mapw e s0 q m P h -> (forall p, P p <-> P' p) -> mapw e s0 q m P' h.
Proof.
  intros H HP f. destruct (H f) as (f' & E & A & B). exists f'.
  repeat split; auto; intros p Hp; [apply A | apply B]; firstorder.
Qed.

Lemma mapw_for e s0 q lo hi body (P : Z -> Z -> Prop) h :
  (forall i, lo <= i < hi -> mapw e s0 q (body i) (P i) h) ->
  (forall i j p, lo <= i < hi -> lo <= j < hi -> P i p -> P j p -> i = j) ->
  mapw e s0 q (for_ lo hi body) (fun p => exists i, lo <= i < hi /\ P i p) h.
Proof.
  intros H D. unfold for_. remember (Z.to_nat (hi - lo)) as n eqn:En.
  destruct (Z_le_gt_dec hi lo) as [Hle|Hgt].
  - replace n with 0%nat by lia. intros f. exists f. split; [reflexivity|].
    split; [intros p (i & Hi & _); lia|auto].
  - assert (Hn : hi = lo + Z.of_nat n) by lia. clear En Hgt. revert lo H D Hn.
    induction n as [|n IH]; intros lo H D Hn.
    + intros f. exists f. split; [reflexivity|].
      split; [intros p (i & Hi & _); lia|auto].
    + intros f. cbn [iter_]. destruct (H lo ltac:(lia) f) as (f1 & E1 & A1 & B1).
      destruct (IH (lo + 1)) with (f := f1) as (f2 & E2 & A2 & B2);
        [intros; apply H; lia | intros; eapply D; eauto; lia | lia |].
      exists f2. split; [now rewrite (bind_ret _ _ _ _ _ _ E1)|]. split.
      * intros p (i & Hi & Hp). destruct (Z.eq_dec i lo) as [-> | Hne].
        -- rewrite B2; auto. intros (j & Hj & Hp'). assert (lo = j) by (apply (D lo j p); auto; lia). lia.
        -- rewrite A2 by (exists i; split; auto; lia). rewrite B1; auto.
           intros Hp'. apply Hne. apply (D i lo p); auto; lia.
      * intros p Hp. rewrite B2, B1; auto.
        -- intros Hp'. apply Hp. exists lo. split; auto; lia.
        -- intros (i & Hi & Hp'). apply Hp. exists i. split; auto; lia.
Qed.

Lemma mapw_run e s0 q n d m P h : isb s0 q n d -> mapw e s0 q m P h ->
  exists f', m e s0 = Ret tt (putd s0 q f')
    /\ (forall p, P p -> f' p mod 256 = h p (d p mod 256))
    /\ (forall p, ~ P p -> f' p = d p).
Proof.
  intros H W. destruct (W d) as (f' & E & A & B). exists f'.
  rewrite (putd_id _ _ _ _ H) in E. auto.
Qed.
