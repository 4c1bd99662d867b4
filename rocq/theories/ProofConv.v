(** * Proofs: rounding and data type conversions (C33-C35). *)
From Verif Require Import Base Logic ModelFloat ModelCore ModelConv SpecBase SpecNum
  ProofCore ProofLayout ProofHM ProofImage ProofCore2 ProofFloat ProofWord.
From Coq Require Import Floats.SpecFloat ZifyBool ZifyNat.
Ltac Zify.zify_post_hook ::= Z.div_mod_to_equations.
Open Scope Z_scope.

(** ** Rounding *)

Lemma ROUND_finite x n : db_ok x -> sf_num x = Some n ->
  HYPERCV_ROUND x = if in_int (rne n sf_one) then rne n sf_one else INT_MIN.
Proof. intros V N. unfold HYPERCV_ROUND. now rewrite (db_rne x n). Qed.

Lemma ROUND_nearest x n z : db_ok x -> sf_num x = Some n -> nearest_even n sf_one z ->
  HYPERCV_ROUND x = if in_int z then z else INT_MIN.
Proof.
  intros V N Hz. rewrite (ROUND_finite x n) by auto.
  now rewrite (nearest_even_unique n sf_one z (rne n sf_one) sf_one_pos Hz (rne_nearest n sf_one sf_one_pos)).
Qed.

Lemma ROUND_not_finite x : sf_num x = None -> HYPERCV_ROUND x = INT_MIN.
Proof. destruct x; try discriminate; reflexivity. Qed.

Lemma ROUND_int x n : db_ok x -> sf_num x = Some n -> -2147483648 <= rne n sf_one <= 2147483647 ->
  nearest_even n sf_one (HYPERCV_ROUND x).
Proof.
  intros V N H. rewrite (ROUND_finite x n) by auto. replace (in_int (rne n sf_one)) with true.
  - apply rne_nearest, sf_one_pos.
  - unfold in_int, INT_MIN, INT_MAX. lia.
Qed.

Lemma saturate_ok x n z : fl_ok x -> sf_num x = Some n -> nearest_even n sf_one z ->
  saturate_cast_float2uchar x = clamp 0 255 z.
Proof.
  intros V N Hz. unfold saturate_cast_float2uchar.
  destruct (fl_of_Z_ok 255 ltac:(lia)) as [V1 N1]. destruct (fl_of_Z_ok 0 ltac:(lia)) as [V0 N0].
  rewrite (fl_ltb _ _ _ _ V1 V N1 N), (fl_ltb _ _ _ _ V V0 N N0).
  destruct (db_of_fl_ok x V) as [VD ND]. rewrite (ROUND_nearest (db_of_fl x) n z) by (auto; congruence).
  destruct Hz as [Z1 Z2]. pose proof sf_one_pos as H1. unfold clamp.
  destruct (Z.ltb_spec (255 * sf_one) n).
  - assert (255 <= z) by nia. lia.
  - destruct (Z.ltb_spec n (0 * sf_one)).
    + assert (z <= 0) by nia. lia.
    + assert (0 <= z <= 255) by nia. replace (in_int z) with true by (unfold in_int, INT_MIN, INT_MAX; lia).
      unfold u8. rewrite Z.mod_small; lia.
Qed.

Lemma ROUND_word raw : 0 <= raw < 4294967296 ->
  int_or_indefinite raw (HYPERCV_ROUND (db_of_fl (fl_of_bits raw))).
Proof.
  intros Hr. pose proof (fl_of_bits_ok raw Hr) as V. destruct (db_of_fl_ok _ V) as [VD ND].
  unfold int_or_indefinite, rounds_to.
  destruct (sf_num (fl_of_bits raw)) as [n|] eqn:N.
  - rewrite (ROUND_finite _ n VD) by congruence. pose proof (rne_nearest n sf_one sf_one_pos) as Hn.
    destruct (in_int (rne n sf_one)) eqn:Hi; unfold in_int, INT_MIN, INT_MAX in *.
    + left. split; [exists n; auto|lia].
    + right. split; auto. intros z' (n' & E & Hz). injection E as <-.
      rewrite (nearest_even_unique n sf_one z' (rne n sf_one) sf_one_pos Hz Hn). lia.
  - rewrite ROUND_not_finite by congruence. right. split; auto. intros z' (n' & E & _). discriminate.
Qed.

Lemma indefinite_unique raw z z' : int_or_indefinite raw z -> rounds_to raw z' ->
  -2147483648 <= z' <= 2147483647 -> z = z'.
Proof.
  intros [[(n & N & A) Hz]|[-> H]] R Hz'.
  - destruct R as (n' & N' & A'). rewrite N in N'. injection N' as <-.
    eapply nearest_even_unique; eauto. apply sf_one_pos.
  - destruct (H _ R Hz').
Qed.

(** ** Exactness of the widening float conversions *)

Lemma fl_of_db_num x a : db_ok x -> sf_num x = Some a -> rounded 24 128 1074 a (fl_of_db x).
Proof.
  intros V N. destruct x as [s|s| |s m e]; try discriminate N.
  - cbn [sf_num] in N. injection N as <-. unfold fl_of_db, renorm, rounded.
    rewrite rnd_0 by (try lia; unfold emin; lia). cbn [Z.abs].
    pose proof (pow_pos (128 + 1074) ltac:(lia)). replace (0 <? 2 ^ (128 + 1074)) with true by lia.
    split; reflexivity.
  - cbn [sf_num] in N. injection N as <-. unfold fl_of_db, renorm.
    apply (normalize_rounded 24 128); try lia; try (unfold emin; lia). apply db_emin in V. lia.
Qed.

Lemma times_one x : 0 <= x < 65536 ->
  fl_ok (fl_of_db (db_mul (db_of_Z x) (db_of_Z 1)))
  /\ sf_num (fl_of_db (db_mul (db_of_Z x) (db_of_Z 1))) = Some (x * sf_one).
Proof.
  intros Hx. destruct (db_of_Z_ok x ltac:(lia)) as [V1 N1]. destruct (db_of_Z_ok 1 ltac:(lia)) as [V2 N2].
  pose proof (SFmul_num 53 1024 ltac:(lia) ltac:(lia) ltac:(lia) _ _ _ _ V1 V2 N1 N2) as R.
  assert (E1 : x * sf_one * (1 * sf_one) = x * 2 ^ (0 + 2148)).
  { rewrite sf_one_eq. change (0 + 2148) with (1074 + 1074). rewrite (pow_split 1074 1074) by lia. generalize (2 ^ 1074). clear. intros; ring. }
  rewrite E1 in R. clear E1.
  assert (B : forall p q, 16 <= p - 1074 -> 0 <= q - 0 -> Z.abs x * 2 ^ (0 + 1074) < 2 ^ p).
  { intros p _ Hp _. replace p with (p - 1074 + 1074) by lia. rewrite (pow_split (p - 1074) 1074) by lia.
    assert (H : 65536 <= 2 ^ (p - 1074)) by (change 65536 with (2 ^ 16); apply pow_le; lia).
    pose proof (pow_pos 1074 ltac:(clear; lia)) as H2. change (0 + 1074) with 1074. revert H H2. generalize (2 ^ 1074) (2 ^ (p - 1074)). clear - Hx. intros; nia. }
  assert (W : forall p, 16 <= p -> Z.abs x <= 2 ^ p).
  { intros p Hp. assert (65536 <= 2 ^ p) by (change 65536 with (2 ^ 16); apply pow_le; lia). lia. }
  destruct (rounded_exact 53 1024 2148 _ x 0 _ ltac:(clear; lia) ltac:(clear; lia) ltac:(clear; lia) ltac:(clear; unfold emin; lia) ltac:(clear; unfold emin; lia)
    eq_refl (W 53 ltac:(clear; lia)) (B (1024 + 1074) 0 ltac:(clear; lia) ltac:(clear; lia)) R) as [V3 N3]. change (SFmul 53 1024) with db_mul in V3, N3.
  apply fl_of_db_num in N3; auto.
  destruct (rounded_exact 24 128 1074 _ x 0 _ ltac:(clear; lia) ltac:(clear; lia) ltac:(clear; lia) ltac:(clear; unfold emin; lia) ltac:(clear; unfold emin; lia)
    eq_refl (W 24 ltac:(clear; lia)) (B (128 + 1074) 0 ltac:(clear; lia) ltac:(clear; lia)) N3) as [V4 N4]. split; [exact V4|]. rewrite N4. now rewrite sf_one_eq.
Qed.

(** ** The shared skeleton *)

(** The loop body turns the source word at i into the word g of it. *)
Definition maps_words (e : env) (es es' : Z) (g : Z -> Z) (body : ptr -> ptr -> Z -> M unit) : Prop :=
  forall s0 q q' N N' d d0 i, isb s0 q N d -> isb s0 q' N' d0 -> q <> q' ->
    0 <= i -> (i + 1) * es <= N -> (i + 1) * es' <= N' ->
    wr e s0 q' (body (Some q) (Some q') i) (fun p => i * es' <= p < (i + 1) * es')
       (elems es' (fun i => g (word d (i * es) (Z.to_nat es)))).

Lemma retype_run e s p m l es ty ty' es' body g : env_ok e -> heap_ok s -> cube s p m l es ->
  hm_type m = ty -> type_size ty' = Some es' -> 0 < es -> 0 < es' ->
  hm_samples m * hm_lines m * hm_bands m * es' <= 2147483647 ->
  maps_words e es es' g body ->
  (forall x, 0 <= x < 256 ^ es -> 0 <= g x < 256 ^ es') ->
  exists p' s', retype_with ty ty' body p e s = Ret p' s'
    /\ retyped s m l es ty' es' (fun x y => 0 <= x < 256 ^ es /\ y = g x) s' p'.
Proof.
  intros He Hs [Hh Ht Hp Hty HS HL HB Hsz Hws Hd Hw] Hm Hty' Hes Hes' Hsz' HM Hg.
  set (S := hm_samples m) in *. set (L := hm_lines m) in *. set (B := hm_bands m) in *.
  set (k := List.length (objs s)).
  assert (HSL : 0 < S * L) by nia. assert (HN : 0 < S * L * B) by nia.
  assert (Hn : S * L * B <= 2147483647) by nia. assert (Hsl : S * L <= 2147483647) by nia.
  unfold retype_with. runs (hget_ok _ _ e _ Hh). rewrite bind_assert by lia. fold S L B.
  assert (Tg : exists a b c, hm_il m = [a; b; c]) by (rewrite Ht; destruct l; do 3 eexists; reflexivity).
  destruct Tg as (a & b & c & Et).
  destruct (create_hm0 e s S L B ty' es' a b c nil) as (d0 & w0 & E & Z1 & Z2); auto.
  rewrite <- Et in E. runs E. rewrite Ht. fold k.
  set (s1 := newhm e s S L B ty' es' (tag_of l) d0 w0).
  pose proof (newhm_hdr e s S L B ty' es' (tag_of l) d0 w0) as H1. fold s1 k in H1.
  runs (hget_ok _ _ e _ H1). cbn [newhdr hm_data hm_wave]. fold k.
  assert (E0 : (S * L * B)%C = Some (S * L * B)).
  { unfold ci. rewrite (cmul_ok S L) by lia. apply cmul_ok. lia. }
  runs (ev_ok _ _ e s1 E0).
  apply readable_isb in Hd as (q & sz & d & Eq & Hq & Hnq). rewrite Eq.
  pose proof (newhm_data e s S L B ty' es' (tag_of l) d0 w0) as H2. fold s1 k in H2.
  pose proof (newhm_wave e s S L B ty' es' (tag_of l) d0 w0) as H3. fold s1 k in H3.
  assert (Hq1 : isb s1 q sz d) by (apply newhm_old; auto).
  assert (Hqk : q <> (k + 1)%nat) by (eapply isb_old_ne; eauto).
  assert (W : wr e s1 (k + 1)%nat (for_ 0 (S * L * B) (fun i => body (Some q) (Some (k + 1)%nat) i))
                (fun p => 0 <= p < S * L * B * es')
                (elems es' (fun i => g (word d (i * es) (Z.to_nat es))))).
  { apply wr_elems; auto. intros i Hi. eapply HM; eauto; nia. }
  destruct (wr_run _ _ _ _ _ _ _ _ H2 W) as (dd & E1 & A & _).
  runs E1. unfold s1, k at 1. rewrite newhm_putd1. fold k.
  set (s2 := newhm e s S L B ty' es' (tag_of l) dd w0).
  pose proof (newhm_wave e s S L B ty' es' (tag_of l) dd w0) as H4. fold s2 k in H4.
  assert (Hwv : exists dw,
    (if nonnull (hm_wave m) then memcpy (Some (k + 2)%nat) 0 (hm_wave m) 0 (B * 4) else ret tt) e s2
    = Ret tt (newhm e s S L B ty' es' (tag_of l) dd dw)
    /\ (forall b, 0 <= b < B * 4 -> Some (dw b mod 256) =
          match hm_wave m with None => Some 0 | Some _ => byte_at s (hm_wave m) b end)).
  { destruct Hw as [-> | Hr].
    - exists w0. split; [reflexivity|]. intros b0 Hb. now rewrite Z2.
    - apply readable_isb in Hr as (qw & szw & wv & -> & Hqw & Hnw). cbn [nonnull]. eexists. split.
      { rewrite (memcpy_ok e s2 (k + 2) (B * 4) w0 qw szw wv); auto; try lia.
        - unfold s2, k at 1. rewrite newhm_putd2. reflexivity.
        - apply newhm_old; auto.
        - eapply isb_old_ne; eauto. }
      intros b0 Hb. cbv beta. replace ((0 <=? b0) && (b0 <? 0 + B * 4)) with true by lia.
      rewrite (byte_at_isb s qw szw wv b0) by (auto; lia). do 3 f_equal. lia. }
  destruct Hwv as (dw & E2 & Aw). runs E2.
  eexists _, _. split; [reflexivity|]. clear E2 E1 W H4 s2 H1 H2 H3 s1 Hq1 E.
  exists (newhdr e s S L B ty' (tag_of l)).
  pose proof (newhm_data e s S L B ty' es' (tag_of l) dd dw) as H2. fold k in H2.
  pose proof (newhm_wave e s S L B ty' es' (tag_of l) dd dw) as H3. fold k in H3.
  split.
  { constructor; cbn [newhdr hm_samples hm_lines hm_bands hm_type hm_il hm_data hm_wave]; auto.
    - apply newhm_hdr.
    - apply newhm_pad; auto.
    - eapply isb_readable; eauto. lia.
    - right. eapply isb_readable; eauto. lia. }
  cbn [newhdr hm_samples hm_lines hm_bands hm_type hm_il hm_data hm_wave]. fold k.
  split; [exists k; auto|]. split; [exists (k + 1)%nat; split; auto; lia|].
  split; [exists (k + 2)%nat; split; auto; lia|].
  do 4 (split; [reflexivity|]).
  split; [|split; [|split; [|split; [reflexivity|]]]].
  - intros i j k' (Hi & Hj & Hk). fold S L B in Hi, Hj, Hk.
    pose proof (offset_range l S L B i j k' Hi Hj Hk) as O.
    unfold sample_word; cbn [newhdr hm_samples hm_lines hm_bands hm_data]. fold k S L B. rewrite Eq.
    set (o := offset l S L B i j k') in *. clearbody o.
    exists (word d (o * es) (Z.to_nat es)), (g (word d (o * es) (Z.to_nat es))).
    rewrite (word_at_isb s q sz d) by (auto; rewrite ?Z2Nat.id by lia; nia).
    rewrite (word_at_isb _ _ _ _ _ H2) by (rewrite ?Z2Nat.id by lia; nia).
    pose proof (word_range d (Z.to_nat es) (o * es)) as Hr. rewrite Z2Nat.id in Hr by lia.
    split; [reflexivity|]. split; [|auto].
    rewrite (word_elems dd es' (fun i => g (word d (i * es) (Z.to_nat es))) o); auto.
    intros p0 Hp0. apply A. nia.
  - intros b0 Hb. rewrite <- Aw by auto. now rewrite (byte_at_isb _ _ _ _ _ H3).
  - apply newhm_old_unchanged.
  - apply newhm_heap_ok; auto.
Qed.

Lemma retyped_weaken s m l es ty' es' (R R' : Z -> Z -> Prop) s' p' :
  (forall x y, R x y -> R' x y) -> retyped s m l es ty' es' R s' p' -> retyped s m l es ty' es' R' s' p'.
Proof.
  intros H (m' & H1 & H2 & H3 & H4 & H5 & H6 & H7 & H8 & H9 & H10). exists m'.
  repeat (split; [assumption|]). split; [|assumption].
  intros i j k Hi. destruct (H9 i j k Hi) as (x & y & A & B & C). exists x, y. auto.
Qed.

(** A source of another type is refused; a result over the size limit is undefined. *)
Lemma retype_other e s p m ty ty' body : hm_at s p = Some m -> hm_type m <> ty ->
  retype_with ty ty' body p e s = Exit.
Proof.
  intros H1 H2. unfold retype_with. runs (hget_ok _ _ e _ H1). now rewrite bind_assert_false by lia.
Qed.

Lemma retype_big e s p m l es ty ty' es' body : cube s p m l es -> hm_type m = ty ->
  type_size ty' = Some es' -> 2147483647 < hm_samples m * hm_lines m * hm_bands m * es' ->
  retype_with ty ty' body p e s = UB.
Proof.
  intros [Hh Ht Hp Hty HS HL HB Hsz Hws Hd Hw] Hm Hty' Hbig.
  set (S := hm_samples m) in *. set (L := hm_lines m) in *. set (B := hm_bands m) in *.
  assert (Hes : 1 <= es) by (apply type_size_range in Hty; lia).
  assert (HSL : 0 < S * L) by nia. assert (HN : 0 < S * L * B) by nia.
  assert (Hn : S * L * B <= 2147483647) by nia. assert (Hsl : S * L <= 2147483647) by nia.
  unfold retype_with. runs (hget_ok _ _ e _ Hh). rewrite bind_assert by lia. fold S L B.
  apply bind_ub. unfold create_hyper_mat, create_hyper_mat_with_data.
  do 3 rewrite bind_assert by lia. apply bind_ub.
  rewrite (type_size_elemsize _ _ Hty').
  unfold ev, ci. rewrite (cmul_ok S L), (cmul_ok (S * L) B) by lia.
  unfold cmul, cop, chk, in_int, INT_MIN, INT_MAX. replace (_ && _) with false by lia. reflexivity.
Qed.

(** ** The loop bodies *)

Lemma word1 d i : word d (i * 1) (Z.to_nat 1) = d i mod 256.
Proof. change (Z.to_nat 1) with 1%nat. cbn [word]. rewrite Z.mul_1_r. lia. Qed.

Lemma byte_word e es' body (f g : Z -> Z) :
  0 < es' -> (forall src dst i, body src dst i = (x <- load8 src i ;; storele dst (es' * i) (Z.to_nat es') (f x))) ->
  (forall x, 0 <= x < 256 -> f x mod 256 ^ es' = g x mod 256 ^ es') ->
  maps_words e 1 es' g body.
Proof.
  intros Hes Hb Hf s0 q q' N N' d d0 i H1 H2 H3 Hi HN HN'. rewrite Hb.
  eapply wr_bind; [eapply rdv_load8; eauto; lia|].
  eapply wr_elem; eauto; [lia|]. rewrite word1. apply Hf. apply Z.mod_pos_bound. lia.
Qed.

Lemma short_word e es' body (f g : Z -> Z) :
  0 < es' -> (forall src dst i, body src dst i = (x <- loadle src (2 * i) 2 ;; storele dst (es' * i) (Z.to_nat es') (f x))) ->
  (forall x, 0 <= x < 65536 -> f x mod 256 ^ es' = g x mod 256 ^ es') ->
  maps_words e 2 es' g body.
Proof.
  intros Hes Hb Hf s0 q q' N N' d d0 i H1 H2 H3 Hi HN HN'. rewrite Hb.
  eapply wr_bind; [eapply rdv_loadle; eauto; lia|].
  eapply wr_elem; eauto; [lia|]. rewrite (Z.mul_comm 2 i). apply Hf.
  apply (word_range d 2).
Qed.

Lemma float_word e es' body (f : sf -> Z) (g : Z -> Z) :
  0 < es' -> (forall src dst i, body src dst i = (x <- loadf src i ;; storele dst (es' * i) (Z.to_nat es') (f x))) ->
  (forall x, 0 <= x < 4294967296 -> f (fl_of_bits x) mod 256 ^ es' = g x mod 256 ^ es') ->
  maps_words e 4 es' g body.
Proof.
  intros Hes Hb Hf s0 q q' N N' d d0 i H1 H2 H3 Hi HN HN'. rewrite Hb.
  eapply wr_bind; [eapply rdv_loadf; eauto; lia|].
  eapply wr_elem; eauto; [lia|]. rewrite (Z.mul_comm 4 i). apply Hf.
  apply (word_range d 4).
Qed.

Lemma wr_elem8 e s0 q N d g i v : isb s0 q N d -> 0 <= i -> (i + 1) * 1 <= N ->
  v mod 256 = g i mod 256 ->
  wr e s0 q (store8 (Some q) i v) (fun p => i * 1 <= p < (i + 1) * 1) (elems 1 g).
Proof.
  intros H Hi Hn Hv. eapply wr_iff.
  - eapply wr_store8; eauto; [lia|].
    pose proof (elems_at 1 g i 0 ltac:(lia)) as E. rewrite byte_of_0 in E.
    replace (i * 1 + 0) with i in E by lia. lia.
  - intros p. cbv beta. lia.
Qed.

(** The conversions from float: the integer cvt x is narrowed by [narrow] and
    stored modulo the element size. *)
Definition cvt (x : Z) : Z := HYPERCV_ROUND (db_of_fl (fl_of_bits x)).
Definition stored (es' : Z) (narrow : Z -> Z) (x : Z) : Z := narrow (cvt x) mod 256 ^ es'.

Lemma stored_range es' narrow x : 0 < es' -> 0 <= stored es' narrow x < 256 ^ es'.
Proof. intros H. apply Z.mod_pos_bound. apply Z.pow_pos_nonneg; lia. Qed.

Definition as_is (z : Z) : Z := z.
Definition char_clip (z : Z) : Z := if z >? 127 then 128 else if z <? -127 then -127 else z.

Lemma mod_mod_pow v es' : 0 < es' -> (v mod 256 ^ es') mod 256 ^ es' = v mod 256 ^ es'.
Proof. intros. apply Z.mod_mod. assert (0 < 256 ^ es') by (apply Z.pow_pos_nonneg; lia). lia. Qed.

Ltac narrow_body es :=
  intros s0 q q' N N' d d0 i H1 H2 H3 Hi HN HN'; cbv beta;
  eapply wr_bind; [eapply rdv_loadf; eauto; lia|]; cbv zeta; rewrite (Z.mul_comm 4 i);
  change (HYPERCV_ROUND (db_of_fl (fl_of_bits (word d (i * 4) 4)))) with (cvt (word d (i * 4) 4));
  repeat match goal with |- context[if ?c then _ else _] => destruct c eqn:? end;
  first [ eapply wr_elem8; eauto | eapply (wr_elem _ _ _ _ _ es); eauto; try lia ];
  unfold stored; change (Z.to_nat 4) with 4%nat; rewrite ?mod_mod_pow by lia;
  change (256 ^ 1) with 256; rewrite ?Z.mod_mod by lia; f_equal.

Lemma body_float2int e : maps_words e 4 4 (stored 4 as_is)
  (fun src dst i => x <- loadf src i ;; storele dst (4 * i) 4 (HYPERCV_ROUND (db_of_fl x))).
Proof. narrow_body 4. Qed.
Lemma body_float2short e : maps_words e 4 2 (stored 2 as_is)
  (fun src dst i => x <- loadf src i ;; storele dst (2 * i) 2 (HYPERCV_ROUND (db_of_fl x))).
Proof. narrow_body 2. Qed.
Lemma body_float2char e : maps_words e 4 1 (stored 1 char_clip)
  (fun src dst i =>
    x <- loadf src i ;;
    let tmp := HYPERCV_ROUND (db_of_fl x) in
    if tmp >? 127 then store8 dst i 128
    else if tmp <? -127 then store8 dst i (-127)
    else store8 dst i tmp).
Proof. narrow_body 1; unfold char_clip; rewrite ?Heqb, ?Heqb0; reflexivity. Qed.
Lemma body_float2ushort e : maps_words e 4 2 (stored 2 (Z.max 0))
  (fun src dst i =>
    x <- loadf src i ;;
    let tmp := HYPERCV_ROUND (db_of_fl x) in
    if tmp <? 0 then storele dst (2 * i) 2 0
    else storele dst (2 * i) 2 tmp).
Proof. narrow_body 2; lia. Qed.
Lemma body_float2uchar e : maps_words e 4 1 (stored 1 (clamp 0 255))
  (fun src dst i =>
    x <- loadf src i ;;
    let tmp := HYPERCV_ROUND (db_of_fl x) in
    if tmp >? 255 then store8 dst i 255
    else if tmp <? 0 then store8 dst i 0
    else store8 dst i tmp).
Proof. narrow_body 1; unfold clamp; lia. Qed.
Lemma cvt_range x : -2147483648 <= cvt x <= 2147483647.
Proof.
  unfold cvt, HYPERCV_ROUND. destruct (sf_rne _) as [z|]; [|unfold INT_MIN; lia].
  destruct (in_int z) eqn:E; unfold in_int, INT_MIN, INT_MAX in *; lia.
Qed.
Lemma body_float2uint e : maps_words e 4 4 (stored 4 (Z.max 0))
  (fun src dst i =>
    x <- loadf src i ;;
    let tmp := HYPERCV_ROUND (db_of_fl x) in
    if tmp >? 4294967295 then storele dst (4 * i) 4 4294967295
    else if tmp <? 0 then storele dst (4 * i) 4 0
    else storele dst (4 * i) 4 tmp).
Proof.
  narrow_body 4.
  - pose proof (cvt_range (word d (i * 4) 4)). lia.
  - lia.
  - lia.
Qed.

(** ** The families *)

(** C33. *)
Definition widenings : list (Z * Z * Z * Z * (ptr -> M ptr)) :=
  [ (1, 1, 2, 2, hyper_mat_uchar2short); (1, 1, 3, 4, hyper_mat_uchar2int);
    (1, 1, 4, 4, hyper_mat_uchar2float); (1, 1, 12, 2, hyper_mat_uchar2ushort);
    (12, 2, 4, 4, hyper_mat_ushort2float) ].

Definition fbits (x : Z) : Z := bits_of_fl (fl_of_db (db_mul (db_of_Z x) (db_of_Z 1))).
Lemma fbits_ok x : 0 <= x < 65536 -> 0 <= fbits x < 4294967296
  /\ stored_num 4 (fbits x) = Some (x * sf_one).
Proof.
  intros Hx. destruct (times_one x Hx) as [V N]. unfold fbits. split; [apply bits_of_fl_range; auto|].
  change (stored_num 4 ?r) with (sf_num (fl_of_bits r)). rewrite fl_bits_fl by auto. exact N.
Qed.

Lemma widen_ok e s p m l ty es ty' es' f : env_ok e -> heap_ok s -> In (ty, es, ty', es', f) widenings ->
  cube s p m l es -> hm_type m = ty ->
  hm_samples m * hm_lines m * hm_bands m * es' <= 2147483647 ->
  exists p' s', f p e s = Ret p' s'
    /\ retyped s m l es ty' es'
         (fun x y => exists v, stored_num ty x = Some v /\ stored_num ty' y = Some v) s' p'.
Proof.
  intros He Hs Hin Hc Hty Hsz. unfold widenings in Hin. cbn [In] in Hin.
  assert (P1 : 256 ^ 1 = 256) by reflexivity. assert (P2 : 256 ^ 2 = 65536) by reflexivity.
  assert (P4 : 256 ^ 4 = 4294967296) by reflexivity.
  destruct Hin as [E|[E|[E|[E|[E|[]]]]]]; injection E as <- <- <- <- <-.
  - destruct (retype_run e s p m l 1 1 2 2 _ (fun x => x) He Hs Hc Hty eq_refl ltac:(lia) ltac:(lia) Hsz
                (byte_word e 2 _ (fun x => x) (fun x => x) ltac:(lia) ltac:(reflexivity) ltac:(auto)))
      as (p' & s' & E & Hr); [intros; lia|].
    exists p', s'. split; [exact E|]. revert Hr. apply retyped_weaken. intros x y [Hx ->].
    exists (x * sf_one). split; [reflexivity|]. unfold stored_num, int_value. cbn [Z.eqb Pos.eqb option_map].
    replace (x <? 32768) with true by lia. reflexivity.
  - destruct (retype_run e s p m l 1 1 3 4 _ (fun x => x) He Hs Hc Hty eq_refl ltac:(lia) ltac:(lia) Hsz
                (byte_word e 4 _ (fun x => x) (fun x => x) ltac:(lia) ltac:(reflexivity) ltac:(auto)))
      as (p' & s' & E & Hr); [intros; lia|].
    exists p', s'. split; [exact E|]. revert Hr. apply retyped_weaken. intros x y [Hx ->].
    exists (x * sf_one). split; [reflexivity|]. unfold stored_num, int_value. cbn [Z.eqb Pos.eqb option_map].
    replace (x <? 2147483648) with true by lia. reflexivity.
  - destruct (retype_run e s p m l 1 1 4 4 _ fbits He Hs Hc Hty eq_refl ltac:(lia) ltac:(lia) Hsz
                (byte_word e 4 _ fbits fbits ltac:(lia) ltac:(reflexivity) ltac:(auto)))
      as (p' & s' & E & Hr); [intros x Hx; rewrite P4; apply (fbits_ok x); lia|].
    exists p', s'. split; [exact E|]. revert Hr. apply retyped_weaken. intros x y [Hx ->].
    exists (x * sf_one). split; [reflexivity|]. apply fbits_ok. lia.
  - destruct (retype_run e s p m l 1 1 12 2 _ (fun x => x) He Hs Hc Hty eq_refl ltac:(lia) ltac:(lia) Hsz
                (byte_word e 2 _ (fun x => x) (fun x => x) ltac:(lia) ltac:(reflexivity) ltac:(auto)))
      as (p' & s' & E & Hr); [intros; lia|].
    exists p', s'. split; [exact E|]. revert Hr. apply retyped_weaken. intros x y [Hx ->].
    exists (x * sf_one). split; reflexivity.
  - destruct (retype_run e s p m l 2 12 4 4 _ fbits He Hs Hc Hty eq_refl ltac:(lia) ltac:(lia) Hsz
                (short_word e 4 _ fbits fbits ltac:(lia) ltac:(reflexivity) ltac:(auto)))
      as (p' & s' & E & Hr); [intros x Hx; rewrite P4; apply (fbits_ok x); lia|].
    exists p', s'. split; [exact E|]. revert Hr. apply retyped_weaken. intros x y [Hx ->].
    exists (x * sf_one). split; [reflexivity|]. apply fbits_ok. lia.
Qed.

Lemma widen_other e s p m ty es ty' es' f : In (ty, es, ty', es', f) widenings ->
  hm_at s p = Some m -> hm_type m <> ty -> f p e s = Exit.
Proof.
  intros Hin H1 H2. cbn [widenings In] in Hin.
  destruct Hin as [E|[E|[E|[E|[E|[]]]]]]; injection E as <- <- <- <- <-; eapply retype_other; eauto.
Qed.
Lemma widen_big e s p m l ty es ty' es' f : In (ty, es, ty', es', f) widenings ->
  cube s p m l es -> hm_type m = ty ->
  2147483647 < hm_samples m * hm_lines m * hm_bands m * es' -> f p e s = UB.
Proof.
  intros Hin H1 H2 H3. cbn [widenings In] in Hin.
  destruct Hin as [E|[E|[E|[E|[E|[]]]]]]; injection E as <- <- <- <- <-; eapply retype_big; eauto; reflexivity.
Qed.

(** C34. *)
Definition narrowings : list (Z * Z * (Z -> Z) * (ptr -> M ptr)) :=
  [ (3, 4, (fun z => z), hyper_mat_float2int);
    (1, 1, (fun z => if z >? 127 then 128 else Z.max (-127) z), hyper_mat_float2char);
    (2, 2, (fun z => z), hyper_mat_float2short);
    (12, 2, Z.max 0, hyper_mat_float2ushort);
    (1, 1, clamp 0 255, hyper_mat_float2uchar);
    (13, 4, Z.max 0, hyper_mat_float2uint) ].

Lemma narrow_run e s p m l ty' es' narrow narrow' body : env_ok e -> heap_ok s ->
  cube s p m l 4 -> hm_type m = 4 -> type_size ty' = Some es' -> es' = 1 \/ es' = 2 \/ es' = 4 ->
  maps_words e 4 es' (stored es' narrow) body -> (forall z, narrow' z = narrow z) ->
  exists p' s', retype_with 4 ty' body p e s = Ret p' s'
    /\ retyped s m l 4 ty' es'
         (fun x y => exists z, int_or_indefinite x z /\ y = narrow' z mod 256 ^ es') s' p'.
Proof.
  intros He Hs Hc Hty Ht Hes HM Hn.
  assert (Hb : hm_samples m * hm_lines m * hm_bands m * es' <= 2147483647).
  { destruct Hc as [Hh Ht' Hp Hty' HS HL HB Hsz Hws Hd Hw].
    assert (0 < hm_samples m * hm_lines m) by nia. nia. }
  destruct (retype_run e s p m l 4 4 ty' es' _ (stored es' narrow) He Hs Hc Hty Ht ltac:(lia) ltac:(lia) Hb HM)
    as (p' & s' & E & Hr).
  { intros. apply stored_range. lia. }
  exists p', s'. split; [exact E|]. revert Hr. apply retyped_weaken. intros x y [Hx ->].
  exists (cvt x). split; [apply ROUND_word; exact Hx|]. unfold stored. now rewrite Hn.
Qed.

Lemma narrow_ok e s p m l ty' es' narrow f : env_ok e -> heap_ok s ->
  In (ty', es', narrow, f) narrowings -> cube s p m l 4 -> hm_type m = 4 ->
  exists p' s', f p e s = Ret p' s'
    /\ retyped s m l 4 ty' es'
         (fun x y => exists z, int_or_indefinite x z /\ y = narrow z mod 256 ^ es') s' p'.
Proof.
  intros He Hs Hin Hc Hty. unfold narrowings in Hin. cbn [In] in Hin.
  destruct Hin as [E|[E|[E|[E|[E|[E|[]]]]]]]; injection E as <- <- <- <-.
  - eapply (narrow_run e s p m l 3 4 as_is); eauto. apply body_float2int.
  - eapply (narrow_run e s p m l 1 1 char_clip); eauto; [apply body_float2char|].
    intros z. unfold char_clip. destruct (Z.gtb_spec z 127); auto. destruct (Z.ltb_spec z (-127)); lia.
  - eapply (narrow_run e s p m l 2 2 as_is); eauto. apply body_float2short.
  - eapply (narrow_run e s p m l 12 2 (Z.max 0)); eauto. apply body_float2ushort.
  - eapply (narrow_run e s p m l 1 1 (clamp 0 255)); eauto. apply body_float2uchar.
  - eapply (narrow_run e s p m l 13 4 (Z.max 0)); eauto. apply body_float2uint.
Qed.

(** Where each conversion does what is asked of it: the nearest integer, clamped
    to the target range. *)
Definition narrow_domain : list (Z * Z * Z * Z * Z * Z * (Z -> Z) * (ptr -> M ptr)) :=
  [ (1, 1, 0, 255, -2147483648, 2147483647, (fun y => y), hyper_mat_float2uchar);
    (1, 1, -128, 127, -127, 127, signed_word 1, hyper_mat_float2char);
    (2, 2, -32768, 32767, -32768, 32767, signed_word 2, hyper_mat_float2short);
    (3, 4, -2147483648, 2147483647, -2147483648, 2147483647, signed_word 4, hyper_mat_float2int);
    (12, 2, 0, 65535, -2147483648, 65535, (fun y => y), hyper_mat_float2ushort);
    (13, 4, 0, 4294967295, -2147483648, 2147483647, (fun y => y), hyper_mat_float2uint) ].

Lemma narrow_good e s p m l ty' es' lo hi dlo dhi val f : env_ok e -> heap_ok s ->
  In (ty', es', lo, hi, dlo, dhi, val, f) narrow_domain -> cube s p m l 4 -> hm_type m = 4 ->
  exists p' s', f p e s = Ret p' s'
    /\ retyped s m l 4 ty' es'
         (fun x y => forall z, rounds_to x z -> dlo <= z <= dhi -> val y = clamp lo hi z) s' p'.
Proof.
  intros He Hs Hin Hc Hty.
  assert (G : exists narrow, In (ty', es', narrow, f) narrowings
     /\ forall z, dlo <= z <= dhi -> -2147483648 <= z <= 2147483647 /\ val (narrow z mod 256 ^ es') = clamp lo hi z).
  { unfold narrow_domain in Hin. cbn [In] in Hin. unfold narrowings. cbn [In].
    assert (P1 : 256 ^ 1 = 256) by reflexivity. assert (P2 : 256 ^ 2 = 65536) by reflexivity.
    assert (P4 : 256 ^ 4 = 4294967296) by reflexivity.
    assert (Q1 : 2 ^ (8 * 1 - 1) = 128) by reflexivity. assert (Q2 : 2 ^ (8 * 2 - 1) = 32768) by reflexivity.
    assert (Q4 : 2 ^ (8 * 4 - 1) = 2147483648) by reflexivity.
    assert (R1 : 2 ^ (8 * 1) = 256) by reflexivity. assert (R2 : 2 ^ (8 * 2) = 65536) by reflexivity.
    assert (R4 : 2 ^ (8 * 4) = 4294967296) by reflexivity.
    destruct Hin as [E|[E|[E|[E|[E|[E|[]]]]]]]; injection E as <- <- <- <- <- <- <- <-; eexists;
      (split; [solve [repeat (first [left; reflexivity | right])]|]); intros z Hz; (split; [lia|]); cbv beta; unfold signed_word;
      rewrite ?P1, ?P2, ?P4, ?Q1, ?Q2, ?Q4, ?R1, ?R2, ?R4; unfold clamp.
    - rewrite Z.mod_small; lia.
    - replace (z >? 127) with false by lia. rewrite (Z.max_r (-127) z) by lia.
      rewrite (Z.min_r 127 z), (Z.max_r (-128) z) by lia. destruct (Z.ltb_spec (z mod 256) 128); lia.
    - destruct (Z.ltb_spec (z mod 65536) 32768); lia.
    - destruct (Z.ltb_spec (z mod 4294967296) 2147483648); lia.
    - rewrite Z.mod_small; lia.
    - rewrite Z.mod_small; lia. }
  destruct G as (narrow & Hn & G).
  destruct (narrow_ok e s p m l ty' es' narrow f He Hs Hn Hc Hty) as (p' & s' & E & Hr).
  exists p', s'. split; [exact E|]. revert Hr. apply retyped_weaken. intros x y (z & Hz & ->) z' Hz' Hd.
  destruct (G z' Hd) as [Hi Gz]. rewrite (indefinite_unique x z z'); auto.
Qed.

(** ** Simple matrices *)

Lemma newsm_retyped e s p m es ty' es' g (R : Z -> Z -> Prop) q sz d dd : heap_ok s -> image s p m es ->
  type_size ty' = Some es' -> 0 < es -> 0 < es' ->
  sm_rows m * sm_cols m * es' * sm_chan m + 96 <= 2147483647 ->
  sm_data m = Some q -> isb s q sz d -> sm_rows m * sm_cols m * es * sm_chan m <= sz ->
  (forall x, 0 <= x < 256 ^ es -> 0 <= g x < 256 ^ es') ->
  (forall x, 0 <= x < 256 ^ es -> R x (g x)) ->
  (forall x, 0 <= x < sm_rows m * sm_cols m * sm_chan m * es' ->
     dd x mod 256 = elems es' (fun i => g (word d (i * es) (Z.to_nat es))) x) ->
  retyped_matrix s m es ty' es' R
    (newsm e s (sm_rows m) (sm_cols m) ty' es' (sm_chan m) dd) (Some (List.length (objs s))).
Proof.
  intros Hs IM Hty Hes Hes' Hsz Eq Hq Hnq Hg HR A.
  destruct IM as [Hh Hty0 HRo HC Hch Hsz0 Hd].
  exists (newsm_hdr s (sm_rows m) (sm_cols m) ty' es' (sm_chan m)).
  split; [apply newsm_image; auto|].
  split; [eexists; split; [reflexivity|lia]|]. split; [eexists; split; [reflexivity|lia]|].
  do 4 (split; [reflexivity|]).
  split; [|split; [apply newsm_old_unchanged|split; [reflexivity|now apply newsm_heap_ok]]].
  intros i j k (Hi & Hj & Hk). unfold pixel_word. cbn [newsm_hdr sm_rows sm_cols sm_chan sm_data].
  set (o := (i * sm_cols m + j) * sm_chan m + k).
  assert (Ho : 0 <= o < sm_rows m * sm_cols m * sm_chan m).
  { unfold o. assert (0 <= i * sm_cols m + j < sm_rows m * sm_cols m) by nia. nia. }
  clearbody o. rewrite Eq. clear Hi Hj Hk.
  exists (word d (o * es) (Z.to_nat es)), (g (word d (o * es) (Z.to_nat es))).
  pose proof (word_range d (Z.to_nat es) (o * es)) as Hr. rewrite Z2Nat.id in Hr by lia.
  set (N := sm_rows m * sm_cols m * sm_chan m) in *.
  assert (E1 : sm_rows m * sm_cols m * es * sm_chan m = N * es) by (unfold N; ring).
  assert (E2 : sm_rows m * sm_cols m * es' * sm_chan m = N * es') by (unfold N; ring).
  rewrite (word_at_isb s q sz d) by (auto; rewrite ?Z2Nat.id by lia; nia).
  rewrite (word_at_isb _ _ _ _ _ (newsm_data e s (sm_rows m) (sm_cols m) ty' es' (sm_chan m) dd))
    by (rewrite ?Z2Nat.id by lia; nia).
  split; [reflexivity|]. split; [|auto].
  rewrite (word_elems dd es' (fun i => g (word d (i * es) (Z.to_nat es))) o); auto.
  intros p0 Hp0. apply A. nia.
Qed.

Definition sm_clip (z : Z) : Z := if z <=? 255 then z else 255.

Lemma wr_store_twice e s0 q N d g i v : isb s0 q N d -> 0 <= i -> (i + 1) * 1 <= N ->
  v mod 256 = g i mod 256 ->
  wr e s0 q (store8 (Some q) i v ;;; y <- load8 (Some q) i ;; store8 (Some q) i (if y >=? 0 then y else 0))
    (fun p => i * 1 <= p < (i + 1) * 1) (elems 1 g).
Proof.
  intros H Hi Hn Hv f.
  pose proof (elems_at 1 g i 0 ltac:(lia)) as E. rewrite byte_of_0 in E. replace (i * 1 + 0) with i in E by lia.
  exists (fupd (fupd f i (v mod 256)) i (v mod 256)). split; [|split; [|split]].
  - rewrite (bind_ret _ _ _ _ _ _ (store8_ok e (putd s0 q f) q N f i v (isb_putd_eq _ _ _ _ _ H) ltac:(lia))).
    rewrite putd_putd.
    rewrite (bind_ret _ _ _ _ _ _ (load8_ok e _ q N _ i (isb_putd_eq _ _ _ _ _ H) ltac:(lia))).
    assert (EF : fupd f i (v mod 256) i = v mod 256) by (unfold fupd; now rewrite Z.eqb_refl). rewrite !EF.
    replace (v mod 256 mod 256 >=? 0) with true by lia.
    rewrite (store8_ok e _ q N _ i _ (isb_putd_eq _ _ _ _ _ H) ltac:(lia)). rewrite putd_putd.
    rewrite !Z.mod_mod by lia. reflexivity.
  - intros p Hp. assert (p = i) as -> by lia. unfold fupd. rewrite Z.eqb_refl. lia.
  - intros p. unfold fupd. destruct (Z.eqb_spec p i) as [->|]; [left; lia|auto].
  - intros p Hp. unfold fupd. destruct (Z.eqb_spec p i) as [->|]; [lia|auto].
Qed.

Lemma sm_uchar_run e s p m : env_ok e -> heap_ok s -> image s p m 4 -> sm_type m = 4 ->
  exists p' s', simple_mat_float2uchar p e s = Ret p' s'
    /\ retyped_matrix s m 4 1 1
         (fun x y => exists z, int_or_indefinite x z /\ y = Z.min 255 z mod 256) s' p'.
Proof.
  intros He Hs IM Hty. pose proof (image_pos _ _ _ _ IM) as (P0 & P1 & P2 & P3). pose proof IM as IM0.
  destruct IM as [Hh Hty0 HR HC Hch Hsz Hd].
  assert (Hn : nonnull p = true) by (destruct p; [reflexivity|discriminate Hh]).
  unfold simple_mat_float2uchar. rewrite bind_assert by auto. runs (sget_ok _ _ e _ Hh).
  rewrite bind_assert by lia.
  set (R := sm_rows m) in *. set (C := sm_cols m) in *. set (ch := sm_chan m) in *. set (k := List.length (objs s)).
  assert (Hrc : 0 < R * C) by nia.
  assert (E0 : R * C * 4 * ch = R * C * ch * 4) by ring.
  destruct (create_sm_run e s R C 1 1 ch) as (d0 & E & _); auto; try lia.
  runs E. fold k. pose proof (newsm_at e s R C 1 1 ch d0) as Hn1. fold k in Hn1. runs (sget_ok _ _ e _ Hn1).
  cbn [newsm_hdr sm_data]. fold k.
  assert (E1 : (R * C * ch)%C = Some (R * C * ch)).
  { unfold ci. rewrite (cmul_ok R C) by nia. apply cmul_ok. nia. }
  runs (ev_ok _ _ e (newsm e s R C 1 1 ch d0) E1).
  apply readable_isb in Hd as (q & sz & d & Eq & Hq & Hnq). rewrite Eq.
  assert (Hq1 : isb (newsm e s R C 1 1 ch d0) q sz d) by (apply newsm_old; auto).
  assert (Hqk : q <> (k + 1)%nat) by (eapply isb_old_ne; eauto).
  pose proof (newsm_data e s R C 1 1 ch d0) as H2. fold k in H2.
  assert (W : wr e (newsm e s R C 1 1 ch d0) (k + 1)%nat
    (for_ 0 (R * C * ch) (fun i => x <- loadf (Some q) i ;; let r := HYPERCV_ROUND (db_of_fl x) in
          store8 (Some (k + 1)%nat) i (if r <=? 255 then r else 255) ;;;
          y <- load8 (Some (k + 1)%nat) i ;;
          store8 (Some (k + 1)%nat) i (if y >=? 0 then y else 0)))
    (fun p => 0 <= p < R * C * ch * 1)
    (elems 1 (fun i => stored 1 (Z.min 255) (word d (i * 4) (Z.to_nat 4))))).
  { apply wr_elems; [lia|]. intros i Hi. eapply wr_bind; [eapply rdv_loadf; eauto; lia|]. cbv zeta.
    eapply wr_store_twice; eauto; [lia|lia|].
    unfold stored. change (256 ^ 1) with 256. rewrite Z.mod_mod by lia. f_equal.
    change (Z.to_nat 4) with 4%nat. rewrite (Z.mul_comm 4 i). unfold cvt.
    match goal with |- (if ?z <=? 255 then _ else _) = _ => destruct (Z.leb_spec z 255); lia end. }
  destruct (wr_run _ _ _ _ _ _ _ _ H2 W) as (dd & E2 & A & _).
  runs E2. unfold k at 1. rewrite newsm_putd. fold k.
  eexists _, _. split; [reflexivity|].
  eapply (newsm_retyped e s p m 4 1 1 (stored 1 (Z.min 255)) _ q sz d dd); eauto; try lia.
  - intros. apply stored_range. lia.
  - intros x Hx. exists (cvt x). split; [apply ROUND_word; exact Hx|reflexivity].
Qed.

Lemma retyped_matrix_weaken s m es ty' es' (R R' : Z -> Z -> Prop) s' p' :
  (forall x y, R x y -> R' x y) -> retyped_matrix s m es ty' es' R s' p' -> retyped_matrix s m es ty' es' R' s' p'.
Proof.
  intros H (m' & H1 & H2 & H3 & H4 & H5 & H6 & H7 & H8 & H9). exists m'.
  repeat (split; [assumption|]). split; [|assumption].
  intros i j k Hi. destruct (H8 i j k Hi) as (x & y & A & B & C). exists x, y. auto.
Qed.

Lemma sm_uchar_good e s p m : env_ok e -> heap_ok s -> image s p m 4 -> sm_type m = 4 ->
  exists p' s', simple_mat_float2uchar p e s = Ret p' s'
    /\ retyped_matrix s m 4 1 1
         (fun x y => forall z, rounds_to x z -> 0 <= z <= 2147483647 -> y = clamp 0 255 z) s' p'.
Proof.
  intros He Hs IM Hty. destruct (sm_uchar_run e s p m He Hs IM Hty) as (p' & s' & E & Hr).
  exists p', s'. split; [exact E|]. revert Hr. apply retyped_matrix_weaken.
  intros x y (z & Hz & ->) z' Hz' Hd. rewrite (indefinite_unique x z z') by (auto; lia).
  unfold clamp. rewrite Z.mod_small; lia.
Qed.
