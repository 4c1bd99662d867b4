(** * Proofs: addition, splicing, reshaping, structuring elements, strings. *)
From Verif Require Import Base Logic ModelCore ModelImage SpecBase SpecCore SpecImage SpecImage2 ProofCore ProofLayout ProofHM ProofCopy ProofImage2 ProofCore2 ProofImage3.
From Coq Require Import String ZifyBool ZifyNat.
Ltac Zify.zify_post_hook ::= Z.div_mod_to_equations.
Open Scope Z_scope.

(** ** C22 *)

Definition rd (p q : nat) (d f : Z -> Z) : Z -> Z := if Nat.eq_dec p q then f else d.

Lemma load8_any e s0 p n d q nq dq f i : isb s0 p n d -> isb s0 q nq dq -> 0 <= i < n ->
  load8 (Some p) i e (putd s0 q f) = Ret (rd p q d f i mod 256) (putd s0 q f).
Proof.
  intros Hp Hq Hi. unfold rd. destruct (Nat.eq_dec p q) as [-> | Hne].
  - apply load8_ok with (n := nq); [eapply isb_putd_eq; eauto|].
    unfold isb in *. rewrite Hp in Hq. injection Hq as -> ->. auto.
  - apply load8_ok with (n := n); auto. apply isb_putd_ne; auto.
Qed.

(** Index arithmetic of a pixel with channels: (i*C + j)*ch + k. *)
Lemma pix_index R C ch i j k : 0 <= i < R -> 0 <= j < C -> 0 <= k < ch ->
  0 <= (i * C + j) * ch + k < R * C * ch.
Proof. intros. assert (0 <= i * C + j < R * C) by nia. nia. Qed.

Lemma pix_index_inj C ch i j k i' j' k' : 0 <= j < C -> 0 <= k < ch -> 0 <= j' < C -> 0 <= k' < ch ->
  (i * C + j) * ch + k = (i' * C + j') * ch + k' -> i = i' /\ j = j' /\ k = k'.
Proof.
  intros Hj Hk Hj' Hk' E.
  destruct (radix2 (i * C + j) k ch Hk) as [D1 M1]. destruct (radix2 (i' * C + j') k' ch Hk') as [D2 M2].
  rewrite E in D1, M1. assert (E' : i * C + j = i' * C + j') by congruence.
  destruct (radix2 i j C Hj) as [D3 M3]. destruct (radix2 i' j' C Hj') as [D4 M4].
  rewrite E' in D3, M3. repeat split; congruence.
Qed.

Lemma mapw_store e s0 q n d p v f i w (h : Z -> Z -> Z) :
  isb s0 q n d -> 0 <= i < n -> v = h i (f i mod 256) -> p = Some q -> w = v ->
  exists f', store8 p i w e (putd s0 q f) = Ret tt (putd s0 q f')
    /\ f' i mod 256 = h i (f i mod 256) mod 256 /\ (forall x, x <> i -> f' x = f x).
Proof.
  intros Hq Hi -> -> ->. exists (fupd f i (h i (f i mod 256) mod 256)).
  split. { rewrite (store8_ok e _ _ n f); auto; [|eapply isb_putd_eq; eauto]. now rewrite putd_putd. }
  unfold fupd. split; [rewrite Z.eqb_refl, Z.mod_mod; lia|].
  intros x Hx. now replace (x =? i) with false by lia.
Qed.

(** A triple loop over rows, columns and channels that overwrites element
    (i*C+j)*ch+k with a function of the old value there. *)
Lemma mapw_pixels e s0 q body R C ch h :
  0 < C -> 0 < ch ->
  (forall i j k, 0 <= i < R -> 0 <= j < C -> 0 <= k < ch ->
     mapw e s0 q (body i j k) (fun x => x = (i * C + j) * ch + k) h) ->
  mapw e s0 q (for_ 0 R (fun i => for_ 0 C (fun j => for_ 0 ch (fun k => body i j k))))
    (fun x => 0 <= x < R * C * ch) h.
Proof.
  intros HC Hch H. eapply mapw_iff.
  - apply mapw_for with (P := fun i x => exists j, 0 <= j < C /\ exists k, 0 <= k < ch /\ x = (i * C + j) * ch + k).
    + intros i Hi.
      apply mapw_for with (P := fun j x => exists k, 0 <= k < ch /\ x = (i * C + j) * ch + k).
      * intros j Hj. apply mapw_for with (P := fun k x => x = (i * C + j) * ch + k).
        -- intros k Hk. apply H; auto.
        -- intros k k' x Hk Hk' -> E. lia.
      * intros j j' x Hj Hj' (k & Hk & ->) (k' & Hk' & E).
        destruct (pix_index_inj C ch i j k i j' k') as (_ & ? & _); auto.
    + intros i i' x Hi Hi' (j & Hj & k & Hk & ->) (j' & Hj' & k' & Hk' & E).
      destruct (pix_index_inj C ch i j k i' j' k') as (? & _ & _); auto.
  - intros x. cbv beta. split.
    + intros (i & Hi & j & Hj & k & Hk & ->). now apply pix_index.
    + intros Hx. exists (x / ch / C). assert (0 <= x / ch < R * C) by nia.
      assert (0 <= x / ch / C < R) by nia. split; auto. exists (x / ch mod C).
      split; [apply Z.mod_pos_bound; auto|]. exists (x mod ch). split; [apply Z.mod_pos_bound; auto|].
      pose proof (Z.div_mod x ch ltac:(lia)). pose proof (Z.div_mod (x / ch) C ltac:(lia)). nia.
Qed.

Lemma addition_run e s p1 m1 p2 m2 d md :
  image s p1 m1 1 -> image s p2 m2 1 -> image s d md 1 ->
  sm_cols m1 = sm_cols md -> sm_cols m2 = sm_cols md ->
  sm_chan m1 = sm_chan md -> sm_chan m2 = sm_chan md ->
  Z.min (sm_rows m1) (sm_rows m2) <= sm_rows md ->
  exists s', simple_mat_addition_uchar p1 p2 d e s = Ret tt s' /\ summed s m1 m2 md s'
    /\ (forall x, Z.min (sm_rows m1) (sm_rows m2) * sm_cols md * sm_chan md <= x ->
          byte_at s' (sm_data md) x = byte_at s (sm_data md) x)
    /\ written s (sm_data md) s'.
Proof.
  intros I1 I2 Id C1 C2 Ch1 Ch2 HR.
  destruct I1 as [H1 T1 R1 Co1 Cc1 S1 D1]. destruct I2 as [H2 T2 R2 Co2 Cc2 S2 D2].
  destruct Id as [Hd Td Rd Cod Ccd Sd Dd].
  rewrite C1, C2, Ch1, Ch2, !Z.mul_1_r in *.
  set (C := sm_cols md) in *. set (ch := sm_chan md) in *.
  set (R := Z.min (sm_rows m1) (sm_rows m2)) in *.
  apply readable_isb in D1 as (q1 & n1 & g1 & E1 & B1 & N1).
  apply readable_isb in D2 as (q2 & n2 & g2 & E2 & B2 & N2).
  apply readable_isb in Dd as (q & n & g & Eq & Bq & Nq).
  assert (0 < C * ch) by nia.
  assert (R * C * ch <= sm_rows m1 * C * ch) by nia.
  assert (R * C * ch <= sm_rows m2 * C * ch) by nia.
  assert (R * C * ch <= sm_rows md * C * ch) by nia.
  destruct (sm_nonnull _ _ _ H1) as (k1 & ->). destruct (sm_nonnull _ _ _ H2) as (k2 & ->).
  destruct (sm_nonnull _ _ _ Hd) as (kd & ->).
  unfold simple_mat_addition_uchar. rewrite bind_assert by reflexivity.
  runs (sget_ok _ _ e _ H1). runs (sget_ok _ _ e _ H2).
  rewrite bind_assert by lia. cbv zeta. runs (sget_ok _ _ e _ Hd).
  replace (if sm_rows m1 >=? sm_rows m2 then sm_rows m2 else sm_rows m1) with R by (unfold R; destruct (sm_rows m1 >=? sm_rows m2) eqn:?; lia).
  replace (if sm_cols m1 >=? sm_cols m2 then sm_cols m2 else sm_cols m1) with C by (destruct (sm_cols m1 >=? sm_cols m2) eqn:?; lia).
  rewrite Ch1. fold ch. rewrite E1, E2, Eq.
  set (h := fun x v => (rd q1 q g1 (fun _ => v) x mod 256 + rd q2 q g2 (fun _ => v) x mod 256) mod 256).
  match goal with |- exists s', ?P e s = _ /\ _ => assert (W : mapw e s q P (fun x => 0 <= x < R * C * ch) h) end.
  { apply mapw_pixels; auto. intros i j k Hi Hj Hk f.
    pose proof (pix_index R C ch i j k Hi Hj Hk) as PI.
    assert (i * C + j < R * C) by nia. assert (0 <= i * C) by nia. assert (i * C * ch <= (i * C + j) * ch) by nia.
    assert (0 <= j * ch) by nia. assert (i * C <= i * C * ch) by nia.
    assert (EI : (i * C * ch + j * ch + k)%C = Some ((i * C + j) * ch + k)).
    { unfold ci. rewrite (cmul_ok i C), (cmul_ok (i * C) ch), (cmul_ok j ch) by nia.
      rewrite (cadd_ok (i * C * ch)) by nia. rewrite cadd_ok by nia. f_equal. ring. }
    set (x := (i * C + j) * ch + k) in *.
    destruct (mapw_store e s q n g (Some q) (rd q1 q g1 f x mod 256 + rd q2 q g2 f x mod 256) f x
               (rd q1 q g1 f x mod 256 + rd q2 q g2 f x mod 256)
               (fun x v => rd q1 q g1 (fun _ => v) x mod 256 + rd q2 q g2 (fun _ => v) x mod 256)) as (f' & X & A & B); auto; try lia.
    { cbv beta. unfold rd. destruct (Nat.eq_dec q1 q), (Nat.eq_dec q2 q); rewrite ?Z.mod_mod by lia; auto. }
    exists f'. split; [|split].
    - rewrite EI. cbn [ev]. rewrite (bind_ret _ _ _ _ _ _ (ev_ok (Some x) x e _ eq_refl)).
      runs (load8_any e s q1 n1 g1 q n g f x B1 Bq ltac:(lia)).
      runs (load8_any e s q2 n2 g2 q n g f x B2 Bq ltac:(lia)). exact X.
    - intros p ->. rewrite A. reflexivity.
    - auto. }
  destruct (mapw_run _ _ _ _ _ _ _ _ Bq W) as (f' & X & A & B).
  eexists. split; [exact X|]. split; [|split; [|eapply written_putd; eauto]].
  - intros i j k Hi Hj Hk. fold R in Hi. rewrite C1, C2, Z.min_id in Hj. fold C ch in Hj, Hk.
    pose proof (pix_index R C ch i j k Hi Hj Hk) as PI.
    unfold pix, pixel_byte. rewrite C1, C2, Ch1, Ch2, E1, E2, Eq. fold C ch.
    rewrite !Z.mul_1_r, !Z.add_0_r.
    rewrite (byte_at_isb _ _ _ _ _ B1), (byte_at_isb _ _ _ _ _ B2) by lia.
    do 2 eexists. split; [reflexivity|]. split; [reflexivity|].
    rewrite (byte_at_putd_eq _ _ _ _ _ _ Bq), inb_true by lia. rewrite A by auto.
    f_equal. unfold h, rd. destruct (Nat.eq_dec q1 q) as [-> |], (Nat.eq_dec q2 q) as [-> |];
      repeat match goal with
      | H : isb s ?a _ ?x, H' : isb s ?a _ ?y |- _ =>
          first [ constr_eq x y; fail 1 | assert (x = y) by (unfold isb in H, H'; congruence); subst; clear H' ]
      end; rewrite ?Z.mod_mod by lia; auto.
  - intros x Hx. rewrite (byte_at_putd_eq _ _ _ _ _ _ Bq), (byte_at_isb_all _ _ _ _ _ Bq).
    rewrite B by lia. reflexivity.
Qed.

(** ** C23 *)

Lemma splicing_run e s p m l r mp l' es start :
  cube s p m l es -> cube s r mp l' es -> hm_type m = hm_type mp -> hm_data mp <> hm_data m ->
  0 <= start ->
  start + hm_samples mp * hm_lines mp * hm_bands mp <= hm_samples m * hm_lines m * hm_bands m ->
  exists s', hyper_mat_splicing p r start e s = Ret tt s'
    /\ spliced s (hm_data m) (hm_data mp) es start (hm_samples mp * hm_lines mp * hm_bands mp) s'.
Proof.
  intros [Hh Ht Hp Hty HS HL HB Hsz Hws Hd Hw] [Hh' Ht' Hp' Hty' HS' HL' HB' Hsz' Hws' Hd' Hw'] ET Hne Hst Hn.
  assert (Hes := type_size_range _ _ Hty).
  set (N := hm_samples m * hm_lines m * hm_bands m) in *.
  assert (P1 : 0 < hm_samples mp * hm_lines mp) by nia.
  assert (P2 : 0 < hm_samples mp * hm_lines mp * hm_bands mp) by nia.
  assert (P3 : hm_samples mp * hm_lines mp <= hm_samples mp * hm_lines mp * hm_bands mp) by nia.
  set (n := hm_samples mp * hm_lines mp * hm_bands mp) in *.
  assert (n <= n * es) by nia. assert ((start + n) * es <= N * es) by nia. assert (0 <= start * es) by nia.
  assert (start * es + n * es <= N * es) by nia.
  apply readable_isb in Hd as (q & sz & f & Eq & Hq & Hnq).
  apply readable_isb in Hd' as (w & szw & g & Ew & Hwq & Hnw).
  unfold hyper_mat_splicing. runs (hget_ok _ _ e _ Hh). runs (hget_ok _ _ e _ Hh').
  rewrite bind_assert by lia. rewrite (type_size_elemsize _ _ Hty).
  erewrite bind_ret; [|apply ev_ok; apply cmul_ok; lia].
  erewrite bind_ret; [|apply ev_ok; unfold ci; rewrite (cmul_ok (hm_samples mp)) by lia; rewrite (cmul_ok (hm_samples mp * hm_lines mp)) by lia; fold n; apply cmul_ok; lia].
  rewrite Eq, Ew. assert (w <> q) by congruence.
  eexists. split. { apply (memcpy_ok e s q sz f w szw g); auto; nia. }
  split; [|split; [|apply only_written_putd]].
  - intros i t Hi Htt. assert (0 <= i * es + t < n * es) by nia.
    rewrite (byte_at_putd_eq _ _ _ _ _ _ Hq), inb_true by nia.
    replace ((start * es <=? (start + i) * es + t) && ((start + i) * es + t <? start * es + n * es)) with true by nia.
    rewrite (byte_at_isb _ _ _ _ _ Hwq) by lia. do 3 f_equal. ring.
  - intros x Hx. rewrite (byte_at_putd_eq _ _ _ _ _ _ Hq), (byte_at_isb_all _ _ _ _ _ Hq).
    replace ((start * es <=? x) && (x <? start * es + n * es)) with false by nia. reflexivity.
Qed.

Lemma splicing_overrun e s p m l r mp l' es start q f :
  cube s p m l es -> cube s r mp l' es -> hm_type m = hm_type mp ->
  bytes_at s (hm_data m) = Some (q, hm_samples m * hm_lines m * hm_bands m * es, f) ->
  start < 0 \/ hm_samples m * hm_lines m * hm_bands m < start + hm_samples mp * hm_lines mp * hm_bands mp ->
  hyper_mat_splicing p r start e s = UB.
Proof.
  intros [Hh Ht Hp Hty HS HL HB Hsz Hws Hd Hw] [Hh' Ht' Hp' Hty' HS' HL' HB' Hsz' Hws' Hd' Hw'] ET Hq Hn.
  assert (Hes := type_size_range _ _ Hty).
  set (N := hm_samples m * hm_lines m * hm_bands m) in *.
  assert (P1 : 0 < hm_samples mp * hm_lines mp) by nia.
  assert (P3 : hm_samples mp * hm_lines mp <= hm_samples mp * hm_lines mp * hm_bands mp) by nia.
  set (n := hm_samples mp * hm_lines mp * hm_bands mp) in *.
  assert (n <= n * es) by nia.
  unfold hyper_mat_splicing. runs (hget_ok _ _ e _ Hh). runs (hget_ok _ _ e _ Hh').
  rewrite bind_assert by lia. rewrite (type_size_elemsize _ _ Hty).
  match goal with |- bind (ev ?c) ?k e ?st = _ => destruct (ev_cases c k e st) as [(off & Eo & X)|X]; rewrite X; auto end.
  apply cop_some in Eo as (? & ? & [= <-] & [= <-] & ->). clear X.
  erewrite bind_ret; [|apply ev_ok; unfold ci; rewrite (cmul_ok (hm_samples mp)) by lia; rewrite (cmul_ok (hm_samples mp * hm_lines mp)) by lia; fold n; apply cmul_ok; lia].
  unfold memcpy. rewrite Hq. destruct (bytes_at s (hm_data mp)) as [((? & ?) & ?)|]; auto.
  destruct Hn as [Hn|Hn].
  - assert (start * es < 0) by nia. replace (0 <=? start * es) with false by lia.
    now rewrite andb_false_r.
  - assert (N * es < start * es + n * es) by nia.
    replace (start * es + n * es <=? N * es) with false by lia. now rewrite !andb_false_r.
Qed.

(** ** C64 *)

Lemma reshape_run e s p m es : env_ok e -> heap_ok s ->
  cube s p m BIP es ->
  hm_samples m * hm_lines m * hm_bands m * es + 96 <= 2147483647 ->
  exists p' s', reshape_hypermat_2_simplemat p (hm_samples m * hm_lines m) (hm_bands m) e s = Ret p' s'
    /\ pixels_by_bands s m es s' p'.
Proof.
  intros He Hs [Hh Ht Hp Hty HS HL HB Hsz Hws Hd Hw] Hn.
  assert (Hes := type_size_range _ _ Hty).
  set (S := hm_samples m) in *. set (L := hm_lines m) in *. set (B := hm_bands m) in *.
  assert (0 < S * L) by nia. assert (S * L <= S * L * B) by nia.
  assert (0 < S * L * B) by nia. assert (S * L * B <= S * L * B * es) by nia.
  apply readable_isb in Hd as (q & sz & f & Eq & Hq & Hnq).
  unfold reshape_hypermat_2_simplemat. runs (hget_ok _ _ e _ Hh). fold S L B.
  erewrite bind_ret; [|apply ev_ok; unfold ci; rewrite (cmul_ok S L) by lia; apply cmul_ok; lia].
  erewrite bind_ret; [|apply ev_ok; apply cmul_ok; lia].
  rewrite bind_assert by lia.
  destruct (create_sm_run e s (S * L) B (hm_type m) es 1) as (dd & E & _); auto; try lia.
  runs E. set (k := List.length (objs s)).
  pose proof (newsm_at e s (S * L) B (hm_type m) es 1 dd) as N1.
  pose proof (newsm_data e s (S * L) B (hm_type m) es 1 dd) as N2. fold k in N1, N2.
  runs (sget_ok _ _ e _ N1). cbn [newsm_hdr sm_esize sm_data]. fold k.
  erewrite bind_ret; [|apply ev_ok; unfold ci; rewrite (cmul_ok (S * L) B) by lia; apply cmul_ok; lia].
  rewrite Eq.
  erewrite bind_ret; [|apply (memcpy_ok e _ (k + 1) (S * L * B * es * 1) dd q sz f); auto; try lia;
     [apply newsm_old; auto | eapply isb_old_ne; eauto]].
  unfold k at 1. rewrite newsm_putd. fold k.
  set (dd' := fun i => if (0 <=? i) && (i <? 0 + S * L * B * es) then f (i - 0 + 0) else dd i).
  do 2 eexists. split; [reflexivity|].
  exists (newsm_hdr s (S * L) B (hm_type m) es 1).
  split; [apply newsm_image; auto; lia|]. do 4 (split; [reflexivity|]).
  split; [|split; [exists k; auto|]].
  - intros i j b t (Hi & Hj & Hk) Htt. unfold pixel_byte, sample_byte. fold S L B in Hi, Hj, Hk |- *.
    cbn [newsm_hdr sm_cols sm_chan sm_data]. fold k.
    rewrite Eq. pose proof (offset_range BIP S L B i j b Hi Hj Hk) as O.
    pose proof (byte_range _ _ es t O Htt) as O'.
    replace ((((i * S + j) * B + b) * 1 + 0) * es + t) with (offset BIP S L B i j b * es + t) by (cbn; ring).
    rewrite (byte_at_isb _ _ _ _ _ (newsm_data e s (S * L) B (hm_type m) es 1 dd')) by lia.
    rewrite (byte_at_isb _ _ _ _ _ Hq) by lia. unfold dd'.
    match goal with |- Some ((if ?b then _ else _) mod _) = _ => replace b with true by lia end.
    do 3 f_equal. lia.
  - split; [exists (k + 1)%nat; split; [reflexivity|lia]|].
    split; [apply newsm_old_unchanged|]. split; [reflexivity|apply newsm_heap_ok; auto].
Qed.

(** ** C65 *)

Lemma create_2D_run e s w h : 1 <= w -> 1 <= h -> w * h <= 2147483647 ->
  exists f, create_2D_struct w h e s =
    Ret (Some (List.length (objs s) + 1)%nat)
      (let k := List.length (objs s) in
       mkSt (objs s ++ [ mkObj (e_addr e k) (w * h) k true (CBytes f);
                         mkObj (e_addr e (k + 1)) 16 (k + 1) true (CS2 (mkS2 w h (Some k))) ]) (files s))
    /\ forall i, 0 <= i < w * h -> f i mod 256 = 1.
Proof.
  intros Hw Hh Hn. set (k := List.length (objs s)). unfold create_2D_struct. rewrite bind_assert by lia.
  assert (0 < w * h) by nia.
  erewrite bind_ret; [|apply ev_ok; apply cmul_ok; lia].
  erewrite bind_ret; [|unfold malloc; change (2 ^ 62) with 4611686018427387904;
    replace ((0 <=? w * h) && (w * h <? 4611686018427387904)) with true by lia; reflexivity].
  fold k. set (s1 := mkSt (objs s ++ [mkObj (e_addr e k) (w * h) k true (CBytes (e_junk e k))]) (files s)).
  assert (B1 : isb s1 k (w * h) (e_junk e k)).
  { eapply obj_isb. unfold s1, k; cbn. rewrite nth_error_app_new0. reflexivity. }
  assert (W : wr e s1 k (for_ 0 (w * h) (fun i => store8 (Some k) i 1))
                (fun x => exists i, 0 <= i < w * h /\ x = i) (fun _ => 1)).
  { apply wr_for. intros i Hi. eapply wr_store8; eauto. }
  destruct (wr_run _ _ _ _ _ _ _ _ B1 W) as (f & E & A & _).
  runs E. exists f. split; [|intros i Hi; apply A; eauto].
  unfold create_2D_struct_with_data. rewrite bind_assert by lia.
  unfold s1, putd, k. cbn [objs files]. rewrite lupd_app_new0. cbn [lupd set_bytes o_addr o_size o_root o_live].
  fold k. erewrite bind_ret; [|reflexivity]. cbn [objs files].
  rewrite app_length. cbn [List.length]. fold k.
  rewrite bind_assert by reflexivity.
  unfold bind, set_header. cbn [objs]. rewrite <- app_assoc. cbn [app].
  unfold k at 5. rewrite (nth_error_app_new (objs s) _ 1). cbn [nth_error o_live].
  unfold ret. f_equal. unfold putc. cbn [objs files]. f_equal. unfold k at 1.
  rewrite lupd_app_new. reflexivity.
Qed.

Lemma create_2D_ok e s w h : 1 <= w -> 1 <= h -> w * h <= 2147483647 ->
  exists p s', create_2D_struct w h e s = Ret p s' /\ all_ones s' p w h
    /\ fresh_in s p /\ old_unchanged s s' /\ files s' = files s.
Proof.
  intros Hw Hh Hn. destruct (create_2D_run e s w h) as (f & E & A); auto.
  do 2 eexists. split; [exact E|]. split; [|split; [eexists; split; [reflexivity|lia]|split; [|reflexivity]]].
  - exists (mkS2 w h (Some (List.length (objs s)))).
    split; [unfold s2_at; cbn; rewrite (nth_error_app_new _ _ 1); reflexivity|].
    split; [reflexivity|]. split; [reflexivity|]. intros i Hi.
    cbn [s2_data]. erewrite byte_at_isb; [rewrite A by auto; reflexivity| |exact Hi].
    eapply obj_isb. cbn [objs]. rewrite nth_error_app_new0. reflexivity.
  - intros k Hk. cbn. now rewrite nth_error_app1.
Qed.

Lemma create_2D_bad e s w h : w < 1 \/ h < 1 -> create_2D_struct w h e s = Exit.
Proof. intros H. unfold create_2D_struct. apply bind_assert_false. lia. Qed.

Lemma delete_2D_leaks e s w h : 1 <= w -> 1 <= h -> w * h <= 2147483647 -> heap_ok s ->
  exists p s1 m s2 o, create_2D_struct w h e s = Ret p s1 /\ s2_at s1 p = Some m
    /\ delete_S_2D p e s1 = Ret tt s2 /\ released [p] s1 s2
    /\ block s2 (s2_data m) = Some o /\ o_live o = true /\ fresh_in s (s2_data m).
Proof.
  intros Hw Hh Hn Hs. destruct (create_2D_run e s w h) as (f & E & A); auto.
  set (k := List.length (objs s)) in *.
  eexists _, _, (mkS2 w h (Some k)), _, (mkObj (e_addr e k) (w * h) k true (CBytes f)).
  split; [exact E|]. cbv zeta.
  split; [unfold s2_at; cbn; unfold k; rewrite (nth_error_app_new _ _ 1); reflexivity|].
  unfold delete_S_2D. cbn [nonnull].
  split.
  { eapply free_ok; cbn [objs]; unfold k; [rewrite (nth_error_app_new _ _ 1); reflexivity|reflexivity|reflexivity]. }
  split; [apply released_one|].
  split; [|split; [reflexivity|exists k; auto]].
  cbn [s2_data block objs]. rewrite nth_error_map. unfold k. rewrite nth_error_app_new0.
  cbn [nth_error option_map]. rewrite kill_other; [reflexivity|]. cbn. lia.
Qed.

(** ** C61, C62 *)

Lemma elemsize_spec ty : get_elemsize ty = match type_size ty with Some n => n | None => -1 end.
Proof.
  destruct (type_size ty) eqn:E; [now apply type_size_elemsize|now apply elemsize_none].
Qed.

Lemma cstrlen_app a r : ~ In 0 a -> cstrlen (a ++ 0 :: r) = Some (Z.of_nat (List.length a)).
Proof.
  induction a as [|x a IH]; intros H; [reflexivity|].
  cbn -[Z.of_nat]. replace (x =? 0) with false by (assert (x <> 0) by (intros ->; apply H; now left); lia).
  rewrite IH by (intros Hi; apply H; now right). f_equal. cbn [List.length]. lia.
Qed.

Lemma cmp_upto_spec n a b ra rb : (n <= List.length a)%nat -> (n <= List.length b)%nat ->
  cmp_upto n (a ++ ra) (b ++ rb) = true <-> firstn n a = firstn n b.
Proof.
  revert a b. induction n as [|n IH]; intros a b Ha Hb; [cbn; tauto|].
  destruct a as [|x a], b as [|y b]; cbn in Ha, Hb; try lia. cbn.
  destruct (Z.eqb_spec x y) as [-> | Hne].
  - rewrite IH by lia. split; [intros -> ; auto|intros [=]; auto].
  - split; [discriminate|]. intros [=]. contradiction.
Qed.

(** cmpstr answers 1 exactly when the shorter string is a prefix of the other. *)
Lemma cmpstr_prefix a b r r' e s : ~ In 0 a -> ~ In 0 b ->
  exists v, cmpstr (a ++ 0 :: r) (b ++ 0 :: r') e s = Ret v s
    /\ (v = 1 \/ v = 0)
    /\ (v = 1 <-> (exists t, b = a ++ t) \/ (exists t, a = b ++ t)).
Proof.
  intros Ha Hb. unfold cmpstr. rewrite (cstrlen_app a r Ha), (cstrlen_app b r' Hb).
  set (la := List.length a). set (lb := List.length b).
  assert (P : firstn (Nat.min la lb) a = firstn (Nat.min la lb) b <->
              (exists t, b = a ++ t) \/ (exists t, a = b ++ t)).
  { split.
    - intros E. destruct (Nat.le_ge_cases la lb) as [H|H].
      + rewrite Nat.min_l in E by auto. unfold la in E. rewrite firstn_all in E. left.
        exists (skipn la b). rewrite E at 1. symmetry. apply firstn_skipn.
      + rewrite Nat.min_r in E by auto. unfold lb in E. rewrite firstn_all in E. right.
        exists (skipn lb a). rewrite <- E at 1. symmetry. apply firstn_skipn.
    - intros [(t & Et)|(t & Et)].
      + unfold lb. rewrite Et, app_length. fold la. rewrite Nat.min_l by lia.
        rewrite firstn_app. unfold la. rewrite firstn_all, Nat.sub_diag. cbn. now rewrite app_nil_r.
      + unfold la. rewrite Et, app_length. fold lb. rewrite Nat.min_r by lia.
        rewrite firstn_app. unfold lb. rewrite firstn_all, Nat.sub_diag. cbn. now rewrite app_nil_r. }
  replace (if Z.of_nat la <=? Z.of_nat lb then Z.of_nat la else Z.of_nat lb) with (Z.of_nat (Nat.min la lb)) by (destruct (Z.of_nat la <=? Z.of_nat lb) eqn:?; lia).
  destruct ((Z.of_nat la =? Z.of_nat lb) && (Z.of_nat (Nat.min la lb) =? 0)) eqn:E0.
  - exists 1. split; auto. split; auto. split; auto. intros _. apply P.
    replace (Nat.min la lb) with 0%nat by lia. reflexivity.
  - rewrite Nat2Z.id.
    pose proof (cmp_upto_spec (Nat.min la lb) a b (0 :: r) (0 :: r') ltac:(fold la; lia) ltac:(fold lb; lia)) as C.
    destruct (cmp_upto _ _ _).
    + exists 1. split; auto. split; auto. split; auto. intros _. now apply P, C.
    + exists 0. split; auto. split; auto. split; [discriminate|]. intros H. apply P, C in H. discriminate.
Qed.

Lemma il_cmp_spec m l l' e s : hm_il m = tag_of l -> In 0 (hm_pad m) ->
  il_cmp m (layout_name l') e s = Ret (if match l, l' with BSQ, BSQ | BIL, BIL | BIP, BIP => true | _, _ => false end then 1 else 0) s.
Proof.
  intros Ht Hp. destruct l'; cbn [layout_name];
    [rewrite (il_cmp_bsq m l)|rewrite (il_cmp_bil m l)|rewrite (il_cmp_bip m l)]; auto; destruct l; reflexivity.
Qed.

(** ** Statements in terms of the specification vocabulary *)

Lemma transport_ok e s r mr p ms es :
  image s r mr es -> image s p ms es -> sm_chan mr = 1 -> sm_chan ms = 1 ->
  sm_rows mr = sm_cols ms -> sm_cols mr = sm_rows ms -> sm_type mr = sm_type ms ->
  sm_data mr <> sm_data ms ->
  exists s', simple_mat_transport r p e s = Ret tt s' /\ transposed s ms mr es s'
    /\ only_written (sm_data mr) s s'.
Proof.
  intros. destruct (transport_run e s r mr p ms es) as (s' & E & A & W); auto.
  exists s'. split; auto. split; auto. now apply written_only.
Qed.

Lemma addition_ok e s p1 m1 p2 m2 d md :
  image s p1 m1 1 -> image s p2 m2 1 -> image s d md 1 ->
  sm_cols m1 = sm_cols md -> sm_cols m2 = sm_cols md ->
  sm_chan m1 = sm_chan md -> sm_chan m2 = sm_chan md ->
  Z.min (sm_rows m1) (sm_rows m2) <= sm_rows md ->
  exists s', simple_mat_addition_uchar p1 p2 d e s = Ret tt s' /\ summed s m1 m2 md s'
    /\ (forall x, Z.min (sm_rows m1) (sm_rows m2) * sm_cols md * sm_chan md <= x ->
          byte_at s' (sm_data md) x = byte_at s (sm_data md) x)
    /\ only_written (sm_data md) s s'.
Proof.
  intros. destruct (addition_run e s p1 m1 p2 m2 d md) as (s' & E & A & B & W); auto.
  exists s'. split; auto. split; auto. split; auto. now apply written_only.
Qed.
