(** * Proofs: copying into an existing cube, in-place layout normalisation. *)
From Verif Require Import Base Logic ModelCore ModelImage SpecBase SpecImage ProofCore ProofLayout ProofHM ProofImage.
From Coq Require Import String ZifyBool ZifyNat.
Ltac Zify.zify_post_hook ::= Z.div_mod_to_equations.
Open Scope Z_scope.

Lemma map_lupd {A B} (g : A -> B) n f l : (forall x, g (f x) = g x) -> map g (lupd n f l) = map g l.
Proof. intros H. revert n; induction l; intros [|n]; cbn; auto; rewrite ?H, ?IHl; auto. Qed.

Lemma same_blocks_refl s : same_blocks s s.
Proof. split; reflexivity. Qed.
Lemma same_blocks_trans s1 s2 s3 : same_blocks s1 s2 -> same_blocks s2 s3 -> same_blocks s1 s3.
Proof. intros [A B] [C D]. split; congruence. Qed.
Lemma same_blocks_putd s q d : same_blocks s (putd s q d).
Proof. split; [|reflexivity]. unfold putd; cbn. apply map_lupd. reflexivity. Qed.
Lemma same_blocks_putc s q c : same_blocks s (putc s q c).
Proof. split; [|reflexivity]. unfold putc; cbn. apply map_lupd. reflexivity. Qed.
Lemma same_blocks_length s s' : same_blocks s s' -> List.length (objs s') = List.length (objs s).
Proof. intros [A _]. apply (f_equal (@List.length _)) in A. now rewrite !map_length in A. Qed.
Lemma same_blocks_nth s s' i : same_blocks s s' ->
  option_map block_of (nth_error (objs s') i) = option_map block_of (nth_error (objs s) i).
Proof. intros [A _]. rewrite <- !nth_error_map. now rewrite A. Qed.
Lemma same_blocks_heap_ok s s' : same_blocks s s' -> heap_ok s -> heap_ok s'.
Proof.
  intros H Hs i o Hi. rewrite (same_blocks_length _ _ H).
  pose proof (same_blocks_nth _ _ i H) as E. rewrite Hi in E. cbn in E.
  destruct (nth_error (objs s) i) as [o'|] eqn:E'; [|discriminate].
  cbn in E. injection E as _ _ E _. rewrite E. eauto.
Qed.

Lemma hm_at_obj s k m : hm_at s (Some k) = Some m ->
  exists a n r, nth_error (objs s) k = Some (mkObj a n r true (CHM m)).
Proof.
  unfold hm_at. destruct (nth_error (objs s) k) as [[a n r [] c]|]; try discriminate.
  cbn. destruct c; try discriminate. intros [= ->]. eauto.
Qed.
Lemma sm_at_obj s k m : sm_at s (Some k) = Some m ->
  exists a n r, nth_error (objs s) k = Some (mkObj a n r true (CSM m)).
Proof.
  unfold sm_at. destruct (nth_error (objs s) k) as [[a n r [] c]|]; try discriminate.
  cbn. destruct c; try discriminate. intros [= ->]. eauto.
Qed.
Lemma hm_isb_ne s k m q n d : hm_at s (Some k) = Some m -> isb s q n d -> k <> q.
Proof.
  intros H1 H2 ->. apply hm_at_obj in H1 as (a & n' & r & H1).
  apply isb_obj in H2 as (a' & r' & H2). congruence.
Qed.
Lemma sm_isb_ne s k m q n d : sm_at s (Some k) = Some m -> isb s q n d -> k <> q.
Proof.
  intros H1 H2 ->. apply sm_at_obj in H1 as (a & n' & r & H1).
  apply isb_obj in H2 as (a' & r' & H2). congruence.
Qed.

Lemma byte_at_putd_eq s q n d f i : isb s q n d ->
  byte_at (putd s q f) (Some q) i = if inb i n then Some (f i mod 256) else None.
Proof. intros H. unfold byte_at. now rewrite (isb_putd_eq _ _ _ _ f H). Qed.
Lemma byte_at_putd_ne s q f p i : p <> Some q -> byte_at (putd s q f) p i = byte_at s p i.
Proof. intros. unfold byte_at. now rewrite bytes_at_putd_ne. Qed.
Lemma byte_at_isb_all s q n d i : isb s q n d ->
  byte_at s (Some q) i = if inb i n then Some (d i mod 256) else None.
Proof. intros H. unfold byte_at. now rewrite H. Qed.

Lemma bytes_at_putc_ne s k c p : p <> Some k -> bytes_at (putc s k c) p = bytes_at s p.
Proof.
  intros. destruct p as [q|]; auto. unfold bytes_at, putc; cbn.
  rewrite lupd_nth_ne; auto; congruence.
Qed.

Lemma set_header_ok e s k m c : hm_at s (Some k) = Some m ->
  set_header (Some k) c e s = Ret tt (putc s k c).
Proof. intros H. apply hm_at_obj in H as (a & n & r & H). unfold set_header. now rewrite H. Qed.
Lemma set_header_ok_sm e s k m c : sm_at s (Some k) = Some m ->
  set_header (Some k) c e s = Ret tt (putc s k c).
Proof. intros H. apply sm_at_obj in H as (a & n & r & H). unfold set_header. now rewrite H. Qed.

Lemma hm_at_putc_eq s k m m' : hm_at s (Some k) = Some m ->
  hm_at (putc s k (CHM m')) (Some k) = Some m'.
Proof.
  intros H. apply hm_at_obj in H as (a & n & r & H). unfold hm_at, putc; cbn.
  rewrite lupd_nth_eq, H. reflexivity.
Qed.
Lemma sm_at_putc_eq s k m m' : sm_at s (Some k) = Some m ->
  sm_at (putc s k (CSM m')) (Some k) = Some m'.
Proof.
  intros H. apply sm_at_obj in H as (a & n & r & H). unfold sm_at, putc; cbn.
  rewrite lupd_nth_eq, H. reflexivity.
Qed.

Lemma copy_to_run e s p m q m' l l' es :
  cube s p m l es -> cube s q m' l' es ->
  hm_samples m' = hm_samples m -> hm_lines m' = hm_lines m ->
  hm_bands m' = hm_bands m -> hm_type m' = hm_type m ->
  separate m m' ->
  exists s', hyper_mat_copy_to p q e s = Ret tt s' /\ copied_into s m q m' es s'.
Proof.
  intros [Hh Ht Hp Hty HS HL HB Hsz Hws Hd Hw] [Hh' Ht' Hp' Hty' HS' HL' HB' Hsz' Hws' Hd' Hw'].
  intros ES EL EB ET [Sd Sw].
  destruct (hm_nonnull _ _ _ Hh) as [pk ->]. destruct (hm_nonnull _ _ _ Hh') as [qk ->].
  unfold hyper_mat_copy_to. cbn [nonnull andb]. rewrite bind_assert by reflexivity.
  runs (hget_ok _ _ e _ Hh). runs (hget_ok _ _ e _ Hh').
  rewrite bind_assert by lia.
  rewrite (type_size_elemsize _ _ Hty).
  assert (Hes := type_size_range _ _ Hty).
  set (S := hm_samples m) in *. set (L := hm_lines m) in *. set (B := hm_bands m) in *.
  assert (0 < S * L) by nia. assert (0 < S * L * B) by nia. assert (0 < S * L * B * es) by nia.
  assert (S * L <= 2147483647) by nia. assert (S * L * B <= 2147483647) by nia.
  assert (E1 : (S * L * B * es)%C = Some (S * L * B * es)).
  { unfold ci. rewrite !cmul_ok by lia. reflexivity. }
  runs (ev_ok _ _ e s E1).
  apply readable_isb in Hd as (d & sz & f & Ed & Id & Nd).
  apply readable_isb in Hd' as (d' & sz' & f' & Ed' & Id' & Nd').
  rewrite Ed, Ed' in *. rewrite ES, EL, EB in *.
  assert (Hdd : d <> d') by congruence.
  runs (memcpy_ok e s d' sz' f' d sz f 0 0 (S * L * B * es) Id' Id Hdd ltac:(lia) ltac:(lia) ltac:(lia) ltac:(lia) ltac:(lia)).
  set (F := fun i => if (0 <=? i) && (i <? 0 + S * L * B * es) then f (i - 0 + 0) else f' i).
  set (s1 := putd s d' F).
  assert (Hh1 : hm_at s1 (Some pk) = Some m) by (unfold s1; erewrite hm_at_putd; eauto).
  assert (Hh1' : hm_at s1 (Some qk) = Some m') by (unfold s1; erewrite hm_at_putd; eauto).
  assert (FD : forall x, byte_at s1 (Some d') x =
     if (0 <=? x) && (x <? S * L * B * es) then byte_at s (Some d) x else byte_at s (Some d') x).
  { intros x. unfold s1. rewrite (byte_at_putd_eq _ _ _ _ _ _ Id').
    rewrite (byte_at_isb_all _ _ _ _ _ Id), (byte_at_isb_all _ _ _ _ _ Id'). unfold F, inb.
    destruct ((0 <=? x) && (x <? S * L * B * es)) eqn:Ex.
    - replace ((0 <=? x) && (x <? sz')) with true by lia.
      replace ((0 <=? x) && (x <? sz)) with true by lia.
      replace (x <? 0 + S * L * B * es) with true by lia.
      replace (0 <=? x) with true by lia. cbn [andb]. do 3 f_equal. lia.
    - change (0 + S * L * B * es) with (S * L * B * es). rewrite Ex. reflexivity. }
  unfold hyper_mat_copy_wavelength. rewrite !bind_assoc. cbn [nonnull andb]. rewrite bind_assert by reflexivity.
  rewrite bind_assoc. runs (hget_ok _ _ e _ Hh1). rewrite bind_assoc. runs (hget_ok _ _ e _ Hh1').
  rewrite bind_assoc. rewrite bind_assert by lia.
  destruct Hw as [Ew | Hw].
  - rewrite Ew. cbn [nonnull]. rewrite bind_ret_l.
    rewrite (set_header_ok _ _ _ _ _ Hh1'). eexists. split; [reflexivity|].
    unfold copied_into. rewrite Ed', Ew.
    assert (Nq : qk <> d') by exact (hm_isb_ne _ _ _ _ _ _ Hh' Id').
    split. { erewrite hm_at_putc_eq by eauto. rewrite ?ES, ?EL, ?EB, ?Ed'. reflexivity. }
    split. { intros x. unfold byte_at at 1. rewrite bytes_at_putc_ne by congruence.
             fold S L B. rewrite ?Ed. apply FD. }
    split; [congruence|]. split.
    + intros i Hi Hn. unfold putc; cbn. rewrite lupd_nth_ne by (intros ->; apply Hn; cbn; auto).
      unfold s1, putd; cbn. rewrite lupd_nth_ne; auto. intros ->; apply Hn; cbn; auto.
    + eapply same_blocks_trans; [apply same_blocks_putd|apply same_blocks_putc].
  - apply readable_isb in Hw as (w & szw & fw & Ew & Iw & Nw).
    destruct Sw as (Sw1 & Sw2 & Sw3 & Sw4 & Sw5). { rewrite Ew. discriminate. }
    destruct Hw' as [|Hw']; [congruence|].
    apply readable_isb in Hw' as (w' & szw' & fw' & Ew' & Iw' & Nw').
    rewrite Ew, Ew' in *. cbn [nonnull].
    assert (Iw1 : isb s1 w szw fw) by (apply isb_putd_ne; auto; congruence).
    assert (Iw1' : isb s1 w' szw' fw') by (apply isb_putd_ne; auto; congruence).
    assert (Hww : w <> w') by congruence.
    fold B.
    runs (memcpy_ok e s1 w' szw' fw' w szw fw 0 0 (B * 4) Iw1' Iw1 Hww ltac:(lia) ltac:(lia) ltac:(lia) ltac:(lia) ltac:(lia)).
    set (G := fun i => if (0 <=? i) && (i <? 0 + B * 4) then fw (i - 0 + 0) else fw' i).
    set (s2 := putd s1 w' G).
    assert (Hh2' : hm_at s2 (Some qk) = Some m') by (unfold s2; erewrite hm_at_putd; eauto).
    rewrite (set_header_ok _ _ _ _ _ Hh2'). eexists. split; [reflexivity|].
    unfold copied_into. rewrite Ed', Ew, Ew'.
    assert (Nq : qk <> d') by exact (hm_isb_ne _ _ _ _ _ _ Hh' Id').
    assert (Nq2 : qk <> w') by exact (hm_isb_ne _ _ _ _ _ _ Hh' Iw').
    split. { erewrite hm_at_putc_eq by eauto. rewrite ?ES, ?EL, ?EB, ?Ed', ?Ew'. reflexivity. }
    split. { intros x. unfold byte_at at 1. rewrite bytes_at_putc_ne by congruence.
             unfold s2. rewrite bytes_at_putd_ne by congruence.
             fold S L B. rewrite ?Ed. apply FD. }
    split. { intros _ x. unfold byte_at at 1. rewrite bytes_at_putc_ne by congruence.
      fold (byte_at s2 (Some w') x). unfold s2.
      rewrite (byte_at_putd_eq _ _ _ _ _ _ Iw1').
      rewrite (byte_at_isb_all _ _ _ _ _ Iw), (byte_at_isb_all _ _ _ _ _ Iw'). unfold G, inb. fold B.
      destruct ((0 <=? x) && (x <? B * 4)) eqn:Ex.
      - replace ((0 <=? x) && (x <? szw')) with true by lia.
        replace ((0 <=? x) && (x <? szw)) with true by lia.
        replace (x <? 0 + B * 4) with true by lia.
        replace (0 <=? x) with true by lia. cbn [andb]. do 3 f_equal. lia.
      - change (0 + B * 4) with (B * 4). rewrite Ex. reflexivity. }
    split.
    + intros i Hi Hn. unfold putc; cbn. rewrite lupd_nth_ne by (intros ->; apply Hn; cbn; auto).
      unfold s2, s1, putd; cbn. rewrite lupd_nth_ne by (intros ->; apply Hn; cbn; auto).
      rewrite lupd_nth_ne; auto. intros ->; apply Hn; cbn; auto.
    + eapply same_blocks_trans; [apply same_blocks_putd|].
      eapply same_blocks_trans; [apply same_blocks_putd|apply same_blocks_putc].
Qed.

(** ** free *)

Lemma free_ok e s k o : nth_error (objs s) k = Some o -> o_live o = true -> o_root o = k ->
  free (Some k) e s = Ret tt (mkSt (map (kill_root k) (objs s)) (files s)).
Proof.
  intros H1 H2 H3. unfold free. rewrite H1, H2, H3. replace (Nat.eqb k k) with true by lia. reflexivity.
Qed.

Lemma kill_nth s k i : nth_error (map (kill_root k) (objs s)) i = option_map (kill_root k) (nth_error (objs s) i).
Proof. apply nth_error_map. Qed.

(** Releasing chunk k only affects objects of chunk k. *)
Lemma kill_other k o : o_root o <> k -> kill_root k o = o.
Proof. intros. unfold kill_root. replace (Nat.eqb (o_root o) k) with false by lia. reflexivity. Qed.
Lemma kill_same k o : o_root o = k -> o_live (kill_root k o) = false.
Proof. intros H. unfold kill_root. rewrite H, Nat.eqb_refl. reflexivity. Qed.

Lemma heap_ok_kill s k : heap_ok s -> heap_ok (mkSt (map (kill_root k) (objs s)) (files s)).
Proof.
  intros H i o Hi. cbn in *. rewrite map_length. rewrite kill_nth in Hi.
  destruct (nth_error (objs s) i) as [o'|] eqn:E; [|discriminate]. cbn in Hi. injection Hi as <-.
  unfold kill_root. apply H in E. destruct (Nat.eqb _ _); cbn; auto.
Qed.

Lemma nth_hm_at s s' k : nth_error (objs s') k = nth_error (objs s) k -> hm_at s' (Some k) = hm_at s (Some k).
Proof. unfold hm_at. now intros ->. Qed.
Lemma nth_sm_at s s' k : nth_error (objs s') k = nth_error (objs s) k -> sm_at s' (Some k) = sm_at s (Some k).
Proof. unfold sm_at. now intros ->. Qed.
Lemma nth_bytes_at s s' k : nth_error (objs s') k = nth_error (objs s) k -> bytes_at s' (Some k) = bytes_at s (Some k).
Proof. unfold bytes_at. now intros ->. Qed.
Lemma nth_byte_at s s' k x : nth_error (objs s') k = nth_error (objs s) k -> byte_at s' (Some k) x = byte_at s (Some k) x.
Proof. unfold byte_at. intros. now rewrite (nth_bytes_at s s'). Qed.

Lemma cube_old s s' p m l es : old_unchanged s s' -> cube s p m l es -> cube s' p m l es.
Proof.
  intros HO [Hh Ht Hp Hty HS HL HB Hsz Hws Hd Hw]. constructor; auto.
  - destruct (hm_nonnull _ _ _ Hh) as [k ->]. rewrite (nth_hm_at s); auto. apply HO.
    apply hm_at_obj in Hh as (a & n & r & Hh). eapply nth_error_lt; eauto.
  - apply readable_isb in Hd as (q & sz & d & -> & H & N). exists q, sz, d. repeat split; auto.
    rewrite (nth_bytes_at s); auto. apply HO. eapply isb_lt; eauto.
  - destruct Hw as [|Hw]; [auto|right]. apply readable_isb in Hw as (q & sz & d & -> & H & N).
    exists q, sz, d. repeat split; auto.
    rewrite (nth_bytes_at s); auto. apply HO. eapply isb_lt; eauto.
Qed.

Lemma readable_same s s' p n : readable s p n -> same_blocks s s' ->
  (forall x, byte_at s' p x <> None <-> byte_at s p x <> None) -> 0 < n -> readable s' p n.
Proof.
  intros H SB HB Hn. apply readable_isb in H as (q & sz & d & -> & H & N).
  assert (B0 : byte_at s' (Some q) 0 <> None).
  { apply HB. rewrite (byte_at_isb _ _ _ _ 0 H) by lia. discriminate. }
  unfold byte_at in B0. destruct (bytes_at s' (Some q)) as [[[q' sz'] d']|] eqn:E; [|congruence].
  destruct (bytes_at_inv _ _ _ _ _ E) as [[= <-] E'].
  exists q, sz', d'. repeat split; auto.
  apply isb_obj in H as (a & r & H). apply isb_obj in E' as (a' & r' & E').
  pose proof (same_blocks_nth _ _ q SB) as X. rewrite H, E' in X. cbn in X. injection X as _ -> _. auto.
Qed.

(** ** convert2* *)

Lemma convert_back_run e s p m l l' es conv :
  env_ok e -> heap_ok s -> cube s p m l es -> hm_data m <> hm_wave m ->
  (exists dd dw,
    conv p e s = Ret (Some (List.length (objs s)))
          (newhm e s (hm_samples m) (hm_lines m) (hm_bands m) (hm_type m) es (tag_of l') dd dw)
    /\ (forall i j k t, in_cube m i j k -> 0 <= t < es ->
          Some (dd (offset l' (hm_samples m) (hm_lines m) (hm_bands m) i j k * es + t) mod 256)
          = sample_byte s m l es i j k t)
    /\ (forall b, 0 <= b < hm_bands m * 4 ->
          Some (dw b mod 256) =
          match hm_wave m with None => Some 0 | Some _ => byte_at s (hm_wave m) b end)) ->
  (hm_wave m <> None) ->
  exists s', convert_back conv p e s = Ret tt s' /\ rearranged s p m l es s' l'.
Proof.
  intros He Hs C Hdw (dd & dw & E & A & Aw) Hwn.
  pose proof (conv_post e s p m l l' es dd dw He Hs C A Aw) as PC.
  destruct PC as (m1 & C1 & F1 & F2 & F3 & ES & EL & EB & ET & PS & PW & PO & PF & PH).
  set (s1 := newhm _ _ _ _ _ _ _ _ _ _) in *. set (k := List.length (objs s)) in *.
  unfold convert_back. runs E.
  pose proof (cube_old _ _ _ _ _ _ PO C) as C'.
  assert (Sep : separate m1 m).
  { destruct C as [Hh Ht Hp Hty HS HL HB Hsz Hws Hd Hw].
    apply readable_isb in Hd as (q & sz & d & Ed & Id & Nd).
    destruct Hw as [Hw|Hw]; [congruence|].
    apply readable_isb in Hw as (w & szw & fw & Ew & Iw & Nw).
    apply isb_lt in Id. apply isb_lt in Iw.
    destruct F2 as (k2 & F2 & L2). destruct F3 as (k3 & F3 & L3).
    unfold separate. rewrite F2, F3, Ed, Ew in *. fold k in Id, Iw, L2, L3.
    split; [intros [= X]; lia|]. intros _. repeat split; try discriminate; try congruence; intros [= X]; lia. }
  destruct (copy_to_run e s1 (Some k) m1 p m l' l es C1 C') as (s2 & E2 & K); auto; try congruence.
  runs E2. destruct K as (K1 & K2 & K3 & K4 & K5).
  assert (Lk : List.length (objs s1) = (k + 3)%nat).
  { unfold s1, newhm; cbn [objs]. rewrite app_length. reflexivity. }
  assert (Ln : List.length (objs s2) = (k + 3)%nat) by (rewrite (same_blocks_length _ _ K5); auto).
  (* blocks of the new state *)
  assert (Bk : forall j o, nth_error (objs s2) (k + j) = Some o -> o_root o = k /\ o_live o = true).
  { intros j o Ho. pose proof (same_blocks_nth _ _ (k + j)%nat K5) as X. rewrite Ho in X.
    unfold s1, newhm in X; cbn [objs] in X. unfold k in X at 1. rewrite (nth_error_app_new (objs s)) in X.
    destruct j as [|[|[|[]]]]; cbn in X; try discriminate; injection X as _ _ X1 X2; auto. }
  destruct (nth_error (objs s2) k) as [ok|] eqn:Eok.
  2:{ apply nth_error_None in Eok. lia. }
  destruct (Bk 0%nat ok) as [Br Bl]. { rewrite Nat.add_0_r. auto. }
  unfold delete_hyper_mat. cbn [nonnull].
  rewrite (free_ok e s2 k ok) by auto. eexists. split; [reflexivity|].
  set (s3 := mkSt (map (kill_root k) (objs s2)) (files s2)).
  (* old objects keep what they have in s2 *)
  assert (O2 : forall i, (i < k)%nat -> nth_error (objs s3) i = nth_error (objs s2) i).
  { intros i Hi. unfold s3; cbn. rewrite kill_nth.
    destruct (nth_error (objs s2) i) as [o|] eqn:Eo; [|reflexivity]. cbn. f_equal.
    apply kill_other. pose proof (same_blocks_nth _ _ i K5) as X. rewrite Eo, PO in X by auto.
    destruct (nth_error (objs s) i) as [o'|] eqn:Eo'; [|discriminate]. cbn in X.
    injection X as _ _ X _. apply Hs in Eo' as Y. fold k in Y.
    (* roots of old objects are old *) rewrite X. fold k in Y. lia. }
  destruct C as [Hh Ht Hp Hty HS HL HB Hsz Hws Hd Hw].
  destruct (hm_nonnull _ _ _ Hh) as [pk ->].
  assert (Lp : (pk < k)%nat). { apply hm_at_obj in Hh as (a & n & r & Hh). eapply nth_error_lt; eauto. }
  apply readable_isb in Hd as (q & sz & d & Ed & Id & Nd).
  destruct Hw as [Hw|Hw]; [congruence|].
  apply readable_isb in Hw as (w & szw & fw & Ew & Iw & Nw).
  assert (Lq : (q < k)%nat) by (eapply isb_lt; eauto).
  assert (Lw : (w < k)%nat) by (eapply isb_lt; eauto).
  assert (Hes := type_size_range _ _ Hty).
  set (S := hm_samples m) in *. set (L := hm_lines m) in *. set (B := hm_bands m) in *.
  assert (0 < S * L) by nia. assert (0 < S * L * B) by nia. assert (0 < S * L * B * es) by nia.
  rewrite Ed, Ew in *.
  assert (BD : forall x, byte_at s3 (Some q) x =
    if (0 <=? x) && (x <? S * L * B * es) then byte_at s1 (hm_data m1) x else byte_at s (Some q) x).
  { intros x. rewrite (nth_byte_at s2 s3) by auto. rewrite K2, ES, EL, EB.
    destruct ((0 <=? x) && (x <? S * L * B * es)); auto. apply nth_byte_at. apply PO; auto. }
  assert (BW : forall x, byte_at s3 (Some w) x = byte_at s (Some w) x).
  { intros x. rewrite (nth_byte_at s2 s3) by auto. rewrite K3 by (destruct F3 as (? & -> & _); discriminate).
    rewrite EB. destruct ((0 <=? x) && (x <? B * 4)) eqn:Ex; [apply PW; lia|].
    apply nth_byte_at. apply PO; auto. }
  assert (SB : forall i, (i < k)%nat -> option_map block_of (nth_error (objs s3) i) = option_map block_of (nth_error (objs s) i)).
  { intros i Hi. rewrite O2, (same_blocks_nth _ _ _ K5), PO; auto. }
  assert (RD : forall r n d0 N, isb s r n d0 -> (r < k)%nat -> 0 < N -> N <= n -> byte_at s3 (Some r) 0 <> None -> readable s3 (Some r) N).
  { intros r n d0 N Ir Lr HN HNn B0. unfold byte_at in B0.
    destruct (bytes_at s3 (Some r)) as [[[q' sz'] d']|] eqn:Eb; [|congruence].
    destruct (bytes_at_inv _ _ _ _ _ Eb) as [[= <-] E']. exists r, sz', d'. repeat split; auto.
    apply isb_obj in Ir as (a & r0 & Ir). apply isb_obj in E' as (a' & r' & E').
    pose proof (SB r Lr) as X. rewrite Ir, E' in X. cbn in X. injection X as _ -> _. auto. }
  destruct C1 as [Hh1 Ht1 Hp1 Hty1 HS1 HL1 HB1 Hsz1 Hws1 Hd1 Hw1].
  assert (R1 : forall x, 0 <= x < S * L * B * es -> byte_at s1 (hm_data m1) x <> None).
  { intros x Hx. apply readable_isb in Hd1 as (q1 & sz1 & d1 & -> & I1 & N1).
    rewrite ES, EL, EB in N1. rewrite (byte_at_isb _ _ _ _ _ I1) by lia. discriminate. }
  set (m2 := mkHM S L B (hm_type m) (hm_il m1) (hm_pad m) (Some q) (Some w)) in *.
  exists m2. split.
  { constructor; unfold m2; cbn [hm_samples hm_lines hm_bands hm_type hm_il hm_pad hm_data hm_wave]; auto.
    - rewrite (nth_hm_at s2) by auto. exact K1.
    - eapply RD; eauto. rewrite BD. replace ((0 <=? 0) && (0 <? S * L * B * es)) with true by lia. apply R1. lia.
    - right. eapply RD; eauto; try lia. rewrite BW. rewrite (byte_at_isb _ _ _ _ _ Iw) by lia. discriminate. }
  unfold m2 at 1 2 3 4 5 6; cbn [hm_samples hm_lines hm_bands hm_type hm_data hm_wave].
  do 4 (split; [reflexivity|]). do 2 (split; [congruence|]).
  split.
  { intros i j b t (Hi & Hj & Hk) Hte. rewrite <- PS by (repeat split; auto; lia).
    unfold sample_byte, m2; cbn [hm_samples hm_lines hm_bands hm_data]. rewrite ES, EL, EB, BD.
    pose proof (offset_range l' S L B i j b Hi Hj Hk) as O.
    pose proof (byte_range _ _ es t O Hte) as O'.
    match goal with |- (if ?c then _ else _) = _ => replace c with true by lia end. reflexivity. }
  split; [intros; rewrite ?Ew; apply BW|].
  split.
  { intros i Hi Hn. rewrite O2 by auto. rewrite (K4 i); [apply PO; auto| rewrite Lk; fold k in Hi; lia |].
    rewrite ?Ed, ?Ew in Hn. intros X. apply Hn. destruct F3 as (? & F3 & _). rewrite F3 in X. exact X. }
  split.
  { intros i o Hi Ho. unfold s3 in Ho; cbn in Ho. rewrite kill_nth in Ho.
    destruct (nth_error (objs s2) i) as [o'|] eqn:Eo; [|discriminate]. cbn in Ho. injection Ho as <-.
    apply kill_same. fold k in Hi. replace i with (k + (i - k))%nat in Eo by lia.
    apply Bk in Eo as [X _]. exact X. }
  split.
  { unfold s3; cbn. destruct K5 as [_ K5]. rewrite K5. exact PF. }
  { apply heap_ok_kill. eapply same_blocks_heap_ok; eauto. }
Qed.
