(** * Proofs for the C++ image class. *)
From Verif Require Import Base Logic ModelCore ModelCxx SpecBase SpecCxx ProofCore ProofLayout ProofHM ProofImage ProofCopy ProofSave2.
From Coq Require Import ZifyBool ZifyNat.
Ltac Zify.zify_post_hook ::= Z.div_mod_to_equations.
Open Scope Z_scope.

(** ** Construction *)

Lemma default_exits e s o : hy_default o e s = Exit.
Proof. reflexivity. Qed.

Lemma auto_never e s samples lines bands ty f data wave :
  hy_create7 hy_auto samples lines bands ty f data wave e s
  = if (samples >? 0) && (lines >? 0) then UB else Exit.
Proof. unfold hy_create7. destruct ((samples >? 0) && (lines >? 0)); reflexivity. Qed.

Lemma static_exits e s samples lines bands ty f data wave :
  hy_create7 hy_static samples lines bands ty f data wave e s = Exit.
Proof. unfold hy_create7. destruct ((samples >? 0) && (lines >? 0)); reflexivity. Qed.

Lemma copy_exits e s o : hy_copy o e s = Exit.
Proof. reflexivity. Qed.
Lemma read_exits e s op : hy_read op e s = Exit.
Proof. reflexivity. Qed.

Lemma bind_nr {A B} (m : M A) (k : A -> M B) e s :
  (forall a s', m e s = Ret a s' -> no_return (k a e s')) -> no_return (bind m k e s).
Proof. intros H. unfold bind. destruct (m e s) eqn:E; cbn; auto. Qed.

Lemma sized_nr e s samples lines bands ty f : no_return (hy_sized hy_auto samples lines bands ty f e s).
Proof.
  unfold hy_sized, hy_create. rewrite auto_never. destruct ((samples >? 0) && (lines >? 0)); exact I.
Qed.

Ltac nr := apply bind_nr;
  let a := fresh "a" in let t := fresh "t" in let E := fresh "E" in intros a t E;
  try match type of E with hy_sized hy_auto ?a ?b ?c ?d ?f ?e ?st = _ =>
    let H := fresh in pose proof (sized_nr e st a b c d f) as H; rewrite E in H; destruct H end.

Lemma conv_never first from to_ body o e s : no_return (hy_conv first from to_ body o e s).
Proof.
  unfold hy_conv. do 3 nr. destruct (negb first && _); [exact I|]. do 5 nr. nr.
Qed.

Lemma range_never o r0 c0 b0 r1 c1 b1 e s : no_return (hy_range o r0 c0 b0 r1 c1 b1 e s).
Proof. unfold hy_range. do 6 nr. nr. Qed.

(** A released object cannot be created again. *)
Lemma release_then_create e s o o' s' a b c ty f dp wp :
  hy_release o e s = Ret o' s' -> hy_create7 o' a b c ty f dp wp e s' = Exit.
Proof.
  unfold hy_release. intros H.
  assert (G : hy_bands o' = Some 0).
  { unfold bind in H. destruct (rd (hy_data o) e s); try discriminate.
    match type of H with match ?x with _ => _ end = _ => destruct x; try discriminate end.
    destruct (rd (hy_wave o) e s1); try discriminate.
    match type of H with match ?x with _ => _ end = _ => destruct x; try discriminate end.
    injection H as <- <-. reflexivity. }
  unfold hy_create7. rewrite G. destruct ((a >? 0) && (b >? 0)); reflexivity.
Qed.

(** ** Conversion in place *)

Lemma long_elem_wr e s0 src dst nsrc ndst fs fd S L B es lin lout i j k :
  1 <= es -> isb s0 src nsrc fs -> isb s0 dst ndst fd -> src <> dst ->
  S * L * B * es <= nsrc -> S * L * B * es <= ndst ->
  0 <= i < L -> 0 <= j < S -> 0 <= k < B ->
  wr e s0 dst
    (for_ 0 es (fun t => v <- load8 (Some src) (offset lin S L B i j k * es + t) ;;
                         store8 (Some dst) (offset lout S L B i j k * es + t) v))
    (fun p => exists t, 0 <= t < es /\ p = offset lout S L B i j k * es + t)
    (conv_spec fs S L B es lin lout).
Proof.
  intros Hes Hsrc Hdst Hne Hn1 Hn2 Hi Hj Hk. apply wr_for. intros t Ht.
  pose proof (offset_range lin S L B i j k Hi Hj Hk) as O1.
  pose proof (offset_range lout S L B i j k Hi Hj Hk) as O2.
  pose proof (byte_range _ _ es t O1 Ht) as B1.
  pose proof (byte_range _ _ es t O2 Ht) as B2.
  eapply wr_bind; [eapply rdv_load8; eauto; lia|].
  eapply wr_store8; [eauto|lia|].
  rewrite Z.mod_mod by lia. unfold conv_spec.
  destruct (radix2 (offset lout S L B i j k) t es Ht) as [-> ->].
  rewrite dec_offset by auto. reflexivity.
Qed.

Lemma cv_index_ok S L B es lin lout i j k : 0 < S -> 0 < L -> 0 < B -> 1 <= es -> S * L * B * es <= 2147483647 ->
  lin <> lout -> 0 <= i < L -> 0 <= j < S -> 0 <= k < B ->
  cv_index S L B es (format_code lin) (format_code lout) i j k
  = Some (Some (offset lin S L B i j k * es), Some (offset lout S L B i j k * es)).
Proof.
  intros HS HL HB Hes Hsz N Hi Hj Hk.
  unfold cv_index, CV_BIL, CV_BIP, CV_BSQ.
  destruct lin, lout; try (now destruct N); cbn [format_code Z.eqb Pos.eqb andb];
    rewrite ?(ev_bil S L B es i j k), ?(ev_bsq S L B es i j k), ?(ev_bip S L B es i j k) by assumption; reflexivity.
Qed.

Lemma rd_some {A} (v : A) e s : rd (Some v) e s = Ret v s.
Proof. reflexivity. Qed.

Definition cv_loops (S L B es : Z) (lin lout : layout) (src tmp : ptr) : M unit :=
  for_ 0 L (fun i => for_ 0 S (fun j => for_ 0 B (fun k =>
    xy <- rd (cv_index S L B es (format_code lin) (format_code lout) i j k) ;;
    x <- ev (fst xy) ;;
    y <- ev (snd xy) ;;
    for_ 0 es (fun t => v <- load8 src (x + t) ;; store8 tmp (y + t) v)))).

Lemma rdv_rd {A} e s0 dst (v : A) : rdv e s0 dst (rd (Some v)) v.
Proof. intros d. reflexivity. Qed.

Lemma cv_wr e s0 src dst nsrc ndst fs fd S L B es lin lout :
  0 < S -> 0 < L -> 0 < B -> 1 <= es -> S * L * B * es <= 2147483647 -> lin <> lout ->
  isb s0 src nsrc fs -> isb s0 dst ndst fd -> src <> dst -> S * L * B * es <= nsrc -> S * L * B * es <= ndst ->
  exists P, wr e s0 dst (cv_loops S L B es lin lout (Some src) (Some dst)) P (conv_spec fs S L B es lin lout)
    /\ forall i j k t, 0 <= i < L -> 0 <= j < S -> 0 <= k < B -> 0 <= t < es -> P (offset lout S L B i j k * es + t).
Proof.
  intros HS HL HB Hes Hsz N I1 I2 Ne N1 N2. eexists. split.
  { apply wr_for. intros i Hi. apply wr_for. intros j Hj. apply wr_for. intros k Hk.
    rewrite cv_index_ok by assumption.
    eapply wr_bind; [apply rdv_rd|]. cbn [fst snd].
    eapply wr_bind; [apply rdv_ev; reflexivity|]. eapply wr_bind; [apply rdv_ev; reflexivity|].
    eapply long_elem_wr; eassumption. }
  intros i j k t Hi Hj Hk Ht. cbv beta. exists i. split; [auto|]. exists j. split; [auto|]. exists k. split; [auto|].
  exists t. split; [auto|]. reflexivity.
Qed.

Lemma fcode_inj l l' : format_code l = format_code l' -> l = l'.
Proof. destruct l, l'; cbn; intros H; congruence. Qed.

Lemma retag_code l x : retag (format_code l) x = Some (tag_of l).
Proof. destruct l; reflexivity. Qed.

Lemma put_len s q d : List.length (objs (putd s q d)) = List.length (objs s).
Proof. unfold putd; cbn [objs]. apply lupd_length. Qed.

Lemma convert_ok e s o S L B ty es lin lout d w :
  heap_ok s -> hy_image s o S L B ty es lin d w ->
  exists o' s', hy_convert o (format_code lout) e s = Ret o' s'
    /\ hy_image s' o' S L B ty es lout d w
    /\ (forall i j k t, 0 <= i < L -> 0 <= j < S -> 0 <= k < B -> 0 <= t < es ->
          byte_at s' d (offset lout S L B i j k * es + t) = byte_at s d (offset lin S L B i j k * es + t))
    /\ (forall x, S * L * B * es <= x -> byte_at s' d x = byte_at s d x)
    /\ unchanged_except [d] s s' /\ no_leak s s'.
Proof.
  intros Hs HI. pose proof HI as [E1 E2 E3 E4 E5 E6 E7 E8 E9 E10 E11 (HS & HL & HB) Hsz Hr].
  unfold hy_convert. rewrite E5, E7, E10, E2, E1, E3, E9. rewrite (bind_ret _ _ _ _ _ _ (rd_some _ e s)).
  destruct (Z.eqb_spec (format_code lout) (format_code lin)) as [Eq|Ne].
  { apply fcode_inj in Eq. subst lout. exists o, s. split; [reflexivity|]. split; [exact HI|]. split; [auto|]. split; [auto|].
    split; [intros x _ _; reflexivity|]. intros x y Hx Hy. exfalso.
    apply nth_error_None in Hx. congruence. }
  assert (N : lin <> lout) by (intros ->; auto).
  assert (Hes : 1 <= es) by (pose proof (type_size_range _ _ E11); lia).
  destruct (size_c S L B es HS HL HB Hes Hsz) as (_ & _ & Hn).
  apply readable_isb in Hr as (q & sz & dq & Eq & Hq & Hn').
  set (n := S * L * B * es) in *. set (k0 := List.length (objs s)).
  rewrite (bind_ret _ _ _ _ _ _ (rd_some _ e s)). rewrite (bind_ret _ _ _ _ _ _ (rd_some _ e s)).
  rewrite (bind_ret _ _ _ _ _ _ (wb_malloc e s n ltac:(lia))).
  set (j0 := e_junk e (List.length (objs s))).
  do 4 rewrite (bind_ret _ _ _ _ _ _ (rd_some _ e _)).
  pose proof (wb_isb e s n j0) as Ht. fold k0 in Ht.
  pose proof (wb_isb_old e s n j0 q sz dq Hq) as Hq1.
  assert (Hqk : q <> k0) by (pose proof (isb_lt _ _ _ _ Hq); unfold k0; lia).
  subst d.
  destruct (cv_wr e _ q k0 sz n dq j0 S L B es lin lout HS HL HB Hes Hsz N Hq1 Ht Hqk Hn' ltac:(lia)) as (P & W & Cov).
  destruct (wr_run _ _ _ _ _ _ _ _ Ht W) as (dd & R & A & _).
  change (for_ 0 L _) with (cv_loops S L B es lin lout (Some q) (Some k0)) at 1.
  fold k0. rewrite (bind_ret _ _ _ _ _ _ R). clear R.
  unfold k0 at 2. rewrite wb_put.
  pose proof (wb_isb e s n dd) as Ht2. fold k0 in Ht2.
  pose proof (wb_isb_old e s n dd q sz dq Hq) as Hq2.
  set (s2 := with_block e s n dd) in *.
  set (fin := fun i => if (0 <=? i) && (i <? 0 + n) then dd (i - 0 + 0) else dq i).
  assert (C : hy_copy_data o (Some k0) n e s2 = Ret tt (putd s2 q fin)).
  { unfold hy_copy_data. cbn [nonnull]. replace (n =? 0) with false by lia. rewrite (bind_ret _ _ e s2 n s2 eq_refl).
    rewrite E7. rewrite (bind_ret _ _ _ _ _ _ (rd_some _ e s2)).
    rewrite (memcpy_ok e s2 q sz dq k0 n dd); auto; lia. }
  rewrite (bind_ret _ _ _ _ _ _ C). clear C.
  set (s3 := putd s2 q fin).
  assert (K0 : exists ob, nth_error (objs s3) k0 = Some ob /\ o_live ob = true /\ o_root ob = k0).
  { unfold s3. rewrite objs_putd_ne by auto. unfold s2, with_block; cbn [objs]. unfold k0.
    rewrite (nth_error_app_new0 (objs s)). eexists. split; [reflexivity|]. split; reflexivity. }
  destruct K0 as (ob & G1 & G2 & G3).
  rewrite (bind_ret _ _ _ _ _ _ (free_ok e s3 k0 ob G1 G2 G3)).
  pose proof (isb_putd_eq s2 q sz dq fin Hq2) as Hq3. fold s3 in Hq3.
  assert (Hold : forall x, (x < k0)%nat -> x <> q -> nth_error (objs s3) x = nth_error (objs s) x).
  { intros x Hx Hxq. unfold s3. rewrite objs_putd_ne by auto. apply (wb_old e s n dd). exact Hx. }
  assert (Hlen : List.length (objs s3) = Datatypes.S k0).
  { unfold s3. rewrite put_len. apply wb_len. }
  assert (Hroot : forall ob', nth_error (objs s3) q = Some ob' -> o_root ob' <> k0).
  { intros ob' Hob. unfold s3, putd in Hob; cbn [objs] in Hob. rewrite lupd_nth_eq in Hob.
    assert (Hl : (q < k0)%nat) by (eapply isb_lt; eauto).
    unfold s2 in Hob. rewrite (wb_old e s n dd q Hl) in Hob.
    destruct (nth_error (objs s) q) as [oo|] eqn:Eo; [|discriminate]. cbn in Hob. injection Hob as <-.
    pose proof (Hs _ _ Eo). cbn. fold k0 in H. lia. }
  pose proof (kill_isb s3 k0 q sz fin Hq3 Hroot) as Hq4.
  set (s4 := mkSt (map (kill_root k0) (objs s3)) (files s3)) in *.
  do 2 eexists. split; [reflexivity|]. split.
  { constructor; cbn [hy_samples hy_lines hy_bands hy_type hy_format hy_il hy_data hy_wave hy_elem hy_size]; auto.
    - apply retag_code.
    - eapply isb_readable; eauto. }
  split.
  { intros i j k t Hi Hj Hk Hte.
    pose proof (offset_range lout S L B i j k Hi Hj Hk) as O2.
    pose proof (byte_range _ _ es t O2 Hte) as B2.
    pose proof (offset_range lin S L B i j k Hi Hj Hk) as O1.
    pose proof (byte_range _ _ es t O1 Hte) as B1. fold n in B1, B2.
    rewrite (byte_at_isb _ _ _ _ _ Hq4) by lia. rewrite (byte_at_isb _ _ _ _ _ Hq) by lia. f_equal.
    unfold fin. set (x := offset lout S L B i j k * es + t) in *.
    replace ((0 <=? x) && (x <? 0 + n)) with true by lia. replace (x - 0 + 0) with x by lia.
    unfold x. rewrite A by (apply Cov; auto). apply conv_spec_at; auto. }
  split.
  { intros x Hx. unfold byte_at. unfold isb in Hq4, Hq. rewrite Hq4, Hq. destruct (inb x sz); [|reflexivity].
    unfold fin. replace ((0 <=? x) && (x <? 0 + n)) with false by lia. reflexivity. }
  split.
  { intros x Hx Hxq. unfold s4; cbn [objs]. rewrite nth_error_map. rewrite Hold by (auto; intros ->; apply Hxq; left; reflexivity).
    destruct (nth_error (objs s) x) as [oo|] eqn:Eo; [|reflexivity]. cbn. f_equal. apply kill_other. pose proof (Hs _ _ Eo). fold k0 in H. lia. }
  intros x oo Hx Ho. unfold s4 in Ho; cbn [objs] in Ho. rewrite nth_error_map in Ho.
  assert (x = k0).
  { assert ((x < List.length (objs s3))%nat) by (apply nth_error_Some; intros Ee; rewrite Ee in Ho; discriminate). fold k0 in Hx. lia. }
  subst x. rewrite G1 in Ho. cbn in Ho. injection Ho as <-. apply kill_same. exact G3.
Qed.

(** A number that stands for no layout passes the assertion and the indices stay
    without a value. *)
Lemma convert_bad e s o S L B ty es lin d w g :
  hy_image s o S L B ty es lin d w -> (forall l, g <> format_code l) -> hy_convert o g e s = UB.
Proof.
  intros [E1 E2 E3 E4 E5 E6 E7 E8 E9 E10 E11 (HS & HL & HB) Hsz Hr] Hg.
  unfold hy_convert. rewrite E5, E7, E10, E2, E1, E3, E9. rewrite (bind_ret _ _ _ _ _ _ (rd_some _ e s)).
  pose proof (Hg BSQ) as G0. pose proof (Hg BIL) as G1. pose proof (Hg BIP) as G2. cbn [format_code] in G0, G1, G2.
  destruct (Z.eqb_spec g (format_code lin)) as [->|_]; [now destruct (Hg lin)|].
  assert (Hes : 1 <= es) by (pose proof (type_size_range _ _ E11); lia).
  destruct (size_c S L B es HS HL HB Hes Hsz) as (_ & _ & Hn).
  do 2 rewrite (bind_ret _ _ _ _ _ _ (rd_some _ e s)).
  rewrite (bind_ret _ _ _ _ _ _ (wb_malloc e s (S * L * B * es) ltac:(lia))).
  do 4 rewrite (bind_ret _ _ _ _ _ _ (rd_some _ e _)).
  apply bind_ub. apply for_ub_first; [lia|]. apply for_ub_first; [lia|]. apply for_ub_first; [lia|].
  unfold cv_index, CV_BIL, CV_BIP, CV_BSQ.
  replace (g =? 0) with false by lia. replace (g =? 1) with false by lia. replace (g =? 2) with false by lia.
  rewrite !Bool.andb_false_r. reflexivity.
Qed.

(** ** Creation of an image in an object that has no data yet *)

Lemma memset_block e s n : 0 <= n <= 2147483647 ->
  (x <- malloc n ;; memset x 0 0 n ;;; ret x) e s
  = Ret (Some (List.length (objs s)))
        (with_block e s n (fun i => if (0 <=? i) && (i <? 0 + n) then 0 mod 256 else e_junk e (List.length (objs s)) i)).
Proof.
  intros Hn. rewrite (bind_ret _ _ _ _ _ _ (wb_malloc e s n Hn)).
  assert (E : memset (Some (List.length (objs s))) 0 0 n e (with_block e s n (e_junk e (List.length (objs s))))
    = Ret tt (with_block e s n (fun i => if (0 <=? i) && (i <? 0 + n) then 0 mod 256 else e_junk e (List.length (objs s)) i))).
  { unfold memset. pose proof (wb_isb e s n (e_junk e (List.length (objs s)))) as H. unfold isb in H. rewrite H.
    replace ((0 <=? n) && (0 <=? 0) && (0 + n <=? n)) with true by lia. rewrite wb_put. reflexivity. }
  rewrite (bind_ret _ _ _ _ _ _ E). reflexivity.
Qed.

Lemma create_ok e s o b t S L B ty es l :
  heap_ok s -> hy_bands o = Some b -> 0 < b -> hy_type o = Some t -> type_size t <> None -> hy_data o = Some None ->
  0 < S -> 0 < L -> 0 < B -> type_size ty = Some es -> S * L * B * es <= 2147483647 -> B * 4 <= 2147483647 ->
  exists o' s' d w, hy_create o S L B ty (format_code l) e s = Ret o' s'
    /\ hy_image s' o' S L B ty es l d w /\ readable s' w (B * 4)
    /\ (forall x, 0 <= x < S * L * B * es -> byte_at s' d x = Some 0)
    /\ (forall x, 0 <= x < B * 4 -> byte_at s' w x = Some 0)
    /\ fresh_in s d /\ fresh_in s w /\ d <> w /\ old_unchanged s s'.
Proof.
  intros Hs Eb Hb Et Ht Ed HS HL HB Hty Hsz HB4.
  assert (Hes : 1 <= es) by (pose proof (type_size_range _ _ Hty); lia).
  destruct (size_c S L B es HS HL HB Hes Hsz) as (C1 & C2 & C3).
  unfold hy_create, hy_create7. rewrite Eb, Et, Ed.
  replace ((S >? 0) && (L >? 0)) with true by lia.
  assert (A1 : (b0 <- rd (Some b) ;; assert (b0 >? 0)) e s = Ret tt s).
  { rewrite (bind_ret _ _ _ _ _ _ (rd_some _ e s)). replace (b >? 0) with true by lia. reflexivity. }
  rewrite (bind_ret _ _ _ _ _ _ A1). rewrite (bind_ret _ _ _ _ _ _ (rd_some _ e s)).
  assert (A2 : known_type t = true).
  { unfold type_size in Ht. unfold known_type.
    destruct (t =? 1), (t =? 2), (t =? 3), (t =? 4), (t =? 5), (t =? 12), (t =? 13), (t =? 14), (t =? 15); cbn in *; congruence. }
  rewrite A2. rewrite bind_assert by reflexivity. rewrite (bind_ret _ _ _ _ _ _ (rd_some _ e s)). cbn [nonnull].
  rewrite (bind_ret (ret o) _ e s o s eq_refl).
  rewrite (type_size_elemsize _ _ Hty).
  assert (A3 : (S * L * B * es)%C = Some (S * L * B * es)).
  { rewrite C1. apply cmul_ok. lia. }
  rewrite A3. rewrite (bind_ret _ _ e s (S * L * B * es) s eq_refl).
  set (n := S * L * B * es) in *.
  rewrite (bind_ret _ _ _ _ _ _ (memset_block e s n ltac:(lia))).
  set (d0 := fun i => if (0 <=? i) && (i <? 0 + n) then 0 mod 256 else e_junk e (List.length (objs s)) i).
  set (s1 := with_block e s n d0).
  rewrite (bind_ret _ _ _ _ _ _ (memset_block e s1 (B * 4) ltac:(lia))).
  set (w0 := fun i => if (0 <=? i) && (i <? 0 + B * 4) then 0 mod 256 else e_junk e (List.length (objs s1)) i).
  set (s2 := with_block e s1 (B * 4) w0).
  pose proof (wb_isb e s n d0) as I1. fold s1 in I1.
  pose proof (wb_isb_old e s1 (B * 4) w0 _ _ _ I1) as I2. fold s2 in I2.
  pose proof (wb_isb e s1 (B * 4) w0) as I3. fold s2 in I3.
  assert (Len : List.length (objs s1) = Datatypes.S (List.length (objs s))) by apply wb_len.
  do 4 eexists. split; [reflexivity|]. split.
  { constructor; cbn [hy_samples hy_lines hy_bands hy_type hy_format hy_il hy_data hy_wave hy_elem hy_size]; auto.
    - destruct l; reflexivity.
    - eapply isb_readable; eauto. lia. }
  split; [eapply isb_readable; eauto; lia|].
  split.
  { intros x Hx. rewrite (byte_at_isb _ _ _ _ _ I2) by lia. unfold d0. replace ((0 <=? x) && (x <? 0 + n)) with true by lia. reflexivity. }
  split.
  { intros x Hx. rewrite (byte_at_isb _ _ _ _ _ I3) by lia. unfold w0. replace ((0 <=? x) && (x <? 0 + B * 4)) with true by lia. reflexivity. }
  split; [exists (List.length (objs s)); auto|]. split; [exists (List.length (objs s1)); split; auto; lia|].
  split; [intros E; assert (X : List.length (objs s) = List.length (objs s1)) by congruence; rewrite Len in X; revert X; apply Nat.neq_succ_diag_r|].
  intros x Hx. unfold s2. rewrite (wb_old e s1 (B * 4) w0) by lia. apply (wb_old e s n d0). exact Hx.
Qed.
