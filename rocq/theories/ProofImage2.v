(** * Proofs: the conversion family as a whole. *)
From Verif Require Import Base Logic ModelCore ModelImage SpecBase SpecImage ProofCore ProofLayout ProofHM ProofImage ProofCopy.
From Coq Require Import String ZifyBool ZifyNat.
Ltac Zify.zify_post_hook ::= Z.div_mod_to_equations.
Open Scope Z_scope.

Lemma conversion_ok l l' e s p m es : l <> l' ->
  env_ok e -> heap_ok s -> cube s p m l es ->
  exists f, conversion (layout_name l) (layout_name l') = Some f /\
  exists p' s', f p e s = Ret p' s' /\ converted_to s m l es s' p' l'.
Proof.
  intros Hne He Hs C.
  destruct l, l'; try congruence; eexists; (split; [reflexivity|]);
  [ destruct (bsq2bil_run e s p m es He Hs C) as (dd & dw & E & A & Aw)
  | destruct (bsq2bip_run e s p m es He Hs C) as (dd & dw & E & A & Aw)
  | destruct (bil2bsq_run e s p m es He Hs C) as (dd & dw & E & A & Aw)
  | destruct (bil2bip_run e s p m es He Hs C) as (dd & dw & E & A & Aw)
  | destruct (bip2bsq_run e s p m es He Hs C) as (dd & dw & E & A & Aw)
  | destruct (bip2bil_run e s p m es He Hs C) as (dd & dw & E & A & Aw) ];
  do 2 eexists; (split; [exact E|]); apply (conv_post e s p m); auto.
Qed.

Lemma old_unchanged_length s s' : old_unchanged s s' -> (List.length (objs s) <= List.length (objs s'))%nat.
Proof.
  intros H. destruct (Nat.le_gt_cases (List.length (objs s)) (List.length (objs s'))); auto.
  exfalso. pose proof (H (List.length (objs s')) ltac:(lia)) as X.
  rewrite (proj2 (nth_error_None (objs s') _) (le_n _)) in X. symmetry in X. apply nth_error_None in X. lia.
Qed.

Lemma old_unchanged_trans s s1 s2 : old_unchanged s s1 -> old_unchanged s1 s2 -> old_unchanged s s2.
Proof.
  intros A B k Hk. pose proof (old_unchanged_length _ _ A). rewrite B by lia. apply A. auto.
Qed.

Lemma old_unchanged_refl s : old_unchanged s s.
Proof. intros k _. reflexivity. Qed.

Lemma fresh_trans s s1 p : (List.length (objs s) <= List.length (objs s1))%nat -> fresh_in s1 p -> fresh_in s p.
Proof. intros H (k & -> & L). exists k. split; auto. lia. Qed.

Lemma converted_trans s m l es s1 p1 m1 l1 s2 p2 l2 :
  converted_to s m l es s1 p1 l1 ->
  hm_at s1 p1 = Some m1 ->
  converted_to s1 m1 l1 es s2 p2 l2 ->
  converted_to s m l es s2 p2 l2.
Proof.
  intros (m1' & C1 & F1 & F2 & F3 & ES & EL & EB & ET & PS & PW & PO & PF & PH) Hm1.
  assert (m1' = m1) as -> by (destruct C1; congruence).
  intros (m2 & C2 & G1 & G2 & G3 & ES2 & EL2 & EB2 & ET2 & PS2 & PW2 & PO2 & PF2 & PH2).
  pose proof (old_unchanged_length _ _ PO) as LL.
  exists m2. repeat (split; [first [assumption | congruence | eapply fresh_trans; eassumption]|]).
  split.
  { intros i j k t (Hi & Hj & Hk) Ht. rewrite PS2 by (auto; repeat split; lia). apply PS; auto. repeat split; lia. }
  split.
  { intros b Hb. rewrite PW2 by lia. destruct F3 as (kw & Ew & _). rewrite <- PW by auto. rewrite Ew. reflexivity. }
  split; [eapply old_unchanged_trans; eauto|]. split; [congruence|auto].
Qed.

Lemma convert_along_ok e : env_ok e -> forall ls l s p m es, ls <> [] -> is_path l ls -> heap_ok s -> cube s p m l es ->
  exists p' s', convert_along (layout_name l) (map layout_name ls) p e s = Ret p' s'
    /\ converted_to s m l es s' p' (last ls l).
Proof.
  intros He. induction ls as [|l1 ls IH]; intros l s p m es Hne HP Hs C; [congruence|].
  destruct HP as [Hl HP]. cbn [map convert_along].
  destruct (conversion_ok l l1 e s p m es Hl He Hs C) as (f & -> & p1 & s1 & E & CT).
  runs E. destruct ls as [|l2 ls].
  - exists p1, s1. split; [reflexivity|]. exact CT.
  - pose proof CT as (m1 & C1 & F1 & F2 & F3 & ES & EL & EB & ET & PS & PW & PO & PF & PH).
    destruct (IH l1 s1 p1 m1 es) as (p' & s' & E' & CT'); auto; [discriminate|].
    exists p', s'. split; [exact E'|].
    change (last (l1 :: l2 :: ls) l) with (last (l2 :: ls) l).
    replace (last (l2 :: ls) l) with (last (l2 :: ls) l1).
    + eapply converted_trans; eauto. destruct C1; auto.
    + clear. revert l2. induction ls; intros; cbn; auto. apply IHls.
Qed.

Lemma round_trip_ok e s p m l es ls :
  env_ok e -> heap_ok s -> cube s p m l es -> ls <> [] -> is_path l ls -> last ls l = l ->
  exists p' s' m', convert_along (layout_name l) (map layout_name ls) p e s = Ret p' s'
    /\ cube s' p' m' l es
    /\ hm_samples m' = hm_samples m /\ hm_lines m' = hm_lines m
    /\ hm_bands m' = hm_bands m /\ hm_type m' = hm_type m
    /\ (forall x, 0 <= x < hm_samples m * hm_lines m * hm_bands m * es ->
         byte_at s' (hm_data m') x = byte_at s (hm_data m) x)
    /\ fresh_in s (hm_data m') /\ old_unchanged s s'.
Proof.
  intros He Hs C Hne HP HL.
  destruct (convert_along_ok e He ls l s p m es Hne HP Hs C) as (p' & s' & E & CT).
  rewrite HL in CT.
  destruct CT as (m1 & C1 & F1 & F2 & F3 & ES & EL & EB & ET & PS & PW & PO & PF & PH).
  exists p', s', m1. do 6 (split; [assumption|]). split; [|split; auto].
  intros x Hx. destruct C as [Hh Ht Hp Hty HS HL0 HB Hsz Hws Hd Hw].
  assert (Hes := type_size_range _ _ Hty).
  pose proof (offset_dec l (hm_samples m) (hm_lines m) (hm_bands m) (x / es) HS HL0 HB) as D.
  destruct (dec l (hm_samples m) (hm_lines m) (hm_bands m) (x / es)) as [[i j] k].
  destruct D as (D & Hi & Hj & Hk).
  { split; [apply Z.div_pos; lia|apply Z.div_lt_upper_bound; lia]. }
  pose proof (PS i j k (x mod es) ltac:(repeat split; lia) ltac:(apply Z.mod_pos_bound; lia)) as Q.
  unfold sample_byte in Q. rewrite ES, EL, EB, D in Q. rewrite redivmod in Q by lia. exact Q.
Qed.

Lemma normalise_ok l' e s p m l es :
  env_ok e -> heap_ok s -> cube s p m l es -> l <> l' -> hm_data m <> hm_wave m -> hm_wave m <> None ->
  exists f, normalise (layout_name l') = Some f /\
  exists s', f p e s = Ret tt s' /\ rearranged s p m l es s' l'.
Proof.
  intros He Hs C Hne N1 N2. pose proof C as [Hh Ht Hp Hty HS HL HB Hsz Hws Hd Hw].
  destruct (hm_nonnull _ _ _ Hh) as [pk ->].
  destruct l, l'; try congruence; eexists; (split; [reflexivity|]);
  match goal with |- context [?f (Some pk) e s] => unfold f end;
  rewrite bind_assert by reflexivity; runs (hget_ok _ _ e _ Hh);
  repeat (first [ runs (il_cmp_bsq _ _ e s Ht Hp) | runs (il_cmp_bil _ _ e s Ht Hp) | runs (il_cmp_bip _ _ e s Ht Hp) ]; cbn [Z.eqb]);
  eapply convert_back_run; eauto;
    first [ apply bsq2bil_run | apply bsq2bip_run | apply bil2bsq_run | apply bil2bip_run
          | apply bip2bsq_run | apply bip2bil_run ]; auto.
Qed.

Lemma normalise_same l e s p m es : cube s p m l es ->
  exists f, normalise (layout_name l) = Some f /\ f p e s = Ret tt s.
Proof.
  intros [Hh Ht Hp Hty HS HL HB Hsz Hws Hd Hw]. destruct (hm_nonnull _ _ _ Hh) as [pk ->].
  destruct l; eexists; (split; [reflexivity|]);
  match goal with |- ?f (Some pk) e s = _ => unfold f end;
  rewrite bind_assert by reflexivity; runs (hget_ok _ _ e _ Hh);
  first [ runs (il_cmp_bsq _ _ e s Ht Hp) | runs (il_cmp_bil _ _ e s Ht Hp) | runs (il_cmp_bip _ _ e s Ht Hp) ]; reflexivity.
Qed.

(** Asking for the layout the image already has: every conversion function
    returns NULL. *)
Lemma conversion_same e s p m l l0 es f : cube s p m l es ->
  conversion (layout_name l0) (layout_name l) = Some f -> f p e s = Ret None s.
Proof.
  intros [Hh Ht Hp Hty HS HL HB Hsz Hws Hd Hw] Hf. destruct (hm_nonnull _ _ _ Hh) as [pk ->].
  destruct l0, l; cbn in Hf; try discriminate; injection Hf as <-;
  match goal with |- ?f (Some pk) e s = _ => unfold f end;
  rewrite bind_assert by reflexivity; runs (hget_ok _ _ e _ Hh);
  first [ runs (il_cmp_bsq _ _ e s Ht Hp) | runs (il_cmp_bil _ _ e s Ht Hp) | runs (il_cmp_bip _ _ e s Ht Hp) ]; reflexivity.
Qed.

Lemma hyper_mat_copy_never e s p :
  hyper_mat_copy p e s = match p with Some _ => Ret None s | None => UB end.
Proof. destruct p; reflexivity. Qed.

Lemma copy_to_mismatch e s p m q m' :
  hm_at s p = Some m -> hm_at s q = Some m' ->
  (hm_samples m <> hm_samples m' \/ hm_lines m <> hm_lines m'
   \/ hm_bands m <> hm_bands m' \/ hm_type m <> hm_type m') ->
  hyper_mat_copy_to p q e s = Exit.
Proof.
  intros Hh Hh' D. destruct (hm_nonnull _ _ _ Hh) as [pk ->]. destruct (hm_nonnull _ _ _ Hh') as [qk ->].
  unfold hyper_mat_copy_to. rewrite bind_assert by reflexivity.
  runs (hget_ok _ _ e _ Hh). runs (hget_ok _ _ e _ Hh').
  apply bind_assert_false. lia.
Qed.
