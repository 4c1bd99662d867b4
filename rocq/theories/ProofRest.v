(** * Proofs: printed descriptions, released blocks, unfinished entry points. *)
From Verif Require Import Base Logic ModelFloat ModelDouble ModelCore ModelFile ModelBorder ModelWavelet ModelRest SpecBase SpecCore SpecNum SpecHdr SpecPixel SpecRest.
From Verif Require Import ProofCore ProofCore2 ProofLayout ProofHM ProofWord ProofArr ProofCopy ProofInvert ProofSave ProofSave2 ProofWavelet ProofPad.
From Coq Require Import Floats.SpecFloat String Ascii ZifyBool ZifyNat.
Ltac Zify.zify_post_hook ::= Z.div_mod_to_equations.
Open Scope Z_scope.

(** ** Releasing *)
Lemma free_block e s p : block s p -> exists s', free p e s = Ret tt s' /\ released [p] s s'.
Proof.
  intros (k & o & -> & Hk & Hl & Hr). eexists. split; [exact (free_ok e s k o Hk Hl Hr)|].
  split; [cbn [objs]; apply map_length|]. split; [reflexivity|]. intros i o1 Hi. cbn [objs].
  rewrite kill_nth, Hi. cbn [option_map]. unfold kill_root.
  destruct (in_dec _ _ _) as [[Q|[]]|Hn].
  - injection Q as Q. rewrite <- Q, Nat.eqb_refl. eexists. split; [reflexivity|]. reflexivity.
  - destruct (Nat.eqb_spec (o_root o1) k) as [E|]; [|reflexivity]. exfalso. apply Hn. left. congruence.
Qed.
Lemma released_refl s : released [None] s s.
Proof. split; [reflexivity|]. split; [reflexivity|]. intros i o Hi. destruct (in_dec _ _ _) as [[Q|[]]|Hn]; [discriminate|exact Hi]. Qed.
Lemma released_trans a b s s1 s2 : released a s s1 -> released b s1 s2 -> released (a ++ b) s s2.
Proof.
  intros (L1 & F1 & R1) (L2 & F2 & R2). split; [congruence|]. split; [congruence|]. intros i o Hi. specialize (R1 i o Hi).
  destruct (in_dec ptr_eq_dec (Some (o_root o)) (a ++ b)) as [Hin|Hn].
  - destruct (in_dec ptr_eq_dec (Some (o_root o)) a) as [Ha|Ha] in R1.
    + destruct R1 as (o' & H' & D'). specialize (R2 i o' H'). destruct (in_dec _ _ _) as [_|_] in R2; [exact R2|]. exists o'. auto.
    + specialize (R2 i o R1). apply in_app_or in Hin as [Hin|Hin]; [contradiction|]. destruct (in_dec _ _ _) as [_|Hb] in R2; [exact R2|contradiction].
  - destruct (in_dec ptr_eq_dec (Some (o_root o)) a) as [Ha|Ha] in R1; [exfalso; apply Hn, in_or_app; auto|].
    specialize (R2 i o R1). destruct (in_dec _ _ _) as [Hb|_] in R2; [exfalso; apply Hn, in_or_app; auto|exact R2].
Qed.
Lemma block_kept s s' p l : released l s s' -> ~ In p l -> block s p -> block s' p.
Proof.
  intros (_ & _ & R) Hn (k & o & -> & Hk & Hl & Hr). exists k, o. specialize (R k o Hk). rewrite Hr in R.
  destruct (in_dec _ _ _) as [Q|_] in R; [contradiction|]. auto.
Qed.
Lemma own_kept s s' p : forall l, released [p] s s' -> ~ In p l -> own_blocks s l -> own_blocks s' l.
Proof.
  induction l as [|q l IH]; intros R Hn H; [exact I|]. destruct H as [H1 H2]. split; [|apply IH; auto; intros Q; apply Hn; now right].
  destruct H1 as [->|[B N]]; [now left|]. right. split; [|exact N]. eapply block_kept; [exact R| |exact B]. intros [->|[]]. apply Hn. now left.
Qed.
Lemma own_null s s' : forall l, s' = s -> own_blocks s l -> own_blocks s' l.
Proof. intros l ->. auto. Qed.
Lemma free_own e s p l : own_blocks s (p :: l) ->
  exists s', (if nonnull p then free p else ret tt) e s = Ret tt s' /\ released [p] s s' /\ own_blocks s' l.
Proof.
  intros [[->|[B N]] H].
  - exists s. split; [reflexivity|]. split; [apply released_refl|exact H].
  - destruct (free_block e s p B) as (s' & E & R). exists s'. split; [destruct p; [exact E|destruct B as (k & o & Q & _); discriminate]|]. split; [exact R|]. eapply own_kept; eauto.
Qed.

Theorem coefset_released : forall e s cs A H V D, own_blocks s [A; H; V; D; cs] -> cs <> None ->
  exists s', wt_coefset_free cs (CoefSet A H V D) e s = Ret tt s' /\ released [A; H; V; D; cs] s s'.
Proof.
  intros e s cs A H V D O Hc. unfold wt_coefset_free. destruct cs as [c|]; [|contradiction]. cbn [nonnull cs_A_LL cs_H_LH cs_V_HL cs_D_HH].
  destruct (free_own e s _ _ O) as (s1 & E1 & R1 & O1). runs E1.
  destruct (free_own e s1 _ _ O1) as (s2 & E2 & R2 & O2). runs E2.
  destruct (free_own e s2 _ _ O2) as (s3 & E3 & R3 & O3). runs E3.
  destruct (free_own e s3 _ _ O3) as (s4 & E4 & R4 & O4). runs E4.
  destruct (free_own e s4 _ _ O4) as (s5 & E5 & R5 & _). exists s5. split; [exact E5|].
  exact (released_trans [_] _ _ _ _ R1 (released_trans [_] _ _ _ _ R2 (released_trans [_] _ _ _ _ R3 (released_trans [_] _ _ _ _ R4 R5)))).
Qed.
Theorem info_released : forall e s wt c d, own_blocks s [c; d; wt] -> wt <> None ->
  exists s', wt_info_free wt c d e s = Ret tt s' /\ released [c; d; wt] s s'.
Proof.
  intros e s wt c d O Hc. unfold wt_info_free. destruct wt as [w|]; [|contradiction]. cbn [nonnull].
  destruct (free_own e s _ _ O) as (s1 & E1 & R1 & O1). runs E1.
  destruct (free_own e s1 _ _ O1) as (s2 & E2 & R2 & O2). runs E2.
  destruct (free_own e s2 _ _ O2) as (s3 & E3 & R3 & _). exists s3. split; [exact E3|].
  exact (released_trans [_] _ _ _ _ R1 (released_trans [_] _ _ _ _ R2 R3)).
Qed.

(** ** Printing *)
Lemma place_app a b : place_value (a ++ b) = place_value a * 10 ^ Z.of_nat (List.length b) + place_value b.
Proof.
  induction a as [|c a IH]; cbn [place_value app]; [lia|]. rewrite IH, app_length, Nat2Z.inj_add, Z.pow_add_r by lia. ring.
Qed.
Lemma digits_six n : forall v, 0 <= v -> Forall digit (digits n v) /\ List.length (digits n v) = n /\ place_value (digits n v) = v mod 10 ^ Z.of_nat n.
Proof.
  induction n as [|n IH]; intros v Hv; cbn [digits].
  - split; [constructor|]. split; [reflexivity|]. cbn. now rewrite Z.mod_1_r.
  - destruct (IH (v / 10) ltac:(lia)) as (F & L & P). split; [apply Forall_app; split; [exact F|]; constructor; [|constructor]; unfold digit; lia|].
    split; [rewrite app_length, L; cbn; lia|]. rewrite place_app, P. cbn [place_value List.length]. change (10 ^ Z.of_nat 1) with 10. change (10 ^ Z.of_nat 0) with 1.
    rewrite Nat2Z.inj_succ, Z.pow_succ_r by lia. assert (K : 0 < 10 ^ Z.of_nat n) by (apply Z.pow_pos_nonneg; lia).
    rewrite Z.rem_mul_r by lia. lia.
Qed.
Lemma half_even_near n d : 0 <= n -> 0 < d -> 0 <= half_even n d /\ 2 * Z.abs (half_even n d * d - n) <= d.
Proof.
  intros Hn Hd. unfold half_even. pose proof (Z.div_mod n d ltac:(lia)) as DM. pose proof (Z.mod_pos_bound n d Hd) as MB. pose proof (Z.div_pos n d Hn Hd) as QP.
  set (q := n / d) in *. set (r := n mod d) in *. clearbody q r. cbv zeta.
  destruct (2 * r <? d) eqn:E1; [|destruct (d <? 2 * r) eqn:E2; [|destruct (Z.even q)]]; split; try lia; nia.
Qed.
Lemma dec_digits n : 0 <= n -> exists ds, ModelFile.dec n = ds /\ ds <> [] /\ Forall digit ds /\ place_value ds = n.
Proof.
  intros H. unfold ModelFile.dec. set (f := S (Z.to_nat (Z.log2 n))). pose proof (Z.log2_nonneg n) as Hl0.
  destruct (dec_go_ok f n []) as (ds & E & Hne & Fd & Hv & Hlen); [lia| |].
  - replace (Z.of_nat f) with (Z.succ (Z.log2 n)) by lia. destruct (Z.eq_dec n 0) as [->|Hn]; [cbn; lia|]. pose proof (Z.log2_spec n ltac:(lia)). lia.
  - exists ds. rewrite app_nil_r in E. repeat split; auto.
Qed.
Lemma print_f_six x : six_decimals (print_f x) x.
Proof.
  destruct x as [s|s| |s m e]; cbn [six_decimals print_f]; try (destruct s; reflexivity); try reflexivity.
  set (q := if 0 <=? e then Z.pos m * 2 ^ e * 1000000 else half_even (Z.pos m * 1000000) (2 ^ (- e))).
  assert (Q : 0 <= q /\ (if 0 <=? e then q = Z.pos m * 2 ^ e * 10 ^ 6 else 2 * Z.abs (q * 2 ^ (- e) - Z.pos m * 10 ^ 6) <= 2 ^ (- e))).
  { unfold q. destruct (Z.leb_spec 0 e) as [He|He].
    - split; [|reflexivity]. assert (0 < 2 ^ e) by (apply Z.pow_pos_nonneg; lia). nia.
    - change (10 ^ 6) with 1000000. apply half_even_near; [lia|apply Z.pow_pos_nonneg; lia]. }
  destruct Q as [Q0 Q]. destruct (dec_digits (q / 1000000) ltac:(lia)) as (ds & -> & Hne & Fd & Pd). destruct (digits_six 6 q Q0) as (Ff & Lf & Pf).
  exists ds, (digits 6 q). split; [destruct s; reflexivity|]. split; [exact Hne|]. split; [exact Fd|]. split; [exact Ff|]. split; [exact Lf|].
  assert (P : place_value (ds ++ digits 6 q) = q).
  { rewrite place_app, Lf, Pd, Pf. change (10 ^ Z.of_nat 6) with 1000000. lia. }
  now rewrite P.
Qed.

Lemma chars_text x : chars x = text x.
Proof. induction x as [|c r IH]; cbn [chars text]; [reflexivity|]. rewrite IH. f_equal. unfold nat_of_ascii. now rewrite ?N_nat_Z. Qed.

Theorem showinfo_text : forall e s p m l es, cube s p m l es ->
  exists out, hyper_mat_showinfo p e s = Ret out s
    /\ exists a b c d, decimal a (hm_samples m) /\ decimal b (hm_lines m) /\ decimal c (hm_bands m) /\ decimal d (hm_type m)
    /\ match hm_wave m with
       | None => out = numbers_text a b c d (tag_of l)
       | Some _ => exists ws, out = numbers_text a b c d (tag_of l) ++ waves_text ws /\ List.length ws = Z.to_nat (hm_bands m)
           /\ forall k w v, nth_error ws k = Some w -> word_at s (hm_wave m) (4 * Z.of_nat k) 4 = Some v -> six_decimals w (fl_of_bits v)
       end.
Proof.
  intros e s p m l es [Hh Ht Hp Hty HS HL HB Hsz Hws Hd Hw].
  assert (ES : 1 <= es) by (destruct (type_size_range _ _ Hty) as [->|[->|[->| ->]]]; lia).
  assert (R : hm_samples m <= 2147483647 /\ hm_lines m <= 2147483647 /\ hm_bands m <= 2147483647).
  { assert (hm_samples m * hm_lines m * hm_bands m <= 2147483647) by nia. assert (1 <= hm_samples m * hm_lines m) by nia. assert (1 <= hm_lines m * hm_bands m) by nia. 
    split; [nia|]. split; [|nia]. assert (hm_samples m * hm_lines m <= 2147483647) by nia. nia. }
  assert (RT : 0 <= hm_type m <= 100) by (unfold type_size in Hty; destruct (hm_type m =? 1) eqn:T1; [lia|]; destruct ((hm_type m =? 2) || (hm_type m =? 12)) eqn:T2; [lia|]; destruct ((hm_type m =? 3) || (hm_type m =? 4) || (hm_type m =? 13)) eqn:T3; [lia|]; destruct ((hm_type m =? 5) || (hm_type m =? 14) || (hm_type m =? 15)) eqn:T4; [lia|discriminate]).
  unfold hyper_mat_showinfo. destruct p as [k|]; [|discriminate Hh]. cbn [nonnull]. runs (hget_ok _ _ e _ Hh). rewrite Ht.
  replace (tag3 (tag_of l)) with (ret (tag_of l)) by (destruct l; reflexivity). rewrite bind_ret_l.
  rewrite !chars_text. set (head := text "mat's samples is " ++ _).
  assert (HD : head = numbers_text (print_d (hm_samples m)) (print_d (hm_lines m)) (print_d (hm_bands m)) (print_d (hm_type m)) (tag_of l)) by reflexivity.
  destruct (hm_wave m) as [q|] eqn:EW; cbn [nonnull].
  - destruct Hw as [Hw|(q0 & N & dw & [= <-] & Hb & HN)]; [discriminate|].
    assert (I : isb s q N dw) by exact Hb. pose proof (arr_of s q N dw 0 4 (hm_bands m) I ltac:(lia) ltac:(lia) ltac:(lia)) as A.
    set (g := fun i => word dw (0 + i * 4) (Z.to_nat 4)) in A.
    set (W := fun i : Z => List.map (fun k => print_f (fl_of_bits (g (Z.of_nat k)))) (seq 0 (Z.to_nat i))).
    destruct (forS_inv e 0 (hm_bands m) (fun i out => x <- loadf (Some q) i ;; ret (out ++ print_f x ++ chars ",")) (fun i out s' => s' = s /\ out = head ++ waves_text (W i)) s (head ++ text "mat's wavelength is" ++ [10]))
      as (out & s' & E & -> & EO).
    + lia.
    + split; [reflexivity|]. unfold W, waves_text. cbn [Z.to_nat seq List.map List.concat]. rewrite app_nil_r. reflexivity.
    + intros i out s' Hi [-> EO]. eexists _, s. runs (loadf_arr e s q _ _ i A Hi). split; [reflexivity|]. split; [reflexivity|]. rewrite EO.
      unfold W, waves_text. replace (Z.to_nat (i + 1)) with (S (Z.to_nat i)) by lia. rewrite seq_S, !map_app, concat_app, <- !app_assoc. cbn [List.map List.concat].
      rewrite chars_text, app_nil_r. cbn [Nat.add]. rewrite Z2Nat.id by lia. reflexivity.
    + exists out. split; [exact E|]. do 4 eexists. repeat (split; [apply print_d_ok; lia|]). exists (W (hm_bands m)).
      split; [rewrite EO, HD; reflexivity|]. split; [unfold W; now rewrite map_length, seq_length|].
      intros k0 w v Hk Hv. assert (L : (k0 < Z.to_nat (hm_bands m))%nat) by (assert (nth_error (W (hm_bands m)) k0 <> None) as Q by congruence; apply nth_error_Some in Q; unfold W in Q; now rewrite map_length, seq_length in Q).
      unfold W in Hk. rewrite nth_error_map in Hk. rewrite (nth_error_nth' _ 0%nat) in Hk by (rewrite seq_length; exact L). rewrite seq_nth in Hk by exact L. cbn [option_map Nat.add] in Hk. injection Hk as <-.
      rewrite (word_at_isb s q N dw 4 I) in Hv by lia. injection Hv as <-. unfold g. rewrite Z.add_0_l, (Z.mul_comm (Z.of_nat k0)). apply print_f_six.
  - eexists. split; [reflexivity|]. do 4 eexists. repeat (split; [apply print_d_ok; lia|]). exact HD.
Qed.
Theorem showinfo_null : forall e s, hyper_mat_showinfo None e s = Ret (text "mat is NULL" ++ [10]) s.
Proof. reflexivity. Qed.

(** ** Unfinished *)
Theorem resize_nothing : forall e s p q ms md es flag, image s p ms es -> image s q md es -> sm_type ms = sm_type md -> simple_mat_resize p q flag e s = Ret tt s.
Proof.
  intros e s p q ms md es flag [H1 _ _ _ _ _ _] [H2 _ _ _ _ _ _] T. unfold simple_mat_resize. runs (sget_ok _ _ e _ H1). runs (sget_ok _ _ e _ H2).
  destruct p; [|discriminate H1]. destruct q; [|discriminate H2]. cbn [nonnull andb]. runs (assert_true e s). rewrite T, Z.eqb_refl. reflexivity.
Qed.
Theorem resize_null : forall e s q flag, simple_mat_resize None q flag e s = UB.
Proof. reflexivity. Qed.
Theorem hough_nothing : forall e s pts n R lr lt, INT_MIN <= R <= INT_MAX ->
  (-5948709 <= R <= 5948707 -> hypercv_hough_trans pts n R lr lt e s = Ret tt s) /\ (~ -5948709 <= R <= 5948707 -> hypercv_hough_trans pts n R lr lt e s = UB).
Proof.
  intros e s pts n R lr lt HR. unfold hypercv_hough_trans. split; intros H.
  - runs (ev_ok ((360 + 1) * (R + 1))%C ((360 + 1) * (R + 1)) e s ltac:(unfold ci; rewrite (cadd_ok R 1) by lia; rewrite (cadd_ok 360 1) by lia; rewrite cmul_ok by lia; reflexivity)). reflexivity.
  - unfold bind, ev, ci. rewrite (cadd_ok 360 1) by lia. change (360 + 1) with 361. unfold cadd, cmul, cop, chk, in_int.
    destruct ((INT_MIN <=? R + 1) && (R + 1 <=? INT_MAX)) eqn:E; [|reflexivity].
    replace ((INT_MIN <=? 361 * (R + 1)) && (361 * (R + 1) <=? INT_MAX)) with false; [reflexivity|]. unfold INT_MIN, INT_MAX in *. lia.
Qed.
Theorem color_nothing : forall e s p method, p <> None ->
  hypercv_colortransform p method e s = if (method =? 4) || (method =? 6) || (method =? 7) || (method =? 8) then Ret tt s else Exit.
Proof.
  intros e s p method Hp. unfold hypercv_colortransform. destruct p; [|contradiction]. cbn [nonnull]. runs (assert_true e s).
  destruct (method =? 4), (method =? 6), (method =? 7), (method =? 8); reflexivity.
Qed.
Theorem dwt1D_nothing : forall e s p q n, hypercv_dwt1D_float p q n e s = Ret tt s.
Proof. reflexivity. Qed.

Theorem wavedec_leak : forall e s p m es level wave border, env_ok e -> heap_ok s -> image s p m es -> 0 <= level -> level * 8 <= 2147483647 ->
  exists s', hypercv_wavedec p level wave border e s = Ret tt s' /\ old_unchanged s s' /\ files s' = files s /\ left_behind 4 s s'.
Proof.
  intros e s p m es level wave border He Hs IM L0 L8. destruct (copy_sm_run e s p m es He Hs IM) as (dd & E1 & _).
  unfold hypercv_wavedec. destruct p as [kp|]; [|destruct IM as [H _ _ _ _ _ _]; discriminate H]. cbn [nonnull]. runs (assert_true e s).
  runs E1. set (s1 := newsm e s _ _ _ _ _ dd). destruct (calloc_run e s1 1 32 ltac:(lia)) as (d2 & E2). runs E2. cbn [nonnull]. rewrite bind_ret_l. change (1 * 32) with 32.
  set (q := List.length (objs s1)).
  assert (ST : forall d off k v, 0 <= off -> off + Z.of_nat k <= 32 -> exists d', storele (Some q) off k v e (with_block e s1 32 d) = Ret tt (with_block e s1 32 d')).
  { intros d off k v H0 H1. destruct (storele_ok e _ q 32 d k v off (wb_isb e s1 32 d) H0 H1) as (d' & E & _). exists d'. rewrite E. unfold q. now rewrite wb_put. }
  destruct (ST d2 0 4%nat wave ltac:(lia) ltac:(lia)) as (d3 & E3). runs E3.
  destruct (ST d3 4 4%nat border ltac:(lia) ltac:(lia)) as (d4 & E4). runs E4.
  destruct (ST d4 8 4%nat level ltac:(lia) ltac:(lia)) as (d5 & E5). runs E5.
  destruct (ST d5 16 8%nat 0 ltac:(lia) ltac:(lia)) as (d6 & E6). runs E6.
  destruct (ST d6 24 8%nat 0 ltac:(lia) ltac:(lia)) as (d7 & E7). runs E7.
  rewrite Z.mod_small by (change (2 ^ 64) with 18446744073709551616; lia).
  set (s7 := with_block e s1 32 d7). destruct (calloc_run e s7 level 8 ltac:(lia)) as (d8 & E8). runs E8.
  set (s8 := with_block e s7 (level * 8) d8).
  destruct (for_inv e 0 level (fun _ => ret tt) (fun _ s' => s' = s8) s8 L0 eq_refl) as (s9 & E9 & ->); [intros i s' _ ->; eexists; split; reflexivity|].
  exists s8. split; [exact E9|].
  assert (O1 : objs s8 = objs s ++ skipn (List.length (objs s)) (objs s8) /\ List.length (objs s8) = (List.length (objs s) + 4)%nat /\ Forall (fun o => o_live o = true) (skipn (List.length (objs s)) (objs s8))).
  { assert (X : exists l, objs s8 = objs s ++ l /\ List.length l = 4%nat /\ Forall (fun o => o_live o = true) l).
    { unfold s8, with_block. cbn [objs]. unfold s7, with_block. cbn [objs]. unfold s1, newsm. cbn [objs]. rewrite <- !app_assoc. cbn [app].
      eexists. split; [reflexivity|]. split; [reflexivity|]. repeat (apply Forall_cons; [reflexivity|]). apply Forall_nil. }
    destruct X as (l & -> & Ll & F). rewrite skipn_app, skipn_all, Nat.sub_diag. cbn [skipn app]. split; [reflexivity|]. split; [rewrite app_length; lia|exact F]. }
  destruct O1 as (O1 & O2 & O3). split; [|split; [reflexivity|]].
  - intros i Hi. rewrite O1. now rewrite nth_error_app1.
  - split; [exact O2|]. intros i o Hi Ho. rewrite O1, nth_error_app2 in Ho by exact Hi. rewrite Forall_forall in O3. apply O3. eapply nth_error_In; eauto.
Qed.

Theorem subdec_leak : forall e s p m w x, env_ok e -> heap_ok s -> image s p m 1 -> 1 <= fb_len w ->
  let a := fb_len w - 1 in (sm_rows m + a + a) * (sm_cols m + a + a) * sm_chan m + 96 <= 2147483647 ->
  exists s' q m', sub_wavedec p w (mode_of x) e s = Ret tt s' /\ old_unchanged s s' /\ files s' = files s
    /\ block s' (Some (List.length (objs s))) /\ fresh_in s q /\ q <> Some (List.length (objs s)) /\ image s' q m' 1.
Proof.
  intros e s p m w x He Hs IM Hl a Hsz. assert (Ha : a = fb_len w - 1) by reflexivity. clearbody a.
  pose proof IM as [_ _ R1 C1 Ch1 _ _].
  assert (B : a <= 2147483647) by (assert (1 <= (sm_cols m + a + a) * sm_chan m) by nia; assert (sm_rows m + a + a <= (sm_rows m + a + a) * ((sm_cols m + a + a) * sm_chan m)) by nia; nia).
  unfold sub_wavedec. destruct (calloc_run e s 1 32 ltac:(lia)) as (d2 & E2). runs E2. change (1 * 32) with 32. set (s1 := with_block e s 32 d2) in *.
  runs (ev_ok (fb_len w - 1)%C a e s1 ltac:(unfold ci; rewrite (csub_ok (fb_len w) 1) by lia; now rewrite Ha)).
  assert (O1 : old_unchanged s s1) by apply wb_old.
  assert (H1 : heap_ok s1) by (apply wb_heap; exact Hs).
  destruct (pad_extend e s1 p m a a a a 0 He H1 (image_old _ _ _ _ _ O1 IM) ltac:(lia) ltac:(lia) ltac:(lia) ltac:(lia) Hsz x) as (q & s' & E & PD).
  runs E. destruct PD as (m' & I' & _ & _ & _ & _ & _ & (kq & Eq & Fq) & _ & O2 & F2 & _). exists s', q, m'.
  assert (L1 : List.length (objs s1) = S (List.length (objs s))) by apply wb_len.
  split; [reflexivity|]. split; [intros i Hi; rewrite O2 by lia; now apply O1|]. split; [rewrite F2; reflexivity|].
  split; [|split; [exists kq; split; [exact Eq|lia]|split; [rewrite Eq; intros [= Q]; lia|exact I']]].
  eexists _, _. split; [reflexivity|]. rewrite O2 by lia. unfold s1, with_block. cbn [objs]. rewrite nth_error_app2, Nat.sub_diag by lia. split; [reflexivity|]. split; reflexivity.
Qed.
