(** * Proofs: reading whole ENVI headers. *)
From Verif Require Import Base Logic ModelFloat ModelCore ModelPixel ModelFile SpecBase SpecFile SpecHdr ProofCore ProofHM ProofImage4 ProofBmp ProofHdr.
From Coq Require Import Floats.SpecFloat String Ascii ZifyBool ZifyNat.
Ltac Zify.zify_post_hook ::= Z.div_mod_to_equations.
Open Scope Z_scope.

Definition hdr_cond (x : hdr * list Z) : bool := match snd x with [] => false | _ => true end.
Definition hdr_body (strtod : list Z -> sf) (il : ptr) (x : hdr * list Z) : M (hdr * list Z) :=
  let (l, rest) := fgets (snd x) in readhdr_line strtod il (cstr l) rest (fst x).

Lemma readhdr_eq strtod text il :
  readhdr strtod text il = (x <- whileF (S (List.length text)) hdr_cond (hdr_body strtod il) (hdr0, text) ;; ret (fst x)).
Proof. reflexivity. Qed.

Lemma hdr_step strtod il h line rest n e s : header_line line ->
  whileF (S n) hdr_cond (hdr_body strtod il) (h, line ++ rest) e s =
  (y <- readhdr_line strtod il line rest h ;; whileF n hdr_cond (hdr_body strtod il) y) e s.
Proof.
  intros H. cbn [whileF]. unfold hdr_cond at 1. cbn [snd].
  assert (Hne : exists c r, line ++ rest = c :: r) by (destruct H as (l & -> & _); destruct l; cbn; eauto).
  destruct Hne as (c & r & E). rewrite E. rewrite <- E. cbv iota. unfold hdr_body at 1. cbn [snd fst].
  rewrite (fgets_header _ _ H). now rewrite (cstr_id _ (line_no0 _ H)).
Qed.

Definition from (get : hfield -> option Z) (l : list hfield) (acc : option Z) : option Z :=
  fold_left (fun acc f => match get f with Some z => Some z | None => acc end) l acc.

Record after (fs : list hfield) (h h' : hdr) : Prop := {
  af_S : h_samples h' = from get_samples fs (h_samples h);
  af_L : h_lines h' = from get_lines fs (h_lines h);
  af_B : h_bands h' = from get_bands fs (h_bands h);
  af_T : h_type h' = from get_type fs (h_type h);
  af_bt : (forall z, h_bands h = Some z -> h_bandtemp h = z) -> forall z, h_bands h' = Some z -> h_bandtemp h' = z;
  af_w : h_wave h' = h_wave h }.

Lemma after_nil h : after [] h h.
Proof. constructor; reflexivity || auto. Qed.
Lemma after_put f item fs h h' : after fs (put_field f item h) h' -> after (f :: fs) h h'.
Proof.
  intros [A B C D E G]. constructor.
  - rewrite A. unfold from. cbn. now destruct f.
  - rewrite B. unfold from. cbn. now destruct f.
  - rewrite C. unfold from. cbn. now destruct f.
  - rewrite D. unfold from. cbn. now destruct f.
  - intros H. apply E. destruct f; cbn; auto. intros z0 [=]. auto.
  - rewrite G. reflexivity.
Qed.
Lemma after_app fs gs h h1 h2 : after fs h h1 -> after gs h1 h2 -> after (fs ++ gs) h h2.
Proof.
  intros [A B C D E G] [A' B' C' D' E' G']. unfold from in *. constructor; unfold from; rewrite ?fold_left_app; try congruence.
  intros H. apply E'. auto.
Qed.

Lemma hdr_lines strtod il e s fs lines : Forall2 reads fs lines -> Forall header_line lines -> Forall (fun f => ~ is_interleave f) fs ->
  forall n h rest, exists h',
    whileF (List.length lines + n) hdr_cond (hdr_body strtod il) (h, List.concat lines ++ rest) e s
    = whileF n hdr_cond (hdr_body strtod il) (h', rest) e s
    /\ after fs h h' /\ h_pos h' = h_pos h /\ h_it h' = h_it h.
Proof.
  induction 1 as [|f line fs lines Hf _ IH]; intros Hl Hi n h rest.
  - exists h. split; [reflexivity|]. split; [apply after_nil|auto].
  - inversion Hl; subst. inversion Hi; subst. cbn [List.length List.concat Nat.add]. rewrite <- app_assoc.
    rewrite hdr_step by auto.
    destruct (line_number strtod il (List.concat lines ++ rest) h e s f line Hf) as (item & E); [auto| |].
    { destruct f; auto. cbn in *. tauto. }
    runs E. destruct (IH ltac:(auto) ltac:(auto) n (put_field f item h) rest) as (h' & E' & A & P & I).
    exists h'. split; [exact E'|]. split; [eapply after_put; eauto|]. rewrite P, I.
    destruct f; cbn; auto. cbn in *. tauto.
Qed.

Lemma states_nonempty lines : Forall header_line lines -> (List.length lines <= List.length (List.concat lines))%nat.
Proof.
  induction 1 as [|l lines H _ IH]; [auto|]. destruct H as (l' & -> & _). cbn. rewrite !app_length. cbn. lia.
Qed.

Definition tag_data (d : Z -> Z) (pos a b c : Z) : Z -> Z :=
  fupd (fupd (fupd d pos (a mod 256)) (pos + 1) (b mod 256)) (pos + 2) (c mod 256).

(** All the lines of a header with one interleave line. *)
Lemma hdr_all strtod q e s n0 d fs1 a b c fs2 lines1 line lines2 :
  Forall2 reads fs1 lines1 -> states (Interleave a b c) line -> Forall2 reads fs2 lines2 ->
  Forall header_line (lines1 ++ line :: lines2) ->
  Forall (fun f => ~ is_interleave f) fs1 -> Forall (fun f => ~ is_interleave f) fs2 ->
  isb s q n0 d -> 3 <= n0 ->
  forall n rest, exists h',
    whileF (List.length (lines1 ++ line :: lines2) + n) hdr_cond (hdr_body strtod (Some q))
      (hdr0, List.concat (lines1 ++ line :: lines2) ++ rest) e s
    = whileF n hdr_cond (hdr_body strtod (Some q)) (h', rest) e (putd s q (tag_data d 0 a b c))
    /\ after (fs1 ++ Interleave a b c :: fs2) hdr0 h'.
Proof.
  intros S1 S0 S2 HL I1 I2 Hq Hn n rest.
  apply Forall_app in HL as (HL1 & HL2). inversion HL2 as [|? ? Hline HL2']; subst.
  rewrite concat_app. cbn [List.concat]. rewrite <- !app_assoc. rewrite app_length. cbn [List.length].
  replace (List.length lines1 + S (List.length lines2) + n)%nat with (List.length lines1 + S (List.length lines2 + n))%nat by lia.
  destruct (hdr_lines strtod (Some q) e s fs1 lines1 S1 HL1 I1 (S (List.length lines2 + n)) hdr0 (line ++ List.concat lines2 ++ rest)) as (h1 & E1 & A1 & P1 & T1).
  rewrite E1, hdr_step by auto.
  destruct (line_interleave strtod q (List.concat lines2 ++ rest) h1 e s n0 d a b c line S0 Hline) as (item & E0); auto.
  { rewrite T1. reflexivity. } { rewrite P1. cbn. lia. } { rewrite P1. cbn. lia. }
  runs E0. rewrite P1. change (h_pos hdr0) with 0. fold (tag_data d 0 a b c).
  destruct (hdr_lines strtod (Some q) e (putd s q (tag_data d 0 a b c)) fs2 lines2 S2 HL2' I2 n (put_field (Interleave a b c) item h1) rest) as (h2 & E2 & A2 & _).
  exists h2. split; [exact E2|]. apply after_app with (1 := A1). eapply after_put; eauto.
Qed.

Lemma tag_data_at d a b c :
  tag_data d 0 a b c 0 = a mod 256 /\ tag_data d 0 a b c 1 = b mod 256 /\ tag_data d 0 a b c 2 = c mod 256
  /\ (forall x, ~ 0 <= x < 3 -> tag_data d 0 a b c x = d x).
Proof.
  unfold tag_data, fupd. repeat split; intros; try reflexivity.
  repeat match goal with |- context[?x =? ?y] => destruct (Z.eqb_spec x y); [lia|] end. reflexivity.
Qed.

(** C13: headers whose lines cannot be mistaken. *)
Lemma readhdr_reads strtod e s q n0 fs1 a b c fs2 lines1 line lines2 :
  Forall2 reads fs1 lines1 -> states (Interleave a b c) line -> Forall2 reads fs2 lines2 ->
  Forall header_line (lines1 ++ line :: lines2) ->
  Forall (fun f => ~ is_interleave f) fs1 -> Forall (fun f => ~ is_interleave f) fs2 ->
  readable s (Some q) n0 -> 3 <= n0 ->
  exists h s', readhdr strtod (List.concat (lines1 ++ line :: lines2)) (Some q) e s = Ret h s'
    /\ h_samples h = last_stated get_samples (fs1 ++ fs2)
    /\ h_lines h = last_stated get_lines (fs1 ++ fs2)
    /\ h_bands h = last_stated get_bands (fs1 ++ fs2)
    /\ h_type h = last_stated get_type (fs1 ++ fs2)
    /\ h_wave h = None
    /\ byte_at s' (Some q) 0 = Some a /\ byte_at s' (Some q) 1 = Some b /\ byte_at s' (Some q) 2 = Some c
    /\ unchanged_except [Some q] s s'
    /\ (forall x, 3 <= x -> byte_at s' (Some q) x = byte_at s (Some q) x)
    /\ files s' = files s.
Proof.
  intros S1 S0 S2 HL I1 I2 Hr Hn. apply readable_isb in Hr as (q' & N & d & [= <-] & Hq & HN).
  set (T := List.concat (lines1 ++ line :: lines2)).
  assert (HT := states_nonempty _ HL). fold T in HT.
  destruct (hdr_all strtod q e s N d fs1 a b c fs2 lines1 line lines2 S1 S0 S2 HL I1 I2 Hq ltac:(lia)
    (S (List.length T) - List.length (lines1 ++ line :: lines2)) []) as (h & E & A).
  fold T in E. rewrite app_nil_r in E.
  replace (List.length (lines1 ++ line :: lines2) + (S (List.length T) - List.length (lines1 ++ line :: lines2)))%nat with (S (List.length T)) in E by lia.
  exists h, (putd s q (tag_data d 0 a b c)). split.
  { rewrite readhdr_eq. rewrite (bind_ret _ _ e s (h, []) (putd s q (tag_data d 0 a b c))); [reflexivity|]. rewrite E.
    destruct (S (List.length T) - List.length (lines1 ++ line :: lines2))%nat eqn:En; reflexivity. }
  destruct A as [AS AL AB AT _ AW].
  assert (Fr : forall g, g (Interleave a b c) = None -> from g (fs1 ++ Interleave a b c :: fs2) None = last_stated g (fs1 ++ fs2)).
  { intros g Hg. unfold from, last_stated. rewrite !fold_left_app. cbn. now rewrite Hg. }
  rewrite AS, AL, AB, AT, AW. do 4 (split; [apply Fr; reflexivity|]). split; [reflexivity|].
  assert (Hq' := isb_putd_eq s q N d (tag_data d 0 a b c) Hq).
  destruct (tag_data_at d a b c) as (Ta & Tb & Tc & To).
  assert (Hrange : 0 < a < 256 /\ 0 < b < 256 /\ 0 < c < 256).
  { apply Forall_app in HL as (_ & HL2). inversion HL2 as [|? ? Hline _]; subst. destruct S0 as (more & r & El & _).
    destruct Hline as (l & El' & _ & F & _).
    assert (El2 : l = text "interleave" ++ more ++ text "= " ++ [a; b; c] ++ r).
    { apply app_inj_tail with (a := 10) (b := 10). rewrite <- El', El. now rewrite <- !app_assoc. }
    rewrite Forall_forall in F. repeat split; apply F; rewrite El2; do 3 (apply in_or_app; right); apply in_or_app; left; cbn; auto. }
  unfold byte_at. unfold isb in Hq'. rewrite !Hq'. rewrite !inb_true by lia. rewrite Ta, Tb, Tc.
  split; [f_equal; lia|]. split; [f_equal; lia|]. split; [f_equal; lia|]. split.
  { intros i Hi Hne. unfold putd; cbn. apply lupd_nth_ne. intros ->. apply Hne. now left. }
  split; [|reflexivity]. intros x Hx. unfold isb in Hq. rewrite Hq. destruct (inb _ _) eqn:Ei; [|reflexivity]. rewrite To by lia. reflexivity.
Qed.

Lemma readhdr_fields strtod e s q n0 fs1 a b c fs2 lines1 line lines2 :
  Forall2 states fs1 lines1 -> states (Interleave a b c) line -> Forall2 states fs2 lines2 ->
  Forall header_line (lines1 ++ line :: lines2) ->
  Forall (fun f => ~ is_interleave f) fs1 -> Forall (fun f => ~ is_interleave f) fs2 ->
  readable s (Some q) n0 -> 3 <= n0 ->
  exists h s', readhdr strtod (List.concat (lines1 ++ line :: lines2)) (Some q) e s = Ret h s'
    /\ h_samples h = last_stated get_samples (fs1 ++ fs2)
    /\ h_lines h = last_stated get_lines (fs1 ++ fs2)
    /\ h_bands h = last_stated get_bands (fs1 ++ fs2)
    /\ h_type h = last_stated get_type (fs1 ++ fs2)
    /\ h_wave h = None
    /\ byte_at s' (Some q) 0 = Some a /\ byte_at s' (Some q) 1 = Some b /\ byte_at s' (Some q) 2 = Some c
    /\ unchanged_except [Some q] s s'
    /\ (forall x, 3 <= x -> byte_at s' (Some q) x = byte_at s (Some q) x)
    /\ files s' = files s.
Proof. intros S1 S0 S2. apply readhdr_reads; auto using states_reads_all. Qed.

(** A data ignore value is taken for the data type. *)
Lemma data_ignore strtod e s q n0 fs1 a b c fs2 lines1 line lines2 z ign :
  Forall2 states fs1 lines1 -> states (Interleave a b c) line -> Forall2 states fs2 lines2 ->
  number_line "data ignore value" z ign ->
  Forall header_line (lines1 ++ line :: lines2) -> header_line ign ->
  Forall (fun f => ~ is_interleave f) fs1 -> Forall (fun f => ~ is_interleave f) fs2 ->
  readable s (Some q) n0 -> 3 <= n0 ->
  exists h s', readhdr strtod (List.concat (lines1 ++ line :: lines2) ++ ign) (Some q) e s = Ret h s' /\ h_type h = Some z.
Proof.
  intros S1 S0 S2 Hi HL Hl I1 I2 Hr Hn.
  destruct (readhdr_reads strtod e s q n0 fs1 a b c (fs2 ++ [DataType z]) lines1 line (lines2 ++ [ign])) as (h & s' & E & _ & _ & _ & T & _); auto using states_reads_all.
  - apply Forall2_app; [auto using states_reads_all|]. constructor; [|constructor]. cbn.
    apply (number_longer "data" " ignore value"); [exact Hi|]. cbn. intuition lia.
  - change (line :: lines2 ++ [ign]) with ((line :: lines2) ++ [ign]). rewrite app_assoc. apply Forall_app. split; [exact HL|]. constructor; auto.
  - apply Forall_app. split; [auto|]. constructor; [cbn; tauto|constructor].
  - exists h, s'. split.
    + rewrite <- E. f_equal. change (line :: lines2 ++ [ign]) with ((line :: lines2) ++ [ign]). rewrite app_assoc, (concat_app _ [ign]). cbn [List.concat]. now rewrite app_nil_r.
    + rewrite T. unfold last_stated. now rewrite !fold_left_app.
Qed.

(** Without a blank before the tag the newline is stored as well. *)
Lemma put_overflow q a b c e s d : isb s q 3 d -> a <> 32 -> b <> 32 -> c <> 32 ->
  put_interleave (Some q) 0 [Some a; Some b; Some c; Some 10] e s = UB.
Proof.
  intros H Ha Hb Hc. cbn [put_interleave]. replace (a =? 32) with false by lia. replace (b =? 32) with false by lia.
  replace (c =? 32) with false by lia. change (10 =? 32) with false. cbv iota.
  runs (store8_ok e s q 3 d 0 a H ltac:(lia)).
  assert (H1 := isb_putd_eq s q 3 d (fupd d 0 (a mod 256)) H).
  runs (store8_ok e _ q 3 _ (0 + 1) b H1 ltac:(lia)). rewrite putd_putd.
  assert (H2 := isb_putd_eq s q 3 d (fupd (fupd d 0 (a mod 256)) (0 + 1) (b mod 256)) H).
  runs (store8_ok e _ q 3 _ (0 + 1 + 1) c H2 ltac:(lia)). rewrite putd_putd.
  eapply bind_ub, store8_oob; [eapply isb_putd_eq; exact H|lia].
Qed.

Lemma no_blank strtod e s q d fs1 a b c lines1 more rest :
  Forall2 states fs1 lines1 -> Forall header_line lines1 -> Forall (fun f => ~ is_interleave f) fs1 ->
  header_line (text "interleave" ++ more ++ [61; a; b; c; 10]) -> ~ In 61 more ->
  a <> 32 -> b <> 32 -> c <> 32 -> isb s q 3 d ->
  readhdr strtod (List.concat lines1 ++ (text "interleave" ++ more ++ [61; a; b; c; 10]) ++ rest) (Some q) e s = UB.
Proof.
  intros S1 HL I1 Hl Hm Ha Hb Hc Hq. set (line := text "interleave" ++ more ++ [61; a; b; c; 10]) in *.
  rewrite readhdr_eq. apply bind_ub.
  assert (HT := states_nonempty _ HL).
  assert (Hlen : (1 <= List.length line)%nat) by (unfold line; cbn; lia).
  set (n := (List.length (List.concat lines1 ++ line ++ rest) - List.length lines1)%nat).
  replace (S (List.length (List.concat lines1 ++ line ++ rest))) with (List.length lines1 + S n)%nat
    by (unfold n; rewrite !app_length; lia).
  destruct (hdr_lines strtod (Some q) e s fs1 lines1 (states_reads_all _ _ S1) HL I1 (S n) hdr0 (line ++ rest)) as (h & E & A & P & T).
  rewrite E, hdr_step by auto. apply bind_ub.
  assert (N0 := line_no0 _ Hl). unfold readhdr_line.
  assert (EL : line = (text "interleave" ++ more) ++ 61 :: [a; b; c; 10]) by (unfold line; rewrite <- app_assoc; reflexivity).
  assert (Hn : ~ In 61 (text "interleave" ++ more)). { intros X. apply in_app_or in X as [X|X]; [|tauto]. revert X. cbn. intuition lia. }
  assert (It : fst (upto_eq line) = text "interleave" ++ more) by (rewrite EL, upto_eq_at by auto; reflexivity).
  assert (I0 : ~ In 0 (text "interleave" ++ more)) by (rewrite <- It; intros X; apply N0, in_fst_upto, X).
  rewrite (item_of line _ h It) by (cbn; discriminate).
  cbn beta iota zeta delta [h_samples h_lines h_bands h_type h_sampletemp h_linetemp h_bandtemp h_datatypetemp h_pos h_it h_item h_wave].
  runs (cmp_differs (text "interleave" ++ more) "samples" e s I0 ltac:(key0) ltac:(dhead)). change (0 =? 1) with false. cbv iota.
  runs (cmp_differs (text "interleave" ++ more) "lines" e s I0 ltac:(key0) ltac:(dhead)). change (0 =? 1) with false. cbv iota.
  runs (cmp_differs (text "interleave" ++ more) "bands" e s I0 ltac:(key0) ltac:(dhead)). change (0 =? 1) with false. cbv iota.
  runs (cmp_differs (text "interleave" ++ more) "data" e s I0 ltac:(key0) ltac:(dhead)). change (0 =? 1) with false. cbv iota.
  runs (cmp_matches (text "interleave" ++ more) "interleave" more e s I0 ltac:(key0) eq_refl). change (1 =? 1) with true. cbv iota.
  rewrite EL, after_eq_at; [|auto|cbn; discriminate]. rewrite T, P. cbn [h_it h_pos hdr0 sscanf_c].
  apply bind_ub. eapply put_overflow; eauto.
Qed.
