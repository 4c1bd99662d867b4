(** * Proofs: reading ENVI headers, line by line. *)
From Verif Require Import Base Logic ModelFloat ModelCore ModelPixel ModelFile SpecBase SpecFile SpecHdr ProofCore ProofHM ProofImage4 ProofBmp.
From Coq Require Import Floats.SpecFloat String Ascii ZifyBool ZifyNat.
Ltac Zify.zify_post_hook ::= Z.div_mod_to_equations.
Open Scope Z_scope.

Lemma chars_text s : chars s = text s.
Proof. induction s as [|c s IH]; [reflexivity|]. cbn. rewrite IH. f_equal. unfold nat_of_ascii. lia. Qed.

(** ** Numbers *)

Lemma digits_value_go l : forall a, fold_left (fun a c => 10 * a + (c - 48)) l a = a * 10 ^ Z.of_nat (List.length l) + place_value l.
Proof.
  induction l as [|c l IH]; intros a; [cbn; lia|]. cbn [fold_left place_value List.length]. rewrite IH.
  replace (Z.of_nat (S (List.length l))) with (Z.succ (Z.of_nat (List.length l))) by lia. rewrite Z.pow_succ_r by lia. ring.
Qed.
Lemma digits_value_place l : digits_value l = place_value l.
Proof. unfold digits_value. rewrite digits_value_go. lia. Qed.

Lemma isdigit_digit c : digit c -> isdigit c = true.
Proof. unfold digit, isdigit. lia. Qed.
Lemma take_digits_app ds r : Forall digit ds -> (forall c t, r = c :: t -> ~ digit c) -> take_digits (ds ++ r) = ds.
Proof.
  intros H Hr. induction H as [|c ds Hc _ IH].
  - destruct r as [|c r]; [reflexivity|]. cbn. replace (isdigit c) with false; [reflexivity|].
    specialize (Hr c r eq_refl). unfold digit in Hr. unfold isdigit. lia.
  - cbn. rewrite (isdigit_digit _ Hc). now rewrite IH.
Qed.

Lemma skip_blanks b r : Forall (fun c => c = 32 \/ c = 9) b -> skip_space (b ++ r) = skip_space r.
Proof.
  induction 1 as [|c b Hc _ IH]; [reflexivity|]. cbn. unfold isspace at 1. now replace ((c =? 32) || (9 <=? c) && (c <=? 13)) with true by lia.
Qed.

Lemma scan_sel (neg : bool) l ds : take_digits l = ds -> ds <> [] ->
  match take_digits l with [] => None | ds => Some (if neg then - digits_value ds else digits_value ds) end
  = Some (if neg then - digits_value ds else digits_value ds).
Proof. intros -> H. destruct ds; [congruence|reflexivity]. Qed.
Lemma scan_decimal b num z r : Forall (fun c => c = 32 \/ c = 9) b -> decimal num z ->
  (forall c t, r = c :: t -> ~ digit c) -> scan_d (b ++ num ++ r) = Some z.
Proof.
  intros Hb (ds & Hne & Hds & H) Hr. unfold scan_d. rewrite skip_blanks by auto.
  destruct ds as [|d0 ds]; [congruence|]. assert (Hd0 : digit d0) by (inversion Hds; auto).
  assert (T := take_digits_app _ r Hds Hr). unfold digit in Hd0.
  destruct H as [[-> ->]|[-> ->]]; cbn [app skip_space]; unfold isspace.
  - replace ((d0 =? 32) || (9 <=? d0) && (d0 <=? 13)) with false by lia.
    replace (d0 =? 45) with false by lia. replace (d0 =? 43) with false by lia.
    cbv beta iota zeta. etransitivity; [exact (scan_sel false _ _ T Hne)|]. f_equal. apply digits_value_place.
  - change ((45 =? 32) || (9 <=? 45) && (45 <=? 13)) with false. change (45 =? 45) with true. cbv iota.
    cbv beta iota zeta. etransitivity; [exact (scan_sel true _ _ T Hne)|]. f_equal. cbv iota. f_equal. apply digits_value_place.
Qed.

(** ** Lines *)

Lemma fgets_go_line l r : ~ In 10 l -> forall n, (List.length l < n)%nat -> fgets_go n (l ++ 10 :: r) = (l ++ [10], r).
Proof.
  induction l as [|c l IH]; intros H n Hn; (destruct n as [|n]; [cbn in Hn; lia|]).
  - reflexivity.
  - cbn [app fgets_go]. replace (c =? 10) with false by (assert (c <> 10) by (intros ->; apply H; now left); lia).
    rewrite IH; [reflexivity|intros X; apply H; now right|cbn in Hn; lia].
Qed.
Lemma cstr_id l : ~ In 0 l -> cstr l = l.
Proof.
  induction l as [|c l IH]; intros H; [reflexivity|]. cbn. assert (c <> 0) by (intros ->; apply H; now left).
  replace (c =? 0) with false by lia. f_equal. apply IH. intros X. apply H. now right.
Qed.

Lemma line_no0 line : header_line line -> ~ In 0 line.
Proof.
  intros (l & -> & _ & F & _) H. apply in_app_or in H as [H|[H|[]]]; [|lia].
  rewrite Forall_forall in F. specialize (F _ H). lia.
Qed.
Lemma fgets_header line r : header_line line -> fgets (line ++ r) = (line, r).
Proof.
  intros (l & -> & H10 & F & HL). rewrite <- app_assoc. cbn [app]. apply fgets_go_line; auto.
  rewrite app_length in HL. cbn in HL. unfold MAXLINE. lia.
Qed.

Lemma upto_eq_at a r : ~ In 61 a -> upto_eq (a ++ 61 :: r) = (a, 61 :: r).
Proof.
  induction a as [|c a IH]; intros H; [reflexivity|]. cbn. assert (c <> 61) by (intros ->; apply H; now left).
  replace (c =? 61) with false by lia. rewrite IH; [reflexivity|]. intros X. apply H. now right.
Qed.
Lemma upto_eq_none a : ~ In 61 a -> upto_eq a = (a, []).
Proof.
  induction a as [|c a IH]; intros H; [reflexivity|]. cbn. assert (c <> 61) by (intros ->; apply H; now left).
  replace (c =? 61) with false by lia. rewrite IH; [reflexivity|]. intros X. apply H. now right.
Qed.
Lemma after_eq_at a r : ~ In 61 a -> a <> [] -> after_eq (a ++ 61 :: r) = Some r.
Proof. intros H Hn. unfold after_eq. rewrite upto_eq_at by auto. destruct a; [congruence|reflexivity]. Qed.

(** ** Comparisons with the keys *)

Lemma differs_no_prefix a b : differs a b -> ~ ((exists t, b = a ++ t) \/ (exists t, a = b ++ t)).
Proof.
  intros (i & x & y & Ha & Hb & Hne) [(t & ->)|(t & ->)].
  - rewrite nth_error_app1 in Hb; [congruence|]. apply nth_error_Some. congruence.
  - rewrite nth_error_app1 in Ha; [congruence|]. apply nth_error_Some. congruence.
Qed.

Lemma cmp_differs it key e s : ~ In 0 it -> ~ In 0 (chars key) -> differs it (text key) ->
  cmpstr (it ++ [0]) (str key) e s = Ret 0 s.
Proof.
  intros Hi Hk D. unfold str. destruct (cmpstr_prefix it (chars key) [] [] e s Hi Hk) as (v & -> & [->| ->] & H); [|reflexivity].
  exfalso. apply (differs_no_prefix it (text key) D). rewrite <- chars_text. apply H. reflexivity.
Qed.
Lemma cmp_matches it key t e s : ~ In 0 it -> ~ In 0 (chars key) -> it = text key ++ t ->
  cmpstr (it ++ [0]) (str key) e s = Ret 1 s.
Proof.
  intros Hi Hk E. unfold str. destruct (cmpstr_prefix it (chars key) [] [] e s Hi Hk) as (v & -> & V & H).
  f_equal. apply H. right. exists t. now rewrite chars_text.
Qed.

Lemma no0_dec l : forallb (fun c => negb (c =? 0)) l = true -> ~ In 0 l.
Proof. intros H X. rewrite forallb_forall in H. specialize (H 0 X). discriminate. Qed.
Ltac key0 := apply no0_dec; vm_compute; reflexivity.

(** Texts that start differently. *)
Lemma differs_head (a b : list Z) x y t : nth_error a 0 = Some x -> nth_error b 0 = Some y -> x <> y -> differs (a ++ t) b.
Proof.
  intros Ha Hb Hne. exists 0%nat, x, y. split; [|auto]. rewrite nth_error_app1; [auto|]. apply nth_error_Some. congruence.
Qed.
Ltac dhead := rewrite <- ?app_assoc; eapply differs_head; [vm_compute; reflexivity|vm_compute; reflexivity|lia].

(** ** What a line does to the record *)

Definition put_field (f : hfield) (item : list Z) (h : hdr) : hdr :=
  mkHdr (match f with Samples z => Some z | _ => h_samples h end)
        (match f with Lines z => Some z | _ => h_lines h end)
        (match f with Bands z => Some z | _ => h_bands h end)
        (match f with DataType z => Some z | _ => h_type h end)
        (match f with Samples z => z | _ => h_sampletemp h end)
        (match f with Lines z => z | _ => h_linetemp h end)
        (match f with Bands z => z | _ => h_bandtemp h end)
        (match f with DataType z => z | _ => h_datatypetemp h end)
        (match f with Interleave _ _ _ => h_pos h + 3 | _ => h_pos h end)
        (match f with Interleave a b c => [Some 32; Some a; Some b; Some c] | _ => h_it h end)
        (Some item) (h_wave h).

Lemma item_of line it h : fst (upto_eq line) = it -> it <> [] ->
  match fst (upto_eq line) with [] => h_item h | l => Some l end = Some it.
Proof. intros -> H. destruct it; congruence. Qed.

Lemma in_int_ok z : -2147483648 <= z <= 2147483647 -> in_int z = true.
Proof. unfold in_int, INT_MIN, INT_MAX. lia. Qed.

Lemma sscanf_number e s key z line tmp : number_line key z line -> ~ In 61 (text key) -> text key <> [] ->
  exists more, fst (upto_eq line) = text key ++ more /\ sscanf_d line tmp e s = Ret z s.
Proof.
  intros (more & b & num & rest & -> & Hm & Hb & Hd & Hz & Hr) Hk Hkn. exists more.
  assert (Hn : ~ In 61 (text key ++ more)) by (intros X; apply in_app_or in X; tauto).
  replace (text key ++ more ++ [61] ++ b ++ num ++ rest ++ [10]) with ((text key ++ more) ++ 61 :: (b ++ num ++ rest ++ [10])) by (rewrite <- !app_assoc; reflexivity).
  rewrite upto_eq_at by auto. split; [reflexivity|]. unfold sscanf_d. rewrite after_eq_at; auto.
  2:{ intros X. apply app_eq_nil in X. tauto. }
  rewrite (scan_decimal b num z (rest ++ [10]) Hb Hd).
  - now rewrite in_int_ok.
  - intros c t Ec. destruct rest as [|c' r']; cbn in Ec; injection Ec; intros; subst; [unfold digit; lia|eapply Hr; eauto].
Qed.

Lemma in_fst_upto x l : In x (fst (upto_eq l)) -> In x l.
Proof.
  induction l as [|c l IH]; [auto|]. cbn. destruct (c =? 61); [intros []|]. destruct (upto_eq l) as [a b]. cbn in *.
  intros [->|H]; auto.
Qed.

(** What the reader takes a line for: it only compares with "data". *)
Definition reads (f : hfield) (line : list Z) : Prop :=
  match f with DataType z => number_line "data" z line | _ => states f line end.
Lemma number_longer key key' z line : number_line (key ++ key') z line -> ~ In 61 (text key') -> number_line key z line.
Proof.
  intros (more & b & num & r & -> & H1 & H2 & H3 & H4 & H5) Hk. exists (text key' ++ more), b, num, r.
  split. { replace (text (key ++ key')%string) with (text key ++ text key'); [now rewrite <- !app_assoc|].
    clear. induction key as [|c k IH]; [reflexivity|]. cbn. now rewrite IH. }
  split; [|auto]. intros X. apply in_app_or in X. tauto.
Qed.
Lemma states_reads f line : states f line -> reads f line.
Proof.
  destruct f; auto. cbn. intros H. apply (number_longer "data" " type"); [exact H|]. cbn. intuition lia.
Qed.
Lemma states_reads_all fs lines : Forall2 states fs lines -> Forall2 reads fs lines.
Proof. induction 1; constructor; auto using states_reads. Qed.

Lemma line_number strtod il rest h e s f line : reads f line -> header_line line ->
  match f with Interleave _ _ _ => False | _ => True end ->
  exists item, readhdr_line strtod il line rest h e s = Ret (put_field f item h, rest) s.
Proof.
  intros Hs Hl Hni. assert (N0 := line_no0 _ Hl). unfold readhdr_line.
  destruct f as [z|z|z|z|a b c|]; cbn [reads states] in Hs; try contradiction.
  - destruct (sscanf_number e s "samples" z line (h_sampletemp h) Hs) as (more & It & Sc).
    { intros X. revert X. apply (fun H => H). cbn. intuition lia. } { discriminate. }
    assert (I0 : ~ In 0 (text "samples" ++ more)) by (rewrite <- It; intros X; apply N0, in_fst_upto, X).
    rewrite (item_of line _ h It) by (cbn; discriminate). exists (text "samples" ++ more).
    cbn beta iota zeta delta [h_samples h_lines h_bands h_type h_sampletemp h_linetemp h_bandtemp h_datatypetemp h_pos h_it h_item h_wave].
    runs (cmp_matches (text "samples" ++ more) "samples" more e s I0 ltac:(key0) eq_refl). change (1 =? 1) with true. cbv iota.
    runs Sc. destruct h; reflexivity.
  - destruct (sscanf_number e s "lines" z line (h_linetemp h) Hs) as (more & It & Sc).
    { cbn. intuition lia. } { discriminate. }
    assert (I0 : ~ In 0 (text "lines" ++ more)) by (rewrite <- It; intros X; apply N0, in_fst_upto, X).
    rewrite (item_of line _ h It) by (cbn; discriminate). exists (text "lines" ++ more).
    cbn beta iota zeta delta [h_samples h_lines h_bands h_type h_sampletemp h_linetemp h_bandtemp h_datatypetemp h_pos h_it h_item h_wave].
    runs (cmp_differs (text "lines" ++ more) "samples" e s I0 ltac:(key0) ltac:(dhead)). change (0 =? 1) with false. cbv iota.
    runs (cmp_matches (text "lines" ++ more) "lines" more e s I0 ltac:(key0) eq_refl). change (1 =? 1) with true. cbv iota.
    runs Sc. destruct h; reflexivity.
  - destruct (sscanf_number e s "bands" z line (h_bandtemp h) Hs) as (more & It & Sc).
    { cbn. intuition lia. } { discriminate. }
    assert (I0 : ~ In 0 (text "bands" ++ more)) by (rewrite <- It; intros X; apply N0, in_fst_upto, X).
    rewrite (item_of line _ h It) by (cbn; discriminate). exists (text "bands" ++ more).
    cbn beta iota zeta delta [h_samples h_lines h_bands h_type h_sampletemp h_linetemp h_bandtemp h_datatypetemp h_pos h_it h_item h_wave].
    runs (cmp_differs (text "bands" ++ more) "samples" e s I0 ltac:(key0) ltac:(dhead)). change (0 =? 1) with false. cbv iota.
    runs (cmp_differs (text "bands" ++ more) "lines" e s I0 ltac:(key0) ltac:(dhead)). change (0 =? 1) with false. cbv iota.
    runs (cmp_matches (text "bands" ++ more) "bands" more e s I0 ltac:(key0) eq_refl). change (1 =? 1) with true. cbv iota.
    runs Sc. destruct h; reflexivity.
  - destruct (sscanf_number e s "data" z line (h_datatypetemp h) Hs) as (more & It & Sc).
    { cbn. intuition lia. } { discriminate. }
    assert (I0 : ~ In 0 (text "data" ++ more)) by (rewrite <- It; intros X; apply N0, in_fst_upto, X).
    rewrite (item_of line _ h It) by (cbn; discriminate). exists (text "data" ++ more).
    cbn beta iota zeta delta [h_samples h_lines h_bands h_type h_sampletemp h_linetemp h_bandtemp h_datatypetemp h_pos h_it h_item h_wave].
    runs (cmp_differs (text "data" ++ more) "samples" e s I0 ltac:(key0) ltac:(dhead)). change (0 =? 1) with false. cbv iota.
    runs (cmp_differs (text "data" ++ more) "lines" e s I0 ltac:(key0) ltac:(dhead)). change (0 =? 1) with false. cbv iota.
    runs (cmp_differs (text "data" ++ more) "bands" e s I0 ltac:(key0) ltac:(dhead)). change (0 =? 1) with false. cbv iota.
    runs (cmp_matches (text "data" ++ more) "data" more e s I0 ltac:(key0) eq_refl). change (1 =? 1) with true. cbv iota.
    runs Sc. destruct h; reflexivity.
  - destruct Hs as (item & r & E & Hi & Hr & D1 & D2 & D3 & D4 & D5 & D6).
    assert (It : exists it, fst (upto_eq line) = it /\ it <> [] /\ ~ In 0 it
              /\ differs it (text "samples") /\ differs it (text "lines") /\ differs it (text "bands")
              /\ differs it (text "data") /\ differs it (text "interleave")).
    { assert (G : forall b, differs item b -> forall t, differs (item ++ t) b).
      { intros b (i & x & y & A & B & C) t. exists i, x, y. split; [|auto]. rewrite nth_error_app1; [auto|]. apply nth_error_Some. congruence. }
      assert (Hne : item <> []). { destruct D1 as (i & x & y & A & _). destruct item; [destruct i; discriminate|discriminate]. }
      destruct Hr as [-> |(r' & ->)].
      - exists (item ++ [10]). rewrite E. cbn [app]. rewrite upto_eq_none.
        + split; [reflexivity|]. split; [destruct item; discriminate|]. split; [rewrite E in N0; exact N0|]. repeat split; apply G; assumption.
        + intros X. apply in_app_or in X as [X|[X|[]]]; [tauto|lia].
      - exists item. rewrite E. cbn [app]. rewrite upto_eq_at by auto. split; [reflexivity|]. split; [exact Hne|].
        split; [intros X; apply N0; rewrite E; apply in_or_app; auto|tauto]. }
    destruct It as (it & E1 & Hne & I0 & F1 & F2 & F3 & F4 & F5).
    rewrite (item_of line _ h E1) by auto. exists it.
    cbn beta iota zeta delta [h_samples h_lines h_bands h_type h_sampletemp h_linetemp h_bandtemp h_datatypetemp h_pos h_it h_item h_wave].
    runs (cmp_differs it "samples" e s I0 ltac:(key0) F1). change (0 =? 1) with false. cbv iota.
    runs (cmp_differs it "lines" e s I0 ltac:(key0) F2). change (0 =? 1) with false. cbv iota.
    runs (cmp_differs it "bands" e s I0 ltac:(key0) F3). change (0 =? 1) with false. cbv iota.
    runs (cmp_differs it "data" e s I0 ltac:(key0) F4). change (0 =? 1) with false. cbv iota.
    runs (cmp_differs it "interleave" e s I0 ltac:(key0) F5). change (0 =? 1) with false. cbv iota.
    runs (cmp_differs line "wavelength = {" e s N0 ltac:(key0) D6). change (0 =? 1) with false. cbv iota.
    destruct h; reflexivity.
Qed.

Lemma put_four q pos a b c e s n d : isb s q n d -> 0 <= pos -> pos + 3 <= n -> a <> 32 -> b <> 32 -> c <> 32 ->
  put_interleave (Some q) pos [Some 32; Some a; Some b; Some c] e s =
    Ret (pos + 3) (putd s q (fupd (fupd (fupd d pos (a mod 256)) (pos + 1) (b mod 256)) (pos + 2) (c mod 256))).
Proof.
  intros H H0 H3 Ha Hb Hc. cbn [put_interleave]. change (32 =? 32) with true. cbv iota.
  replace (a =? 32) with false by lia. replace (b =? 32) with false by lia. replace (c =? 32) with false by lia.
  runs (store8_ok e s q n d pos a H ltac:(lia)).
  assert (H1 := isb_putd_eq s q n d (fupd d pos (a mod 256)) H).
  runs (store8_ok e _ q n _ (pos + 1) b H1 ltac:(lia)). rewrite putd_putd.
  assert (H2 := isb_putd_eq s q n d (fupd (fupd d pos (a mod 256)) (pos + 1) (b mod 256)) H).
  runs (store8_ok e _ q n _ (pos + 1 + 1) c H2 ltac:(lia)). rewrite putd_putd.
  replace (pos + 1 + 1) with (pos + 2) by lia. unfold ret. f_equal. lia.
Qed.

Lemma line_interleave strtod q rest h e s n d a b c line : states (Interleave a b c) line -> header_line line ->
  List.length (h_it h) = 4%nat -> isb s q n d -> 0 <= h_pos h -> h_pos h + 3 <= n ->
  exists item, readhdr_line strtod (Some q) line rest h e s =
    Ret (put_field (Interleave a b c) item h, rest)
        (putd s q (fupd (fupd (fupd d (h_pos h) (a mod 256)) (h_pos h + 1) (b mod 256)) (h_pos h + 2) (c mod 256))).
Proof.
  intros Hs Hl Hit Hq H0 H3. assert (N0 := line_no0 _ Hl). unfold readhdr_line.
  destruct Hs as (more & r & E & Hm & Ha & Hb & Hc).
  assert (EL : line = (text "interleave" ++ more) ++ 61 :: 32 :: [a; b; c] ++ r ++ [10]) by (rewrite E, <- app_assoc; reflexivity).
  assert (Hn : ~ In 61 (text "interleave" ++ more)). { intros X. apply in_app_or in X as [X|X]; [|tauto]. revert X. cbn. intuition lia. }
  assert (It : fst (upto_eq line) = text "interleave" ++ more) by (rewrite EL, upto_eq_at by auto; reflexivity).
  assert (I0 : ~ In 0 (text "interleave" ++ more)) by (rewrite <- It; intros X; apply N0, in_fst_upto, X).
  rewrite (item_of line _ h It) by (cbn; discriminate). exists (text "interleave" ++ more).
  cbn beta iota zeta delta [h_samples h_lines h_bands h_type h_sampletemp h_linetemp h_bandtemp h_datatypetemp h_pos h_it h_item h_wave].
  runs (cmp_differs (text "interleave" ++ more) "samples" e s I0 ltac:(key0) ltac:(dhead)). change (0 =? 1) with false. cbv iota.
  runs (cmp_differs (text "interleave" ++ more) "lines" e s I0 ltac:(key0) ltac:(dhead)). change (0 =? 1) with false. cbv iota.
  runs (cmp_differs (text "interleave" ++ more) "bands" e s I0 ltac:(key0) ltac:(dhead)). change (0 =? 1) with false. cbv iota.
  runs (cmp_differs (text "interleave" ++ more) "data" e s I0 ltac:(key0) ltac:(dhead)). change (0 =? 1) with false. cbv iota.
  runs (cmp_matches (text "interleave" ++ more) "interleave" more e s I0 ltac:(key0) eq_refl). change (1 =? 1) with true. cbv iota.
  rewrite EL, after_eq_at; [|auto|cbn; discriminate].
  assert (S4 : sscanf_c (h_it h) (32 :: [a; b; c] ++ r ++ [10]) = [Some 32; Some a; Some b; Some c]).
  { destruct (h_it h) as [|x0 [|x1 [|x2 [|x3 [|x4 l]]]]]; cbn in Hit; try lia. reflexivity. }
  rewrite S4. runs (put_four q (h_pos h) a b c e s n d Hq H0 H3 Ha Hb Hc). destruct h; reflexivity.
Qed.
