(** * Proofs: saving and reloading cubes with wavelengths. *)
From Verif Require Import Base Logic ModelFloat ModelCore ModelPixel ModelFile SpecBase SpecCore SpecNum SpecFile SpecHdr ProofCore ProofLayout ProofHM ProofCopy ProofCore2 ProofImage2 ProofImage3 ProofImage4 ProofPixel ProofColor ProofWord ProofArr ProofFlip ProofBmp ProofHdr ProofHdr2 ProofWave ProofSave ProofSave2 ProofSave3.
From Coq Require Import Floats.SpecFloat String Ascii ZifyBool ZifyNat.
Ltac Zify.zify_post_hook ::= Z.div_mod_to_equations.
Open Scope Z_scope.

(** ** Printed numbers are short tokens *)

Lemma dec_go_len f : forall k n acc, (1 <= k)%nat -> 0 <= n < 10 ^ Z.of_nat k -> (List.length (dec_go f n acc) <= k + List.length acc)%nat.
Proof.
  induction f as [|f IH]; intros k n acc Hk Hn; cbn [dec_go]; [lia|]. destruct (Z.ltb_spec n 10) as [H|H]; [cbn; lia|].
  destruct k as [|k]; [lia|]. replace (Z.of_nat (S k)) with (Z.succ (Z.of_nat k)) in Hn by lia. rewrite Z.pow_succ_r in Hn by lia.
  destruct k as [|k]; [change (10 ^ Z.of_nat 0) with 1 in Hn; lia|].
  specialize (IH (S k) (n / 10) ((48 + n mod 10) :: acc) ltac:(lia) ltac:(lia)). cbn [List.length] in IH. lia.
Qed.

Lemma digits_ok n : forall v, Forall digit (ModelFile.digits n v) /\ List.length (ModelFile.digits n v) = n.
Proof.
  induction n as [|n IH]; intros v; cbn [ModelFile.digits]; [split; [constructor|reflexivity]|].
  destruct (IH (v / 10)) as [A B]. rewrite app_length, B. split; [|cbn; lia]. apply Forall_app. split; [auto|].
  constructor; [|constructor]. unfold digit. pose proof (Z.mod_pos_bound v 10). lia.
Qed.

Lemma half_even_bound n d M : 0 < d -> 0 <= n <= M * d -> 0 <= half_even n d <= M.
Proof.
  intros Hd Hn. unfold half_even. pose proof (Z.div_mod n d ltac:(lia)) as E. pose proof (Z.mod_pos_bound n d Hd) as Hm.
  assert (H0 : 0 <= n / d) by (apply Z.div_pos; lia).
  assert (HM : n / d <= M) by (apply Z.div_le_upper_bound; lia).
  assert (HS : n / d = M -> n mod d = 0) by (intros EM; rewrite EM in E; nia).
  destruct (Z.ltb_spec (2 * (n mod d)) d); [lia|]. assert (n / d <> M) by (intros EM; specialize (HS EM); lia).
  destruct (d <? 2 * (n mod d)); [lia|]. destruct (Z.even (n / d)); lia.
Qed.

Lemma digit_word c : digit c -> word_char c.
Proof. unfold digit, word_char. lia. Qed.

Lemma print_f_token x : small_float x -> token (ptok x) /\ (List.length (print_f x) <= 18)%nat.
Proof.
  intros H. assert (P : Forall word_char (print_f x) /\ print_f x <> [] /\ (List.length (print_f x) <= 18)%nat).
  { destruct x as [b|b| |b m ex].
    - destruct b; (split; [repeat (constructor; [unfold word_char; vm_compute; intuition discriminate|]); constructor|split; [discriminate|cbn; lia]]).
    - destruct b; (split; [repeat (constructor; [unfold word_char; vm_compute; intuition discriminate|]); constructor|split; [discriminate|cbn; lia]]).
    - split; [repeat (constructor; [unfold word_char; vm_compute; intuition discriminate|]); constructor|split; [discriminate|cbn; lia]].
    - unfold print_f. cbn [small_float] in H. 
      set (q := if 0 <=? ex then Z.pos m * 2 ^ ex * 1000000 else half_even (Z.pos m * 1000000) (2 ^ (- ex))).
      assert (Hq : 0 <= q <= 1000000000000000).
      { unfold q. destruct (Z.leb_spec 0 ex) as [He|He].
        - pose proof (Z.pow_pos_nonneg 2 ex ltac:(lia) He). nia.
        - apply half_even_bound; [apply Z.pow_pos_nonneg; lia|]. lia. }
      clearbody q. cbv zeta. assert (Hd : 0 <= q / 1000000 <= 1000000000) by lia.
      destruct (dec_ok (q / 1000000) ltac:(lia)) as (ds & Eds & Hne & Fd & _ & _). rewrite Eds.
      assert (Hl : (List.length ds <= 10)%nat).
      { rewrite <- Eds. unfold ModelFile.dec. 
        assert (Hp : 0 <= q / 1000000 < 10 ^ Z.of_nat 10) by (change (10 ^ Z.of_nat 10) with 10000000000; lia).
        pose proof (dec_go_len (S (Z.to_nat (Z.log2 (q / 1000000)))) 10 (q / 1000000) [] ltac:(lia) Hp) as HH. cbn [List.length] in HH. rewrite Nat.add_0_r in HH. exact HH. }
      destruct (digits_ok 6 q) as [F6 L6].
      assert (FW : Forall word_char ds) by (eapply Forall_impl; [exact digit_word|exact Fd]).
      assert (FW6 : Forall word_char (ModelFile.digits 6 q)) by (eapply Forall_impl; [exact digit_word|exact F6]).
      split; [|split].
      + apply Forall_app. split; [destruct b; repeat constructor; unfold word_char; lia|]. apply Forall_app. split; [exact FW|].
        cbn [app]. constructor; [unfold word_char; lia|exact FW6].
      + destruct b; [discriminate|]. cbn [app]. destruct ds; [congruence|discriminate].
      + rewrite !app_length, L6. destruct b; cbn [List.length]; lia. }
  destruct P as (P1 & P2 & P3). split; [|exact P3]. unfold token. cbn [ptok t_before t_word t_after]. repeat split; auto; try constructor.
  rewrite ptok_text. lia.
Qed.

(** ** Copying the list *)

Lemma copy_line_run e w l : ~ In 10 l -> Forall (fun c => 0 <= c < 256) l -> forall t x nw d, isb x w nw d -> 0 <= t -> t + Z.of_nat (List.length l) <= nw ->
  exists d', copy_line (Some w) t l e x = Ret (t + Z.of_nat (List.length l)) (putd x w d') /\ holds d' t l
    /\ (forall j, ~ t <= j < t + Z.of_nat (List.length l) -> d' j = d j).
Proof.
  induction l as [|c l IH]; intros H10 F t x nw d Hw Ht Hn.
  - exists d. cbn [copy_line List.length]. rewrite Z.add_0_r, (putd_id _ _ _ _ Hw). split; [reflexivity|]. split; [apply holds_nil|reflexivity].
  - inversion F as [|? ? Fc Fl]; subst. cbn [In] in H10. cbn [copy_line]. replace (c =? 10) with false by lia. cbn [List.length] in *.
    runs (store8_ok e x w nw d t c Hw ltac:(lia)).
    destruct (IH ltac:(tauto) Fl (t + 1) (putd x w (fupd d t (c mod 256))) nw _ (isb_putd_eq _ _ _ _ _ Hw) ltac:(lia) ltac:(lia)) as (d' & E & Hh & Hr).
    exists d'. rewrite E, putd_putd. split; [f_equal; lia|]. split.
    + apply holds_cons. split; [|exact Hh]. rewrite Hr by lia. unfold fupd. rewrite Z.eqb_refl. lia.
    + intros j Hj. rewrite Hr by lia. unfold fupd. replace (j =? t) with false by lia. reflexivity.
Qed.

Lemma fgets_chunk n l : ~ In 10 l -> fgets_go n l = (firstn n l, skipn n l).
Proof.
  revert l. induction n as [|n IH]; intros l H; [reflexivity|]. destruct l as [|c l]; [reflexivity|]. cbn [In] in H. cbn [fgets_go firstn skipn].
  replace (c =? 10) with false by lia. now rewrite IH by tauto.
Qed.

Lemma has_false c l : ~ In c l -> has c l = false.
Proof. unfold has. intros H. destruct (existsb (Z.eqb c) l) eqn:E; [|reflexivity]. apply existsb_exists in E as (x & Hx & Ex). apply Z.eqb_eq in Ex. subst. tauto. Qed.

(** The body has no newline, NUL or closing brace. *)
Lemma wave_lines_go e w nw body n : (forall c, In c body -> 0 < c < 256 /\ c <> 10 /\ c <> 125) ->
  forall fuel line done rest x d, (List.length rest <= fuel)%nat ->
  body ++ [125] = done ++ rest -> (rest <> [] -> ~ In 125 line) ->
  isb x w nw d -> Z.of_nat (List.length (body ++ [125])) <= nw -> holds d 0 done ->
  exists line' d',
    whileF (S fuel) (fun x : list Z * list Z * Z => let '(line, rest, _) := x in negb (has 125 line) && match rest with [] => false | _ => true end)
      (fun x => let '(_, rest, t) := x in
                let (l, rest') := fgets_go (S n) rest in
                let line := cstr l in
                t' <- copy_line (Some w) t line ;;
                ret (line, rest', t')) (line, rest, Z.of_nat (List.length done)) e x
    = Ret (line', [], Z.of_nat (List.length (body ++ [125]))) (putd x w d')
    /\ holds d' 0 (body ++ [125]) /\ (forall j, ~ 0 <= j < Z.of_nat (List.length (body ++ [125])) -> d' j = d j).
Proof.
  intros HB. assert (HT : forall c, In c (body ++ [125]) -> 0 < c < 256 /\ c <> 10).
  { intros c Hc. apply in_app_or in Hc as [Hc|[<-|[]]]; [specialize (HB c Hc)|]; lia. }
  induction fuel as [|fuel IH]; intros line done rest x d Hf HE Hline Hw Hnw Hh.
  - destruct rest; [|cbn in Hf; lia]. rewrite app_nil_r in HE. exists line, d. cbn [whileF]. rewrite andb_false_r. rewrite HE, (putd_id _ _ _ _ Hw).
    split; [reflexivity|]. split; [exact Hh|reflexivity].
  - destruct rest as [|c0 r0].
    { rewrite app_nil_r in HE. exists line, d. cbn [whileF]. rewrite andb_false_r. rewrite HE, (putd_id _ _ _ _ Hw).
      split; [reflexivity|]. split; [exact Hh|reflexivity]. }
    set (rest := c0 :: r0) in *. change (whileF (S (S fuel))) with (fun (c : list Z * list Z * Z -> bool) f x => if c x then (y <- f x ;; whileF (S fuel) c f y) else ret x).
    cbv beta iota. rewrite (has_false 125 line) by (apply Hline; discriminate). unfold rest at 1. cbn [negb andb]. fold rest.
    assert (HR : forall c, In c rest -> 0 < c < 256 /\ c <> 10) by (intros c Hc; apply HT; rewrite HE; apply in_or_app; auto).
    rewrite fgets_chunk by (intros X; apply HR in X; lia).
    set (f := firstn (S n) rest). set (r := skipn (S n) rest).
    assert (ER : rest = f ++ r) by (symmetry; apply firstn_skipn).
    assert (HF : forall c, In c f -> 0 < c < 256 /\ c <> 10) by (intros c Hc; apply HR; rewrite ER; apply in_or_app; auto).
    rewrite (cstr_id f) by (intros X; apply HF in X; lia).
    assert (LEN : (List.length done + List.length f + List.length r = List.length (body ++ [125%Z]))%nat) by (rewrite HE, ER, !app_length; lia).
    destruct (copy_line_run e w f ltac:(intros X; apply HF in X; lia) ltac:(apply Forall_forall; intros c Hc; apply HF in Hc; lia)
      (Z.of_nat (List.length done)) x nw d Hw ltac:(lia) ltac:(lia)) as (d1 & E1 & H1 & R1).
    assert (Lf : (0 < List.length f)%nat) by (unfold f, rest; cbn; lia).
    destruct (IH f (done ++ f) r (putd x w d1) d1) as (line' & d2 & E2 & H2 & R2).
    + assert (List.length rest = (List.length f + List.length r)%nat) by (rewrite ER at 1; apply app_length). lia.
    + now rewrite <- app_assoc, <- ER.
    + intros Hr X. assert (HE' : body ++ [125] = (done ++ f) ++ r) by (now rewrite <- app_assoc, <- ER).
      destruct (exists_last Hr) as (r1 & z & Er). rewrite Er, app_assoc in HE'. apply app_inj_tail in HE' as [HEb _].
      apply (HB 125); [|reflexivity]. rewrite HEb. apply in_or_app. left. apply in_or_app. right. exact X.
    + eapply isb_putd_eq; eauto.
    + exact Hnw.
    + apply holds_app. split; [|exact H1]. intros j Hj. rewrite R1 by lia. apply Hh, Hj.
    + exists line', d2. split; [|split; [exact H2|]].
      * rewrite (bind_ret _ _ e x (f, r, Z.of_nat (List.length (done ++ f))) (putd x w d1)).
        -- etransitivity; [exact E2|]. now rewrite putd_putd.
        -- runs E1. rewrite app_length, Nat2Z.inj_add. reflexivity.
      * intros j Hj. rewrite R2 by auto. apply R1. lia.
Qed.

(** ** The wavelength line *)

(** The item of the wavelength line matches no key. *)
Definition wave_item : list Z := chars "wavelength ".
Lemma wave_item_0 : ~ In 0 wave_item.
Proof. vm_compute. intuition discriminate. Qed.
Lemma wave_samples : differs wave_item (text "samples"). Proof. dat 0%nat. Qed.
Lemma wave_lines_key : differs wave_item (text "lines"). Proof. dat 0%nat. Qed.
Lemma wave_bands : differs wave_item (text "bands"). Proof. dat 0%nat. Qed.
Lemma wave_data : differs wave_item (text "data"). Proof. dat 0%nat. Qed.
Lemma wave_interleave : differs wave_item (text "interleave"). Proof. dat 0%nat. Qed.
Lemma brace_0 : ~ In 0 brace_line.
Proof. vm_compute. intuition discriminate. Qed.
Lemma brace_item : fst (upto_eq brace_line) = wave_item.
Proof. reflexivity. Qed.

Lemma wave_room B : 0 < B -> B * 20 <= 2147483647 -> (MAXWAVECHAR * B)%C = Some (B * 20).
Proof. intros H1 H2. unfold MAXWAVECHAR, ci. rewrite cmul_ok by lia. f_equal. lia. Qed.
Lemma max_line_pos : exists m, Z.to_nat (MAXLINE - 1) = S m.
Proof. exists (Z.to_nat (MAXLINE - 2)). unfold MAXLINE. lia. Qed.

Section WaveLine.
  Variables (strtod : list Z -> sf) (e : env) (x0 : st) (il : ptr) (h : hdr) (B : Z) (wv : Z -> Z).
  Hypothesis Hx : heap_ok x0.
  Hypothesis HB : 0 < B. Hypothesis HB20 : B * 20 <= 2147483647.
  Hypothesis Hbt : h_bandtemp h = B.
  Hypothesis Hsm : forall i, 0 <= i < B -> small_float (wave_at wv i).

  Let toks := map (fun i => ptok (wave_at wv i)) (iota (B - 1)).
  Let body := comma_list toks ++ tok_text (ptok (wave_at wv (B - 1))).
  Let qw := List.length (objs x0).
  Let qv := Datatypes.S qw.

  Lemma toks_ok : Forall (fun t => token t /\ (List.length (tok_text t) <= 18)%nat) toks.
  Proof.
    apply Forall_forall. intros t Ht. apply in_map_iff in Ht as (i & <- & Hi). apply in_map_iff in Hi as (j & <- & Hj). apply in_seq in Hj.
    rewrite ptok_text. apply print_f_token, Hsm. lia.
  Qed.
  Lemma toks_tokens : Forall token toks.
  Proof. eapply Forall_impl; [|exact toks_ok]. intros t [H _]. exact H. Qed.
  Lemma last_ok : token (ptok (wave_at wv (B - 1))) /\ (List.length (tok_text (ptok (wave_at wv (B - 1)))) <= 18)%nat.
  Proof. rewrite ptok_text. apply print_f_token, Hsm. lia. Qed.
  Lemma toks_len : Z.of_nat (List.length toks) = B - 1.
  Proof. unfold toks, iota. rewrite !map_length, seq_length. lia. Qed.

  Lemma comma_len l : Forall (fun t => token t /\ (List.length (tok_text t) <= 18)%nat) l -> Z.of_nat (List.length (comma_list l)) <= 19 * Z.of_nat (List.length l).
  Proof.
    induction 1 as [|t l [_ Ht] _ IH]; [cbn; lia|]. change (comma_list (t :: l)) with ((tok_text t ++ [44]) ++ comma_list l).
    rewrite !app_length. cbn [List.length]. lia.
  Qed.
  Lemma body_len : Z.of_nat (List.length (body ++ [125])) <= 19 * B.
  Proof.
    pose proof (comma_len toks toks_ok) as H1. pose proof toks_len as H2. destruct last_ok as [_ H3]. unfold body.
    rewrite !app_length. cbn [List.length]. lia.
  Qed.
  Lemma tok_chars t : token t -> forall c, In c (tok_text t) -> 0 < c < 256 /\ c <> 10 /\ c <> 125.
  Proof.
    intros (Hb & Hw & _ & Ha & _) c Hc. unfold tok_text in Hc. rewrite !in_app_iff in Hc.
    rewrite Forall_forall in Hb, Hw, Ha. destruct Hc as [X|[X|X]]; [apply Hb in X|apply Hw in X|apply Ha in X]; unfold blank, word_char in X; lia.
  Qed.
  Lemma body_chars c : In c body -> 0 < c < 256 /\ c <> 10 /\ c <> 125.
  Proof.
    unfold body. intros Hc. apply in_app_or in Hc as [Hc|Hc]; [|exact (tok_chars _ (proj1 last_ok) c Hc)].
    unfold comma_list in Hc. apply in_concat in Hc as (y & Hy & Hy0). apply in_map_iff in Hy as (t & <- & Ht).
    pose proof toks_tokens as FT. rewrite Forall_forall in FT. apply in_app_iff in Hy0 as [X|[X|[]]]; [|lia]. exact (tok_chars t (FT t Ht) c X).
  Qed.
  Lemma body_text : wave_text wv B = body ++ [125].
  Proof. unfold wave_text, body, toks. now rewrite <- app_assoc. Qed.

  Definition with_wave (wave : ptr) : hdr :=
    mkHdr (h_samples h) (h_lines h) (h_bands h) (h_type h) (h_sampletemp h) (h_linetemp h) (h_bandtemp h) (h_datatypetemp h) (h_pos h) (h_it h)
      (Some wave_item) (Some wave).

  (** What is left once the line is recognised. *)
  Lemma brace_line_step rest :
    readhdr_line strtod il brace_line rest h e x0
    = (n <- ev (MAXWAVECHAR * B)%C ;;
       w <- malloc n ;;
       x <- wave_lines w brace_line rest ;;
       let '(_, rest', _) := x in
       wave <- malloc (B * 4) ;;
       read_wavelength strtod w wave B ;;;
       free w ;;;
       ret (with_wave wave, rest')) e x0.
  Proof.
    match goal with |- _ = ?R => set (RHS := R) end.
    unfold readhdr_line.
    rewrite (item_of brace_line wave_item h brace_item) by discriminate.
    cbn beta iota zeta delta [h_samples h_lines h_bands h_type h_sampletemp h_linetemp h_bandtemp h_datatypetemp h_pos h_it h_item h_wave].
    runs (cmp_differs wave_item "samples" e x0 wave_item_0 ltac:(key0) wave_samples). change (0 =? 1) with false. cbv iota.
    runs (cmp_differs wave_item "lines" e x0 wave_item_0 ltac:(key0) wave_lines_key). change (0 =? 1) with false. cbv iota.
    runs (cmp_differs wave_item "bands" e x0 wave_item_0 ltac:(key0) wave_bands). change (0 =? 1) with false. cbv iota.
    runs (cmp_differs wave_item "data" e x0 wave_item_0 ltac:(key0) wave_data). change (0 =? 1) with false. cbv iota.
    runs (cmp_differs wave_item "interleave" e x0 wave_item_0 ltac:(key0) wave_interleave). change (0 =? 1) with false. cbv iota.
    runs (cmp_matches brace_line "wavelength = {" [32; 10] e x0 brace_0 ltac:(key0) eq_refl). change (1 =? 1) with true. cbv iota.
    subst RHS. rewrite Hbt. unfold with_wave. rewrite Hbt. reflexivity.
  Qed.

  (** Up to the wavelength reader. *)
  Lemma wave_start : exists d1, 
    (forall j, ~ 0 <= j < Z.of_nat (List.length (body ++ [125])) -> d1 j = e_junk e qw j)
    /\ holds d1 0 (body ++ [125])
    /\ let x2 := with_block e (with_block e x0 (B * 20) d1) (B * 4) (e_junk e qv) in
       heap_ok x2 /\ isb x2 qw (B * 20) d1 /\ isb x2 qv (B * 4) (e_junk e qv)
       /\ readhdr_line strtod il brace_line (body ++ [125]) h e x0
          = (read_wavelength strtod (Some qw) (Some qv) B ;;; free (Some qw) ;;; ret (with_wave (Some qv), [])) e x2.
  Proof.
    pose proof body_len as HL. set (x1 := with_block e x0 (B * 20) (e_junk e qw)).
    assert (Iw : isb x1 qw (B * 20) (e_junk e qw)) by apply wb_isb.
    destruct max_line_pos as (m & Em). assert (R20 : 0 <= B * 20 <= 2147483647) by lia. assert (R4 : 0 <= B * 4 <= 2147483647) by lia.
    destruct (wave_lines_go e qw (B * 20) body m body_chars (List.length (body ++ [125])) brace_line [] (body ++ [125]) x1 (e_junk e qw)) as (line' & d1 & E1 & H1 & R1).
    { lia. } { reflexivity. } { intros _. vm_compute. intuition discriminate. } { exact Iw. } { lia. } { apply holds_nil. }
    exists d1. split; [exact R1|]. split; [exact H1|]. cbv zeta.
    assert (Hx1 : heap_ok (with_block e x0 (B * 20) d1)) by (apply wb_heap; auto; lia).
    assert (Lq : List.length (objs (with_block e x0 (B * 20) d1)) = qv) by apply wb_len.
    set (x2 := with_block e (with_block e x0 (B * 20) d1) (B * 4) (e_junk e qv)).
    split; [apply wb_heap; auto; lia|]. split; [apply wb_isb_old, wb_isb|].
    split. { rewrite <- Lq at 1. apply wb_isb. }
    rewrite brace_line_step. 
    runs (ev_ok _ _ e x0 (wave_room B HB HB20)).
    runs (wb_malloc e x0 (B * 20) R20). fold qw. fold x1.
    unfold x1 in E1 at 2. unfold qw in E1 at 3. rewrite wb_put in E1. 
    assert (E2 : wave_lines (Some qw) brace_line (body ++ [125]) e x1 = Ret (line', [], Z.of_nat (List.length (body ++ [125]))) (with_block e x0 (B * 20) d1)).
    { etransitivity; [|exact E1]. unfold wave_lines, fgets. change (Z.of_nat (List.length (@nil Z))) with 0.
      rewrite Em. reflexivity. }
    runs E2. rewrite (bind_ret _ _ _ _ _ _ (wb_malloc e (with_block e x0 (B * 20) d1) (B * 4) R4)).
    rewrite Lq. reflexivity.
  Qed.

  (** With zeroed memory everything is read. *)
  Lemma wave_zero : (forall k i, e_junk e k i = 0) ->
    exists x, readhdr_line strtod il brace_line (wave_text wv B) h e x0 = Ret (with_wave (Some qv), []) x
      /\ heap_ok x /\ old_unchanged x0 x /\ files x = files x0
      /\ exists d', isb x qv (B * 4) d' /\ forall i, 0 <= i < B -> stored strtod d' i (ptok (wave_at wv i)).
  Proof.
    intros Hz. rewrite body_text. destruct wave_start as (d1 & R1 & H1 & Hx2 & Iw & Iv & E). cbv zeta in *.
    set (x2 := with_block e (with_block e x0 (B * 20) d1) (B * 4) (e_junk e qv)) in *.
    pose proof body_len as HL. pose proof toks_len as TL.
    assert (LL : (objs x0 = objs x0) /\ List.length (objs x2) = Datatypes.S (Datatypes.S qw)) by (split; [reflexivity|unfold x2; rewrite !wb_len; reflexivity]).
    destruct LL as [_ LL].
    destruct (closed_run strtod e x2 qw qv (B * 20) (B * 4) d1 (e_junk e qv) B Hx2 Iw Iv ltac:(unfold qv; lia) toks (ptok (wave_at wv (B - 1))) 125) as (dv & dt & E2 & St & Sl & _).
    { exact toks_tokens. } { exact (proj1 last_ok). } { auto. } { rewrite app_assoc. exact H1. }
    { exists (Z.of_nat (List.length (body ++ [125]))). rewrite app_assoc. fold body. split; [lia|]. rewrite R1 by lia. rewrite Hz. reflexivity. }
    { lia. } { lia. } { auto. }
    set (y := Wdead e x2 qv dv dt) in *.
    assert (Ny : nth_error (objs y) qw = Some (mkObj (e_addr e qw) (B * 20) qw true (CBytes d1))).
    { unfold y, Wdead; cbn [objs]. rewrite nth_error_app1 by (rewrite putd_length, LL; lia).
      unfold putd; cbn [objs]. rewrite lupd_nth_ne by (unfold qv; lia). unfold x2. unfold with_block at 1; cbn [objs].
      rewrite nth_error_app1 by (rewrite wb_len; unfold qw; lia). unfold with_block; cbn [objs]. unfold qw. rewrite (nth_error_app_new0 (objs x0)). reflexivity. }
    assert (NV : nth_error (objs x2) qv = Some (mkObj (e_addr e qv) (B * 4) qv true (CBytes (e_junk e qv)))).
    { unfold x2. unfold with_block at 1. cbn [objs]. assert (Lq : List.length (objs (with_block e x0 (B * 20) d1)) = qv) by apply wb_len.
      rewrite nth_error_app2 by (rewrite Lq; lia). rewrite Lq, Nat.sub_diag. reflexivity. }
    exists (mkSt (map (kill_root qw) (objs y)) (files y)). split.
    { rewrite E. runs E2. rewrite (bind_ret _ _ _ _ _ _ (free_ok e y qw _ Ny eq_refl eq_refl)). reflexivity. }
    assert (Hy : heap_ok y).
    { unfold y, Wdead. apply (heap_ok_app (putd x2 qv dv) (List.length (objs (putd x2 qv dv)))); [apply heap_ok_putd; exact Hx2|reflexivity|].
      constructor; [|constructor]. rewrite putd_length. cbn [o_root List.length]. lia. }
    assert (Oy : old_unchanged x0 y).
    { intros i Hi. unfold y, Wdead; cbn [objs]. rewrite nth_error_app1 by (rewrite putd_length, LL; unfold qw; lia).
      unfold putd; cbn [objs]. rewrite lupd_nth_ne by (unfold qv, qw; lia). unfold x2. rewrite (wb_old e _ (B * 4) _ i) by (rewrite wb_len; lia). apply wb_old, Hi. }
    split; [apply kill_heap, Hy|]. split; [apply kill_old; auto; unfold qw; lia|]. split; [reflexivity|].
    exists dv. split.
    - apply kill_isb.
      + unfold y, Wdead. apply (isb_app_old (putd x2 qv dv)). eapply isb_putd_eq; eauto.
      + intros o Ho. unfold y, Wdead in Ho; cbn [objs] in Ho. rewrite nth_error_app1 in Ho by (rewrite putd_length, LL; unfold qv; lia).
        unfold putd in Ho; cbn [objs] in Ho. rewrite lupd_nth_eq in Ho. rewrite NV in Ho. cbn in Ho. injection Ho as <-. cbn. unfold qv. apply Nat.neq_succ_diag_l.
    - intros i Hi. destruct (Z.eq_dec i (B - 1)) as [->|Hne].
      + rewrite TL in Sl. exact Sl.
      + specialize (St (Z.to_nat i) ltac:(lia)). rewrite Z2Nat.id in St by lia. replace (ptok (wave_at wv i)) with (nth (Z.to_nat i) toks (mkTok [] [] [])); [exact St|].
        unfold toks, iota. rewrite map_map. erewrite nth_indep with (d' := (fun j => ptok (wave_at wv (Z.of_nat j))) 0%nat) by (rewrite map_length, seq_length; lia).
        rewrite (map_nth (fun j => ptok (wave_at wv (Z.of_nat j)))), seq_nth by lia. cbv beta. do 2 f_equal. lia.
  Qed.

  (** Without a zero in the fresh memory the list has no end. *)
  Lemma wave_junk : (forall k i, e_junk e k i mod 256 <> 0) ->
    readhdr_line strtod il brace_line (wave_text wv B) h e x0 = UB.
  Proof.
    intros Hz. rewrite body_text. destruct wave_start as (d1 & R1 & H1 & Hx2 & Iw & Iv & E). cbv zeta in *. rewrite E. apply bind_ub.
    eapply no_nul_run; eauto; [unfold qv; lia|]. intros j Hj.
    destruct (Z.ltb_spec j (Z.of_nat (List.length (body ++ [125])))) as [Hlt|Hge]; [|rewrite R1 by lia; apply Hz].
    specialize (H1 (Z.to_nat j) ltac:(lia)). replace (0 + Z.of_nat (Z.to_nat j)) with j in H1 by lia. rewrite H1.
    assert (Hin : In (nth (Z.to_nat j) (body ++ [125]) 0) (body ++ [125])) by (apply nth_In; lia).
    intros H0. rewrite H0 in Hin. apply in_app_or in Hin as [X|[X|[]]]; [apply body_chars in X; lia|lia].
  Qed.
End WaveLine.

Lemma brace_line_ok : header_line brace_line.
Proof. apply plain_dec; [reflexivity|len]. Qed.

Lemma hm_dims s p m l es : cube s p m l es ->
  0 < hm_samples m <= 2147483647 /\ 0 < hm_lines m <= 2147483647 /\ 0 < hm_bands m <= 2147483647.
Proof.
  intros [Hh Htag Hpad Hty HS HL HB Hsz Hws Hd Hwv]. pose proof (type_size_range _ _ Hty) as Hes.
  assert (HSL : hm_samples m <= hm_samples m * hm_lines m) by nia.
  assert (HLS : hm_lines m <= hm_samples m * hm_lines m) by nia.
  assert (HSLB : hm_samples m * hm_lines m <= hm_samples m * hm_lines m * hm_bands m) by nia.
  assert (HBB : hm_samples m * hm_lines m * hm_bands m <= hm_samples m * hm_lines m * hm_bands m * es) by nia. lia.
Qed.

Section Both.
  Variables (strtod : list Z -> sf) (can : path -> bool) (e : env) (s : st) (p : ptr) (m : hmat) (l : layout) (es : Z) (path : path).
  Hypothesis CU : cube s p m l es. Hypothesis Hs : heap_ok s.
  Hypothesis Hc1 : can path = true. Hypothesis Hc2 : can (path ++ chars ".hdr") = true.
  Hypothesis Hw : hm_wave m <> None.
  Hypothesis HB20 : hm_bands m * 20 <= 2147483647.
  Hypothesis Hord : ordinary_waves s (hm_wave m) (hm_bands m).
  Variables (e2 : env) (s2 : st).
  Hypothesis He2 : env_ok e2. Hypothesis Hs2 : heap_ok s2.

  Let k0 := List.length (objs s2).
  Let x0 := with_block e2 s2 3 (tag_put (e_junk e2 k0) (tag_of l)).

  Lemma wave_saved s' : hmsave can (Some path) p e s = Ret tt s' -> file_of s2 (path ++ chars ".hdr") = file_of s' (path ++ chars ".hdr") ->
    exists T wv h n, file_of s2 (path ++ chars ".hdr") = Some T
      /\ (forall i, 0 <= i < hm_bands m -> small_float (wave_at wv i)) /\ h_bandtemp h = hm_bands m
      /\ h_samples h = Some (hm_samples m) /\ h_lines h = Some (hm_lines m) /\ h_bands h = Some (hm_bands m) /\ h_type h = Some (hm_type m)
      /\ readhdr strtod T (Some k0) e2 (with_block e2 s2 3 (e_junk e2 k0))
         = (x <- (y <- readhdr_line strtod (Some k0) brace_line (wave_text wv (hm_bands m)) h ;; whileF (Datatypes.S n) hdr_cond (hdr_body strtod (Some k0)) y) ;; ret (fst x)) e2 x0.
  Proof.
    intros E Fh. destruct (hmsave_run can e s p m l es path CU Hc1 Hc2) as (s'' & q & sz & d & E' & _ & _ & _ & _ & _ & _ & FH).
    pose proof (eq_trans (eq_sym E) E') as EE. injection EE as <-. pose proof Hord as Ho. destruct (hm_wave m) as [qw|] eqn:Ew; [|congruence].
    destruct FH as (szw & wv & Iw & FH). rewrite FH in Fh.
    destruct (hm_dims _ _ _ _ _ CU) as (DS & DL & DB). pose proof CU as [Hh Htag Hpad Hty HS HL HB Hsz Hws Hd Hwv].
    rewrite Ew in Hwv. destruct Hwv as [Hx|Hr]; [discriminate|]. apply readable_isb in Hr as (q' & sz' & d' & [= <-] & Iw' & Hsw).
    assert (Hsz' : hm_bands m * 4 <= szw) by (unfold isb in Iw, Iw'; congruence).
    set (T := header_text (hm_samples m) (hm_lines m) (hm_bands m) (hm_type m) (tag_of l) ++ brace_line ++ wave_text wv (hm_bands m)) in *.
    assert (I1 : isb (with_block e2 s2 3 (e_junk e2 k0)) k0 3 (e_junk e2 k0)) by apply wb_isb.
    assert (Hlen : (0 + 22 < Datatypes.S (List.length T))%nat).
    { unfold T. rewrite app_length. pose proof (lines1_long (hm_samples m) (hm_lines m) (hm_bands m) (hm_type m) (tag_of l)).
      rewrite app_length. change (List.length brace_line) with 16%nat. lia. }
    destruct (saved_lines strtod e2 (with_block e2 s2 3 (e_junk e2 k0)) k0 3 (e_junk e2 k0) (hm_samples m) (hm_lines m) (hm_bands m) (hm_type m) l [] []
      DS DL DB (type_range _ _ Hty) (Forall2_nil _) (Forall_nil _) (Forall_nil _) I1 ltac:(lia) (Datatypes.S (List.length T)) (brace_line ++ wave_text wv (hm_bands m)))
      as (n & h & EL & hS & hL & hB & hT & hbt & hW & Hfu).
    { cbn [List.length]. lia. }
    cbn [List.concat app] in EL. fold T in EL. unfold k0 in EL at 4. rewrite wb_put in EL. fold k0 in EL. fold x0 in EL.
    exists T, wv, h, (n - 1)%nat. split; [exact Fh|]. split.
    { intros i Hi. unfold wave_at. apply (Ho i (word wv (4 * i) 4) Hi). apply (word_at_isb s qw szw wv 4 Iw); lia. }
    split; [exact hbt|]. do 4 (split; [assumption|]). rewrite readhdr_eq.
    assert (Hn : exists n', n = Datatypes.S n') by (destruct n as [|n']; [cbn [List.length] in Hfu; lia|eauto]).
    destruct Hn as (n' & ->). replace (Datatypes.S (Datatypes.S n' - 1)) with (Datatypes.S n') by lia.
    rewrite hdr_step in EL by apply brace_line_ok. unfold bind at 1. rewrite EL. reflexivity.
  Qed.
End Both.

(** C12, images with ordinary wavelengths, zeroed memory. *)
Lemma hdr_round_trip_waves strtod can e s p m l es path : cube s p m l es -> heap_ok s -> can path = true -> can (path ++ chars ".hdr") = true ->
  hm_wave m <> None -> hm_bands m * 20 <= 2147483647 -> ordinary_waves s (hm_wave m) (hm_bands m) ->
  exists s', hmsave can (Some path) p e s = Ret tt s' /\ objs s' = objs s /\ other_files [path; path ++ chars ".hdr"] s s'
    /\ forall e2 s2, env_ok e2 -> heap_ok s2 -> (forall k i, e_junk e2 k i = 0) ->
         file_of s2 path = file_of s' path -> file_of s2 (path ++ chars ".hdr") = file_of s' (path ++ chars ".hdr") ->
         exists p' s3, hmread_with_hdr strtod (Some path) (Some (path ++ chars ".hdr")) e2 s2 = Ret p' s3
           /\ reloaded s m l es s2 s3 p'.
Proof.
  intros CU Hs Hc1 Hc2 Hw HB20 Hord. destruct (hmsave_run can e s p m l es path CU Hc1 Hc2) as (s' & q & sz & d & E & O & Eq & Iq & Nq & F & OF & _).
  exists s'. split; [exact E|]. split; [exact O|]. split; [exact OF|]. intros e2 s2 He2 Hs2 Hz Ff Fh. rewrite F in Ff.
  destruct (wave_saved strtod can e s p m l es path CU Hc1 Hc2 Hw Hord e2 s2 s' E Fh) as (T & wv & h & n & FT & Hsm & hbt & hS & hL & hB & hT & ER).
  destruct (hm_dims _ _ _ _ _ CU) as (DS & DL & DB).
  set (k0 := List.length (objs s2)) in *. set (x0 := with_block e2 s2 3 (tag_put (e_junk e2 k0) (tag_of l))) in *.
  assert (H0 : heap_ok x0) by (apply wb_heap; auto; lia).
  destruct (wave_zero strtod e2 x0 (Some k0) h (hm_bands m) wv H0 ltac:(lia) HB20 hbt Hsm Hz) as (x & EW & Hx & OU & FF & d' & Iv & _).
  apply (with_hdr_run strtod e2 s2 s p m l es q sz d path (path ++ chars ".hdr") T (with_wave h (Some (Datatypes.S (List.length (objs x0))))) x (e_addr e2 k0) (tag_put (e_junk e2 k0) (tag_of l))); auto.
  - fold k0. rewrite ER. rewrite (bind_ret _ _ e2 x0 (with_wave h (Some (Datatypes.S (List.length (objs x0)))), []) x); [reflexivity|]. runs EW. apply whileF_stop.
  - exact (old_unchanged_trans _ _ _ (wb_old e2 s2 3 _) OU).
  - fold k0. rewrite (OU k0) by (unfold x0; rewrite wb_len; fold k0; lia). unfold x0, with_block; cbn [objs]. unfold k0. rewrite (nth_error_app_new0 (objs s2)). reflexivity.
  - apply tag_put_at.
  - right. eexists. split; [reflexivity|]. eexists _, _, _. split; [reflexivity|]. split; [exact Iv|]. lia.
Qed.

(** C12 refuted: with wavelengths the reader runs off its buffer. *)
Lemma hdr_round_trip_refuted strtod can e s p m l es path s' : cube s p m l es -> heap_ok s -> can path = true -> can (path ++ chars ".hdr") = true ->
  hm_wave m <> None -> hm_bands m * 20 <= 2147483647 -> ordinary_waves s (hm_wave m) (hm_bands m) ->
  hmsave can (Some path) p e s = Ret tt s' ->
  forall e2 s2, env_ok e2 -> heap_ok s2 -> (forall k i, e_junk e2 k i mod 256 <> 0) ->
    file_of s2 path = file_of s' path -> file_of s2 (path ++ chars ".hdr") = file_of s' (path ++ chars ".hdr") ->
    hmread_with_hdr strtod (Some path) (Some (path ++ chars ".hdr")) e2 s2 = UB.
Proof.
  intros CU Hs Hc1 Hc2 Hw HB20 Hord E e2 s2 He2 Hs2 Hz Ff Fh.
  destruct (hmsave_run can e s p m l es path CU Hc1 Hc2) as (s'' & q & sz & d & E' & O & Eq & Iq & Nq & F & OF & _).
  pose proof (eq_trans (eq_sym E) E') as EE. injection EE as <-. rewrite F in Ff.
  destruct (wave_saved strtod can e s p m l es path CU Hc1 Hc2 Hw Hord e2 s2 s' E Fh) as (T & wv & h & n & FT & Hsm & hbt & hS & hL & hB & hT & ER).
  destruct (hm_dims _ _ _ _ _ CU) as (DS & DL & DB).
  set (k0 := List.length (objs s2)) in *. set (x0 := with_block e2 s2 3 (tag_put (e_junk e2 k0) (tag_of l))) in *.
  assert (H0 : heap_ok x0) by (apply wb_heap; auto; lia).
  pose proof (wave_junk strtod e2 x0 (Some k0) h (hm_bands m) wv H0 ltac:(lia) HB20 hbt Hsm Hz) as EW.
  unfold hmread_with_hdr. runs (wb_malloc e2 s2 3 ltac:(lia)). unfold fopen_r. fold k0.
  set (D := hm_samples m * hm_lines m * hm_bands m * es) in *.
  rewrite (bind_ret _ _ e2 _ (Some (bytes_of d D)) (with_block e2 s2 3 (e_junk e2 k0)));
    [|unfold with_block, file_of in *; cbn [files]; now rewrite Ff].
  rewrite (bind_ret _ _ e2 _ (Some T) (with_block e2 s2 3 (e_junk e2 k0)));
    [|unfold with_block, file_of in *; cbn [files]; now rewrite FT].
  apply bind_ub. rewrite ER. apply bind_ub, bind_ub, EW.
Qed.
