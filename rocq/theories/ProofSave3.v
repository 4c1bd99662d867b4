(** * Proofs: reading back through the header. *)
From Verif Require Import Base Logic ModelFloat ModelCore ModelPixel ModelFile SpecBase SpecCore SpecNum SpecFile SpecHdr ProofCore ProofLayout ProofHM ProofCopy ProofCore2 ProofImage2 ProofImage3 ProofImage4 ProofPixel ProofColor ProofWord ProofArr ProofFlip ProofBmp ProofHdr ProofHdr2 ProofWave ProofSave ProofSave2.
From Coq Require Import Floats.SpecFloat String Ascii ZifyBool ZifyNat.
Ltac Zify.zify_post_hook ::= Z.div_mod_to_equations.
Open Scope Z_scope.

Lemma u32_small z : 0 <= z < 4294967296 -> u32 z = z.
Proof. intros H. unfold u32. apply Z.mod_small. change (2 ^ 32) with 4294967296. auto. Qed.

Lemma with_hdr_run strtod e2 s2 s p m l es q0 sz0 d0 path hpath T h x a0 di :
  cube s p m l es -> hm_data m = Some q0 -> isb s q0 sz0 d0 -> hm_samples m * hm_lines m * hm_bands m * es <= sz0 ->
  env_ok e2 -> heap_ok s2 ->
  file_of s2 path = Some (bytes_of d0 (hm_samples m * hm_lines m * hm_bands m * es)) -> file_of s2 hpath = Some T ->
  readhdr strtod T (Some (List.length (objs s2))) e2 (with_block e2 s2 3 (e_junk e2 (List.length (objs s2)))) = Ret h x ->
  h_samples h = Some (hm_samples m) -> h_lines h = Some (hm_lines m) -> h_bands h = Some (hm_bands m) -> h_type h = Some (hm_type m) ->
  heap_ok x -> old_unchanged s2 x -> files x = files s2 ->
  nth_error (objs x) (List.length (objs s2)) = Some (mkObj a0 3 (List.length (objs s2)) true (CBytes di)) ->
  [di 0 mod 256; di 1 mod 256; di 2 mod 256] = tag_of l ->
  h_wave h = None \/ (exists qv, h_wave h = Some qv /\ readable x qv (hm_bands m * 4)) ->
  exists p' s3, hmread_with_hdr strtod (Some path) (Some hpath) e2 s2 = Ret p' s3 /\ reloaded s m l es s2 s3 p'.
Proof.
  intros CU Eq Iq Nq He2 Hs2 Fp Fh RH hS hL hB hT Hx OU FF N0 Tg Hw.
  pose proof CU as [Hh Htag Hpad Hty HS HL HB Hsz Hws Hd Hwv].
  pose proof (type_size_range _ _ Hty) as Hes. pose proof (type_size_elemsize _ _ Hty) as Hee.
  set (S := hm_samples m) in *. set (L := hm_lines m) in *. set (B := hm_bands m) in *.
  destruct (size_c S L B es HS HL HB ltac:(lia) Hsz) as (EC & P1 & P2).
  set (D := S * L * B * es) in *.
  assert (HD : 0 <= D <= 2147483647) by lia.
  set (k0 := List.length (objs s2)) in *.
  destruct (fread_block e2 x D (bytes_of d0 D) ltac:(lia) ltac:(rewrite bytes_of_len; lia) (e_junk e2 (List.length (objs x)))) as (d1 & R1 & V1).
  set (x1 := with_block e2 x D d1) in *.
  assert (Hx1 : heap_ok x1) by (apply wb_heap; auto).
  assert (I1 : isb x1 (List.length (objs x)) D d1) by apply wb_isb.
  assert (Hlen : (k0 < List.length (objs x))%nat) by (apply nth_error_Some; congruence).
  assert (I0 : isb x k0 3 di) by (eapply obj_isb; eauto).
  assert (I0' : isb x1 k0 3 di) by (apply wb_isb_old; auto).
  set (wv := match h_wave h with Some q => q | None => None end).
  assert (Hwv' : wv = None \/ readable x1 wv (B * 4)).
  { unfold wv. destruct Hw as [->|(qv & -> & Hr)]; [auto|]. right. apply readable_isb in Hr as (q1 & sz1 & dv & -> & Hq & Hn).
    exists q1, sz1, dv. split; [reflexivity|]. split; [apply (wb_isb_old e2 x D d1 q1 sz1 dv Hq)|exact Hn]. }
  destruct (create_reloaded e2 s p m l es q0 sz0 d0 x1 (List.length (objs x)) d1 D wv (di 0 mod 256) (di 1 mod 256) (di 2 mod 256) [] CU Eq Iq Nq He2 Hx1 I1) as (dd & dw & EK & VK).
  { fold S L B. fold D. lia. }
  { fold S L B. fold D. intros i Hi. rewrite V1, file_bytes by auto. lia. }
  { fold B. exact Hwv'. }
  { now rewrite Tg. }
  fold S L B in EK. set (y := newhm e2 x1 S L B (hm_type m) es (tag_of l) dd dw) in *.
  set (y' := mkSt (map (kill_root k0) (objs y)) (files y)).
  assert (N1 : nth_error (objs x1) k0 = Some (mkObj a0 3 k0 true (CBytes di))).
  { unfold x1. rewrite (wb_old e2 x D d1 k0 Hlen). exact N0. }
  assert (Ny : nth_error (objs y) k0 = Some (mkObj a0 3 k0 true (CBytes di))).
  { unfold y. rewrite newhm_old_nth; [exact N1|]. unfold x1. rewrite wb_len. lia. }
  exists (Some (List.length (objs x1))), y'. split.
  - unfold hmread_with_hdr. runs (wb_malloc e2 s2 3 ltac:(lia)). unfold fopen_r. fold k0.
    rewrite (bind_ret _ _ e2 _ (Some (bytes_of d0 D)) (with_block e2 s2 3 (e_junk e2 k0)));
      [|unfold with_block, file_of in *; cbn [files]; now rewrite Fp].
    rewrite (bind_ret _ _ e2 _ (Some T) (with_block e2 s2 3 (e_junk e2 k0)));
      [|unfold with_block, file_of in *; cbn [files]; now rewrite Fh].
    runs RH. rewrite hS, hL, hB, hT. cbn [written_or_ub].
    rewrite (bind_ret _ _ e2 x S x eq_refl), (bind_ret _ _ e2 x L x eq_refl), (bind_ret _ _ e2 x B x eq_refl), (bind_ret _ _ e2 x (hm_type m) x eq_refl).
    rewrite Hee, u32_small by lia. cbv zeta. runs (ev_ok _ _ e2 x EC). fold D.
    runs (wb_malloc e2 x D HD). rewrite bind_assert by reflexivity. runs R1.
    runs (load8_ok e2 x1 k0 3 di 0 I0' ltac:(lia)). runs (load8_ok e2 x1 k0 3 di 1 I0' ltac:(lia)). runs (load8_ok e2 x1 k0 3 di 2 I0' ltac:(lia)).
    fold wv. runs EK. rewrite (bind_ret _ _ _ _ _ _ (free_ok e2 y k0 _ Ny eq_refl eq_refl)). reflexivity.
  - assert (KI : forall i o, (List.length (objs x1) <= i)%nat -> nth_error (objs y) i = Some o -> o_root o <> k0).
    { intros i o Hi Hn. unfold y, newhm in Hn; cbn [objs] in Hn. rewrite nth_error_app2 in Hn by auto.
      assert (Hr : o_root o = List.length (objs x1)).
      { destruct (i - List.length (objs x1))%nat as [|[|[|n]]]; cbn in Hn; try (injection Hn as <-; reflexivity). destruct n; discriminate. }
      rewrite Hr. unfold x1. rewrite wb_len. lia. }
    apply (reloaded_intro e2 s p m l es q0 sz0 d0 x1 dd dw s2 y'); auto.
    + unfold x1. rewrite wb_len. fold k0. lia.
    + apply kill_old; auto. apply (old_unchanged_trans _ _ _ OU). exact (old_unchanged_trans _ _ _ (wb_old e2 x D d1) (newhm_old_unchanged e2 x1 _ _ _ _ _ _ _ _)).
    + apply kill_heap. apply newhm_heap_ok; auto.
    + pose proof (newhm_hdr e2 x1 S L B (hm_type m) es (tag_of l) dd dw) as H1. fold y in H1. unfold hm_at in *.
      unfold y'; cbn [objs]. rewrite nth_error_map. destruct (nth_error (objs y) (List.length (objs x1))) as [o|] eqn:Eo; [|discriminate].
      cbn [option_map]. rewrite kill_other; [exact H1|]. revert Eo. apply KI. lia.
    + apply kill_isb; [apply newhm_data|]. intros o Ho. revert Ho. apply KI. lia.
    + apply kill_isb; [apply newhm_wave|]. intros o Ho. revert Ho. apply KI. lia.
Qed.

Lemma type_range ty es : type_size ty = Some es -> 0 <= ty <= 2147483647.
Proof. unfold type_size. repeat match goal with |- context [?a =? ?b] => destruct (Z.eqb_spec a b) end; cbn; intros; try discriminate; lia. Qed.

(** The header record after the lines hmsave writes first. *)
Lemma from_fields1 S L B ty a b c fs :
  Forall (fun f => f = Unrelated) fs ->
  from get_samples (fields1 S L B ty ++ Interleave a b c :: fs) None = Some S
  /\ from get_lines (fields1 S L B ty ++ Interleave a b c :: fs) None = Some L
  /\ from get_bands (fields1 S L B ty ++ Interleave a b c :: fs) None = Some B
  /\ from get_type (fields1 S L B ty ++ Interleave a b c :: fs) None = Some ty.
Proof.
  intros F. unfold from, fields1. cbn [app fold_left get_samples get_lines get_bands get_type].
  assert (G : forall get acc, get Unrelated = None -> fold_left (fun acc f => match get f with Some z => Some z | None => acc end) fs acc = (acc : option Z)).
  { intros get acc Hg. induction F as [|f fs -> _ IH]; [reflexivity|]. cbn [fold_left]. now rewrite Hg. }
  repeat split; apply G; reflexivity.
Qed.

Lemma fields1_no S L B ty : Forall (fun f => ~ is_interleave f) (fields1 S L B ty).
Proof. repeat constructor; cbn; tauto. Qed.

Definition tag_put (d : Z -> Z) (tag : list Z) : Z -> Z := tag_data d 0 (nth 0 tag 0) (nth 1 tag 0) (nth 2 tag 0).
Lemma tag_put_at d l : [tag_put d (tag_of l) 0 mod 256; tag_put d (tag_of l) 1 mod 256; tag_put d (tag_of l) 2 mod 256] = tag_of l.
Proof. unfold tag_put. destruct l; reflexivity. Qed.

(** The loop over the lines hmsave writes first. *)
Lemma saved_lines strtod e s q n0 d S L B ty l fs2 lines2 : 
  0 < S <= 2147483647 -> 0 < L <= 2147483647 -> 0 < B <= 2147483647 -> 0 <= ty <= 2147483647 ->
  Forall2 states fs2 lines2 -> Forall header_line lines2 -> Forall (fun f => f = Unrelated) fs2 ->
  isb s q n0 d -> 3 <= n0 ->
  forall N rest, (6 + List.length lines2 < N)%nat -> exists n h,
    whileF N hdr_cond (hdr_body strtod (Some q)) (hdr0, header_text S L B ty (tag_of l) ++ List.concat lines2 ++ rest) e s
    = whileF (Datatypes.S n) hdr_cond (hdr_body strtod (Some q)) (h, rest) e (putd s q (tag_put d (tag_of l)))
    /\ h_samples h = Some S /\ h_lines h = Some L /\ h_bands h = Some B /\ h_type h = Some ty /\ h_bandtemp h = B /\ h_wave h = None
    /\ (n + 7 + List.length lines2 = N)%nat.
Proof.
  intros HS HL HB Hty F2 L2 U2 Hq H3 N rest HN.
  destruct (tag_line_states l) as (a & b & c & Et & Ra & Rb & Rc & St).
  assert (NI : Forall (fun f => ~ is_interleave f) fs2) by (eapply Forall_impl; [|exact U2]; intros f ->; cbn; tauto).
  destruct (hdr_all strtod q e s n0 d (fields1 S L B ty) a b c fs2 (lines1 S L B ty) (tag_line (tag_of l)) lines2) with (n := (N - (6 + List.length lines2))%nat) (rest := rest) as (h & E & A); auto using fields1_no, states_reads_all.
  { apply states_reads_all, lines1_states; lia. }
  { apply Forall_app. split; [apply lines1_ok; lia|]. constructor; [apply tag_line_ok|auto]. }
  destruct (from_fields1 S L B ty a b c fs2 U2) as (GS & GL & GB & GT).
  destruct A as [AS AL AB AT Abt AW].
  exists (N - (6 + List.length lines2) - 1)%nat, h. split.
  { replace (Datatypes.S (N - (6 + List.length lines2) - 1)) with (N - (6 + List.length lines2))%nat by lia.
    replace (tag_put d (tag_of l)) with (tag_data d 0 a b c) by (unfold tag_put; rewrite Et; reflexivity).
    rewrite <- E. f_equal.
    - rewrite app_length. cbn [List.length lines1]. lia.
    - f_equal. unfold header_text. rewrite (concat_app (lines1 S L B ty) [_]), (concat_app (lines1 S L B ty) (_ :: _)). cbn [List.concat]. rewrite app_nil_r, <- !app_assoc. reflexivity. }
  cbn [h_samples h_lines h_bands h_type hdr0] in *. rewrite AS, AL, AB, AT, AW. repeat (split; [assumption||reflexivity|]). split; [apply Abt; [discriminate|]; congruence|]. split; [reflexivity|lia].
Qed.

Lemma whileF_stop strtod il n h e s : whileF (S n) hdr_cond (hdr_body strtod il) (h, []) e s = Ret (h, []) s.
Proof. reflexivity. Qed.

Lemma lines1_long S L B ty tag : (6 <= List.length (header_text S L B ty tag))%nat.
Proof. unfold header_text, lines1, envi_line. cbn [List.concat app]. rewrite !app_length. unfold tag_line, int_text. rewrite !app_length. cbn [List.length]. lia. Qed.

(** C12, images without wavelengths. *)
Lemma hdr_round_trip strtod can e s p m l es path : cube s p m l es -> heap_ok s -> can path = true -> can (path ++ chars ".hdr") = true ->
  hm_wave m = None ->
  exists s', hmsave can (Some path) p e s = Ret tt s' /\ objs s' = objs s /\ other_files [path; path ++ chars ".hdr"] s s'
    /\ forall e2 s2, env_ok e2 -> heap_ok s2 -> file_of s2 path = file_of s' path -> file_of s2 (path ++ chars ".hdr") = file_of s' (path ++ chars ".hdr") ->
         exists p' s3, hmread_with_hdr strtod (Some path) (Some (path ++ chars ".hdr")) e2 s2 = Ret p' s3
           /\ reloaded s m l es s2 s3 p'.
Proof.
  intros CU Hs Hc1 Hc2 Hw0. destruct (hmsave_run can e s p m l es path CU Hc1 Hc2) as (s' & q & sz & d & E & O & Eq & Iq & Nq & F & OF & FH).
  exists s'. split; [exact E|]. split; [exact O|]. split; [exact OF|]. intros e2 s2 He2 Hs2 Ff Fh. rewrite F in Ff. rewrite Hw0 in FH. rewrite FH in Fh.
  pose proof CU as [Hh Htag Hpad Hty HS HL HB Hsz Hws Hd Hwv].
  pose proof (type_size_range _ _ Hty) as Hes. pose proof (type_range _ _ Hty) as Htr.
  assert (HSL : hm_samples m <= hm_samples m * hm_lines m) by nia.
  assert (HLS : hm_lines m <= hm_samples m * hm_lines m) by nia.
  assert (HSLB : hm_samples m * hm_lines m <= hm_samples m * hm_lines m * hm_bands m) by nia.
  assert (HBB : hm_samples m * hm_lines m * hm_bands m <= hm_samples m * hm_lines m * hm_bands m * es) by nia.
  set (k0 := List.length (objs s2)).
  set (s1 := with_block e2 s2 3 (e_junk e2 k0)).
  assert (I1 : isb s1 k0 3 (e_junk e2 k0)) by apply wb_isb.
  set (T := header_text (hm_samples m) (hm_lines m) (hm_bands m) (hm_type m) (tag_of l) ++ unknown_line) in *.
  destruct (saved_lines strtod e2 s1 k0 3 (e_junk e2 k0) (hm_samples m) (hm_lines m) (hm_bands m) (hm_type m) l [Unrelated] [unknown_line]
    ltac:(lia) ltac:(lia) ltac:(lia) Htr ltac:(repeat constructor; apply unknown_states) ltac:(constructor; [apply plain_dec; [reflexivity|len]|constructor])
    ltac:(repeat constructor) I1 ltac:(lia) (S (List.length T)) []) as (n & h & EL & hS & hL & hB & hT & _ & hW & _).
  { cbn [List.length]. unfold T. rewrite app_length. pose proof (lines1_long (hm_samples m) (hm_lines m) (hm_bands m) (hm_type m) (tag_of l)).
    change (List.length unknown_line) with 22%nat. lia. }
  cbn [List.concat] in EL. rewrite !app_nil_r in EL. fold T in EL. rewrite whileF_stop in EL.
  unfold s1 in EL at 2. unfold k0 in EL at 3. rewrite wb_put in EL. fold k0 in EL.
  apply (with_hdr_run strtod e2 s2 s p m l es q sz d path (path ++ chars ".hdr") T h (with_block e2 s2 3 (tag_put (e_junk e2 k0) (tag_of l))) (e_addr e2 k0) (tag_put (e_junk e2 k0) (tag_of l))); auto.
  - fold k0. fold s1. rewrite readhdr_eq. runs EL. reflexivity.
  - apply wb_heap; auto; lia.
  - apply wb_old.
  - unfold with_block; cbn [objs]. rewrite (nth_error_app_new0 (objs s2)). reflexivity.
  - apply tag_put_at.
Qed.
