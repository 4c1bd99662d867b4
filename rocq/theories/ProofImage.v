(** * Proofs for the interleave conversions and convert2*. *)
From Verif Require Import Base Logic ModelCore ModelImage SpecBase SpecImage ProofCore ProofLayout ProofHM.
From Coq Require Import String ZifyBool ZifyNat.
Ltac Zify.zify_post_hook ::= Z.div_mod_to_equations.
Open Scope Z_scope.

(** A loop program (source data, destination data) that fills the whole output
    of a conversion. *)
Definition fills (e : env) (S L B es : Z) (lin lout : layout) (loops : ptr -> ptr -> M unit) : Prop :=
  forall s0 src dst nsrc ndst fs fd,
    isb s0 src nsrc fs -> isb s0 dst ndst fd -> src <> dst ->
    S * L * B * es <= nsrc -> S * L * B * es <= ndst ->
    exists P, wr e s0 dst (loops (Some src) (Some dst)) P (conv_spec fs S L B es lin lout)
      /\ forall i j k t, 0 <= i < L -> 0 <= j < S -> 0 <= k < B -> 0 <= t < es ->
           P (offset lout S L B i j k * es + t).

Definition conv_tail (m : hmat) (name : string) (loops : ptr -> ptr -> M unit) : M ptr :=
  x <- create_hyper_mat (hm_samples m) (hm_lines m) (hm_bands m) (hm_type m) (str name) ;;
  m' <- hget x ;;
  loops (hm_data m) (hm_data m') ;;;
  (if nonnull (hm_wave m) then memcpy (hm_wave m') 0 (hm_wave m) 0 (hm_bands m * 4)
   else ret tt) ;;;
  ret x.

Lemma str_name l : exists a b c r, str (layout_name l) = a :: b :: c :: r /\ [a; b; c] = tag_of l.
Proof. destruct l; do 4 eexists; split; reflexivity. Qed.

Lemma byte_at_app s l fs p i : p = None \/ (exists q n d, p = Some q /\ isb s q n d) ->
  byte_at (mkSt (objs s ++ l) fs) p i = byte_at s p i.
Proof.
  intros [-> | (q & n & d & -> & H)]; [reflexivity|].
  unfold byte_at. pose proof (isb_app_old _ _ _ _ l fs H) as H'. unfold isb in *.
  rewrite H, H'. reflexivity.
Qed.

Lemma conv_tail_run e s p m lin lout es loops :
  env_ok e -> heap_ok s -> cube s p m lin es ->
  fills e (hm_samples m) (hm_lines m) (hm_bands m) es lin lout loops ->
  exists dd dw,
    conv_tail m (layout_name lout) loops e s =
      Ret (Some (List.length (objs s)))
          (newhm e s (hm_samples m) (hm_lines m) (hm_bands m) (hm_type m) es (tag_of lout) dd dw)
    /\ (forall i j k t, in_cube m i j k -> 0 <= t < es ->
          Some (dd (offset lout (hm_samples m) (hm_lines m) (hm_bands m) i j k * es + t) mod 256)
          = sample_byte s m lin es i j k t)
    /\ (forall b, 0 <= b < hm_bands m * 4 ->
          Some (dw b mod 256) =
          match hm_wave m with None => Some 0 | Some _ => byte_at s (hm_wave m) b end).
Proof.
  intros He Hs [Hh Ht Hp Hty HS HL HB Hsz Hws Hd Hw] HF.
  set (S := hm_samples m) in *. set (L := hm_lines m) in *. set (B := hm_bands m) in *.
  set (ty := hm_type m) in *. set (k := List.length (objs s)).
  destruct (str_name lout) as (a & b & c & r & Es & Et).
  destruct (create_hm0 e s S L B ty es a b c r) as (d0 & w0 & E & Z1 & Z2); auto.
  rewrite Et in E. unfold conv_tail. fold S L B ty. rewrite Es. runs E. fold k.
  set (s1 := newhm e s S L B ty es (tag_of lout) d0 w0).
  pose proof (newhm_hdr e s S L B ty es (tag_of lout) d0 w0) as H1. fold s1 k in H1.
  runs (hget_ok _ _ e _ H1). cbn [newhdr hm_data hm_wave]. fold k.
  apply readable_isb in Hd as (q & sz & d & Eq & Hq & Hn).
  rewrite Eq.
  pose proof (newhm_data e s S L B ty es (tag_of lout) d0 w0) as H2. fold s1 k in H2.
  pose proof (newhm_wave e s S L B ty es (tag_of lout) d0 w0) as H3. fold s1 k in H3.
  assert (Hq1 : isb s1 q sz d) by (apply newhm_old; auto).
  assert (Hqk : q <> (k + 1)%nat) by (eapply isb_old_ne; eauto).
  destruct (HF s1 q (k + 1)%nat sz (S * L * B * es) d d0 Hq1 H2 Hqk Hn ltac:(lia)) as (P & W & Cov).
  destruct (wr_run _ _ _ _ _ _ _ _ H2 W) as (dd & E1 & A & _).
  runs E1. unfold s1, k at 1. rewrite newhm_putd1. fold k.
  set (s2 := newhm e s S L B ty es (tag_of lout) dd w0).
  pose proof (newhm_wave e s S L B ty es (tag_of lout) dd w0) as H4. fold s2 k in H4.
  assert (Hwv : exists dw,
    (if nonnull (hm_wave m) then memcpy (Some (k + 2)%nat) 0 (hm_wave m) 0 (B * 4) else ret tt) e s2
    = Ret tt (newhm e s S L B ty es (tag_of lout) dd dw)
    /\ (forall b, 0 <= b < B * 4 -> Some (dw b mod 256) =
          match hm_wave m with None => Some 0 | Some _ => byte_at s (hm_wave m) b end)).
  { destruct Hw as [-> | Hr].
    - exists w0. split; [reflexivity|]. intros b0 Hb. now rewrite Z2.
    - apply readable_isb in Hr as (qw & szw & wv & -> & Hqw & Hnw). cbn [nonnull]. eexists. split.
      { rewrite (memcpy_ok e s2 (k + 2) (B * 4) w0 qw szw wv); auto; try lia.
        - unfold s2, k at 1. rewrite newhm_putd2. reflexivity.
        - apply newhm_old; auto.
        - eapply isb_old_ne; eauto. }
      intros b0 Hb. cbv beta. replace ((0 <=? b0) && (b0 <? 0 + B * 4)) with true by lia.
      rewrite (byte_at_isb s qw szw wv b0) by (auto; lia). do 3 f_equal. lia. }
  destruct Hwv as (dw & E2 & Aw). runs E2.
  exists dd, dw. split; [reflexivity|]. split; auto.
  intros i j k' t (Hi & Hj & Hk) Hte.
  rewrite A by (apply Cov; auto). rewrite conv_spec_at by auto.
  unfold sample_byte. fold S L B. rewrite Eq.
  pose proof (offset_range lin S L B i j k' Hi Hj Hk) as O.
  pose proof (byte_range _ _ es t O Hte) as O'.
  rewrite (byte_at_isb s q sz d) by (auto; lia). reflexivity.
Qed.

Lemma conv_post e s p m lin lout es dd dw :
  env_ok e -> heap_ok s -> cube s p m lin es ->
  (forall i j k t, in_cube m i j k -> 0 <= t < es ->
     Some (dd (offset lout (hm_samples m) (hm_lines m) (hm_bands m) i j k * es + t) mod 256)
     = sample_byte s m lin es i j k t) ->
  (forall b, 0 <= b < hm_bands m * 4 ->
     Some (dw b mod 256) =
     match hm_wave m with None => Some 0 | Some _ => byte_at s (hm_wave m) b end) ->
  converted_to s m lin es
    (newhm e s (hm_samples m) (hm_lines m) (hm_bands m) (hm_type m) es (tag_of lout) dd dw)
    (Some (List.length (objs s))) lout.
Proof.
  intros He Hs [Hh Ht Hp Hty HS HL HB Hsz Hws Hd Hw] A Aw.
  set (S := hm_samples m) in *. set (L := hm_lines m) in *. set (B := hm_bands m) in *.
  set (ty := hm_type m) in *. set (k := List.length (objs s)).
  exists (newhdr e s S L B ty (tag_of lout)).
  pose proof (newhm_data e s S L B ty es (tag_of lout) dd dw) as H2. fold k in H2.
  pose proof (newhm_wave e s S L B ty es (tag_of lout) dd dw) as H3. fold k in H3.
  split.
  { constructor; cbn [newhdr hm_samples hm_lines hm_bands hm_type hm_il hm_data hm_wave]; auto.
    - apply newhm_hdr.
    - apply newhm_pad; auto.
    - eapply isb_readable; eauto. lia.
    - right. eapply isb_readable; eauto. lia. }
  cbn [newhdr hm_samples hm_lines hm_bands hm_type hm_il hm_data hm_wave]. fold k.
  split; [exists k; auto|]. split; [exists (k + 1)%nat; split; auto; lia|].
  split; [exists (k + 2)%nat; split; auto; lia|].
  do 4 (split; [reflexivity|]).
  split; [|split; [|split; [|split; [reflexivity|]]]].
  - intros i j k' t (Hi & Hj & Hk) Hte. rewrite <- A by (repeat split; auto; lia).
    unfold sample_byte; cbn [newhdr hm_samples hm_lines hm_bands hm_data]. fold k.
    pose proof (offset_range lout S L B i j k' Hi Hj Hk) as O.
    pose proof (byte_range _ _ es t O Hte) as O'.
    rewrite (byte_at_isb _ _ _ _ _ H2) by lia. reflexivity.
  - intros b Hb. rewrite <- Aw by auto. now rewrite (byte_at_isb _ _ _ _ _ H3).
  - apply newhm_old_unchanged.
  - apply newhm_heap_ok; auto.
Qed.

(** ** The six loop nests *)

Section Fills.
  Variables (e : env) (S L B es : Z).
  Hypotheses (HS : 0 < S) (HL : 0 < L) (HB : 0 < B) (Hes : 1 <= es)
             (Hsz : S * L * B * es <= 2147483647).

  Ltac idx i j k :=
    first [ apply (ev_bil S L B es i j k) | apply (ev_bsq S L B es i j k)
          | apply (ev_bip S L B es i j k) ]; assumption.
  Ltac body lin lout i j k :=
    cbv beta;
    eapply wr_bind; [apply rdv_ev; idx i j k|];
    eapply wr_bind; [apply rdv_ev; idx i j k|];
    eapply elem_wr; eassumption.

  Ltac cover := intros i j k t Hi Hj Hk Ht; cbv beta;
    first [ exists k; split; [auto|]; exists i; split; [auto|]; exists j; split; [auto|]; exists t; split; [auto|]; reflexivity
          | exists i; split; [auto|]; exists j; split; [auto|]; exists k; split; [auto|]; exists t; split; [auto|]; reflexivity
          | exists i; split; [auto|]; exists k; split; [auto|]; exists j; split; [auto|]; exists t; split; [auto|]; reflexivity ].

  Lemma fills_bil2bsq : fills e S L B es BIL BSQ (fun a b =>
    for_ 0 B (fun k => for_ 0 L (fun i => for_ 0 S (fun j =>
        x1 <- ev ((i * S * B + k * S + j) * es)%C ;;
        x2 <- ev ((k * S * L + i * S + j) * es)%C ;;
        for_ 0 es (fun t => x <- load8 a (u32 (u32 x1 + t)) ;; store8 b (u32 (u32 x2 + t)) x))))).
  Proof.
    intros s0 src dst nsrc ndst fs fd Hs Hd Hne N1 N2. eexists. split.
    { eapply wr_for. intros k Hk. eapply wr_for. intros i Hi. eapply wr_for. intros j Hj. body BIL BSQ i j k. }
    cover.
  Qed.

  Lemma fills_bil2bip : fills e S L B es BIL BIP (fun a b =>
    for_ 0 L (fun i => for_ 0 S (fun j => for_ 0 B (fun k =>
        x1 <- ev ((i * S * B + k * S + j) * es)%C ;;
        x2 <- ev ((i * S * B + j * B + k) * es)%C ;;
        for_ 0 es (fun t => x <- load8 a (u32 (u32 x1 + t)) ;; store8 b (u32 (u32 x2 + t)) x))))).
  Proof.
    intros s0 src dst nsrc ndst fs fd Hs Hd Hne N1 N2. eexists. split.
    { eapply wr_for. intros i Hi. eapply wr_for. intros j Hj. eapply wr_for. intros k Hk. body BIL BIP i j k. }
    cover.
  Qed.

  Lemma fills_bsq2bil : fills e S L B es BSQ BIL (fun a b =>
    for_ 0 L (fun i => for_ 0 B (fun k => for_ 0 S (fun j =>
        x1 <- ev ((k * S * L + i * S + j) * es)%C ;;
        x2 <- ev ((i * S * B + k * S + j) * es)%C ;;
        for_ 0 es (fun t => x <- load8 a (u32 (u32 x1 + t)) ;; store8 b (u32 (u32 x2 + t)) x))))).
  Proof.
    intros s0 src dst nsrc ndst fs fd Hs Hd Hne N1 N2. eexists. split.
    { eapply wr_for. intros i Hi. eapply wr_for. intros k Hk. eapply wr_for. intros j Hj. body BSQ BIL i j k. }
    cover.
  Qed.

  Lemma fills_bsq2bip : fills e S L B es BSQ BIP (fun a b =>
    for_ 0 L (fun i => for_ 0 S (fun j => for_ 0 B (fun k =>
        x1 <- ev ((k * S * L + i * S + j) * es)%C ;;
        x2 <- ev ((i * S * B + j * B + k) * es)%C ;;
        for_ 0 es (fun t => x <- load8 a (u32 (u32 x1 + t)) ;; store8 b (u32 (u32 x2 + t)) x))))).
  Proof.
    intros s0 src dst nsrc ndst fs fd Hs Hd Hne N1 N2. eexists. split.
    { eapply wr_for. intros i Hi. eapply wr_for. intros j Hj. eapply wr_for. intros k Hk. body BSQ BIP i j k. }
    cover.
  Qed.

  Lemma fills_bip2bsq : fills e S L B es BIP BSQ (fun a b =>
    for_ 0 L (fun i => for_ 0 S (fun j => for_ 0 B (fun k =>
        x1 <- ev ((k * S * L + i * S + j) * es)%C ;;
        x2 <- ev ((i * S * B + j * B + k) * es)%C ;;
        for_ 0 es (fun t => x <- load8 a (u32 (u32 x2 + t)) ;; store8 b (u32 (u32 x1 + t)) x))))).
  Proof.
    intros s0 src dst nsrc ndst fs fd Hs Hd Hne N1 N2. eexists. split.
    { eapply wr_for. intros i Hi. eapply wr_for. intros j Hj. eapply wr_for. intros k Hk. body BIP BSQ i j k. }
    cover.
  Qed.

  Lemma fills_bip2bil : fills e S L B es BIP BIL (fun a b =>
    for_ 0 L (fun i => for_ 0 S (fun j => for_ 0 B (fun k =>
        x1 <- ev ((i * S * B + k * S + j) * es)%C ;;
        x2 <- ev ((i * S * B + j * B + k) * es)%C ;;
        for_ 0 es (fun t => x <- load8 a (u32 (u32 x2 + t)) ;; store8 b (u32 (u32 x1 + t)) x))))).
  Proof.
    intros s0 src dst nsrc ndst fs fd Hs Hd Hne N1 N2. eexists. split.
    { eapply wr_for. intros i Hi. eapply wr_for. intros j Hj. eapply wr_for. intros k Hk. body BIP BIL i j k. }
    cover.
  Qed.

End Fills.

(** ** The conversion functions *)

Ltac conv_tac FL lout :=
  let He := fresh in let Hs := fresh in let C := fresh in
  intros He Hs C; pose proof C as [Hh Ht Hp Hty HS HL HB Hsz Hws Hd Hw];
  destruct (hm_nonnull _ _ _ Hh) as [pk ->];
  match goal with |- context [?f (Some pk) ?e ?s = _] =>
  unfold f;
  rewrite bind_assert by reflexivity;
  runs (hget_ok _ _ e _ Hh);
  first [ runs (il_cmp_bsq _ _ e s Ht Hp) | runs (il_cmp_bil _ _ e s Ht Hp) | runs (il_cmp_bip _ _ e s Ht Hp) ];
  cbn [Z.eqb];
  first [ runs (il_cmp_bsq _ _ e s Ht Hp) | runs (il_cmp_bil _ _ e s Ht Hp) | runs (il_cmp_bip _ _ e s Ht Hp) ];
  rewrite bind_assert by reflexivity;
  rewrite (type_size_elemsize _ _ Hty);
  let E1 := fresh in
  match type of Hty with _ = Some ?es =>
  assert (E1 : 1 <= es) by (pose proof (type_size_range _ _ Hty); lia);
  exact (conv_tail_run e s (Some pk) _ _ lout _ _ He Hs C
           (FL e _ _ _ _ HS HL HB E1 Hsz)) end
  end.

Lemma bil2bsq_run e s p m es : env_ok e -> heap_ok s -> cube s p m BIL es ->
  exists dd dw,
    bil2bsq p e s =
      Ret (Some (List.length (objs s)))
          (newhm e s (hm_samples m) (hm_lines m) (hm_bands m) (hm_type m) es (tag_of BSQ) dd dw)
    /\ (forall i j k t, in_cube m i j k -> 0 <= t < es ->
          Some (dd (offset BSQ (hm_samples m) (hm_lines m) (hm_bands m) i j k * es + t) mod 256)
          = sample_byte s m BIL es i j k t)
    /\ (forall b, 0 <= b < hm_bands m * 4 ->
          Some (dw b mod 256) =
          match hm_wave m with None => Some 0 | Some _ => byte_at s (hm_wave m) b end).
Proof. conv_tac fills_bil2bsq BSQ. Qed.

Lemma bil2bip_run e s p m es : env_ok e -> heap_ok s -> cube s p m BIL es ->
  exists dd dw,
    bil2bip p e s =
      Ret (Some (List.length (objs s)))
          (newhm e s (hm_samples m) (hm_lines m) (hm_bands m) (hm_type m) es (tag_of BIP) dd dw)
    /\ (forall i j k t, in_cube m i j k -> 0 <= t < es ->
          Some (dd (offset BIP (hm_samples m) (hm_lines m) (hm_bands m) i j k * es + t) mod 256)
          = sample_byte s m BIL es i j k t)
    /\ (forall b, 0 <= b < hm_bands m * 4 ->
          Some (dw b mod 256) =
          match hm_wave m with None => Some 0 | Some _ => byte_at s (hm_wave m) b end).
Proof. conv_tac fills_bil2bip BIP. Qed.

Lemma bsq2bil_run e s p m es : env_ok e -> heap_ok s -> cube s p m BSQ es ->
  exists dd dw,
    bsq2bil p e s =
      Ret (Some (List.length (objs s)))
          (newhm e s (hm_samples m) (hm_lines m) (hm_bands m) (hm_type m) es (tag_of BIL) dd dw)
    /\ (forall i j k t, in_cube m i j k -> 0 <= t < es ->
          Some (dd (offset BIL (hm_samples m) (hm_lines m) (hm_bands m) i j k * es + t) mod 256)
          = sample_byte s m BSQ es i j k t)
    /\ (forall b, 0 <= b < hm_bands m * 4 ->
          Some (dw b mod 256) =
          match hm_wave m with None => Some 0 | Some _ => byte_at s (hm_wave m) b end).
Proof. conv_tac fills_bsq2bil BIL. Qed.

Lemma bsq2bip_run e s p m es : env_ok e -> heap_ok s -> cube s p m BSQ es ->
  exists dd dw,
    bsq2bip p e s =
      Ret (Some (List.length (objs s)))
          (newhm e s (hm_samples m) (hm_lines m) (hm_bands m) (hm_type m) es (tag_of BIP) dd dw)
    /\ (forall i j k t, in_cube m i j k -> 0 <= t < es ->
          Some (dd (offset BIP (hm_samples m) (hm_lines m) (hm_bands m) i j k * es + t) mod 256)
          = sample_byte s m BSQ es i j k t)
    /\ (forall b, 0 <= b < hm_bands m * 4 ->
          Some (dw b mod 256) =
          match hm_wave m with None => Some 0 | Some _ => byte_at s (hm_wave m) b end).
Proof. conv_tac fills_bsq2bip BIP. Qed.

Lemma bip2bsq_run e s p m es : env_ok e -> heap_ok s -> cube s p m BIP es ->
  exists dd dw,
    bip2bsq p e s =
      Ret (Some (List.length (objs s)))
          (newhm e s (hm_samples m) (hm_lines m) (hm_bands m) (hm_type m) es (tag_of BSQ) dd dw)
    /\ (forall i j k t, in_cube m i j k -> 0 <= t < es ->
          Some (dd (offset BSQ (hm_samples m) (hm_lines m) (hm_bands m) i j k * es + t) mod 256)
          = sample_byte s m BIP es i j k t)
    /\ (forall b, 0 <= b < hm_bands m * 4 ->
          Some (dw b mod 256) =
          match hm_wave m with None => Some 0 | Some _ => byte_at s (hm_wave m) b end).
Proof. conv_tac fills_bip2bsq BSQ. Qed.

Lemma bip2bil_run e s p m es : env_ok e -> heap_ok s -> cube s p m BIP es ->
  exists dd dw,
    bip2bil p e s =
      Ret (Some (List.length (objs s)))
          (newhm e s (hm_samples m) (hm_lines m) (hm_bands m) (hm_type m) es (tag_of BIL) dd dw)
    /\ (forall i j k t, in_cube m i j k -> 0 <= t < es ->
          Some (dd (offset BIL (hm_samples m) (hm_lines m) (hm_bands m) i j k * es + t) mod 256)
          = sample_byte s m BIP es i j k t)
    /\ (forall b, 0 <= b < hm_bands m * 4 ->
          Some (dw b mod 256) =
          match hm_wave m with None => Some 0 | Some _ => byte_at s (hm_wave m) b end).
Proof. conv_tac fills_bip2bil BIL. Qed.

