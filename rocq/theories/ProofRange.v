(** * Proofs: sub-cube extraction. *)
From Verif Require Import Base Logic ModelCore ModelImage SpecBase SpecImage ProofCore ProofLayout ProofHM ProofImage ProofCopy ProofImage2.
From Coq Require Import String ZifyBool ZifyNat.
Ltac Zify.zify_post_hook ::= Z.div_mod_to_equations.
Open Scope Z_scope.

Lemma range_small S L B r0 c0 b0 r1 c1 b1 :
  0 <= r0 < r1 -> r1 <= L -> 0 <= c0 < c1 -> c1 <= S -> 0 <= b0 < b1 -> b1 <= B ->
  (c1 - c0) * (r1 - r0) * (b1 - b0) <= S * L * B.
Proof.
  intros. assert (0 < c1 - c0 <= S) by lia. assert (0 < r1 - r0 <= L) by lia.
  assert (0 < b1 - b0 <= B) by lia.
  assert ((c1 - c0) * (r1 - r0) <= S * L) by nia. assert (0 < (c1 - c0) * (r1 - r0)) by nia. nia.
Qed.

Section DstIdx.
  Variables (S L B es : Z) (l : layout) (r0 c0 b0 r1 c1 b1 : Z).
  Hypotheses (HS : 0 < S) (HL : 0 < L) (HB : 0 < B) (Hes : 1 <= es)
             (Hsz : S * L * B * es <= 2147483647).
  Hypotheses (Hr : 0 <= r0 < r1) (Hr1 : r1 <= L) (Hc : 0 <= c0 < c1) (Hc1 : c1 <= S)
             (Hb : 0 <= b0 < b1) (Hb1 : b1 <= B).
  Let S' := c1 - c0.
  Let L' := r1 - r0.
  Let B' := b1 - b0.

  (** a*X*Y + z*D + v - c0: all intermediates are bounded by the source offset. *)
  Lemma ev_dst A X Y Z1 D C0 V : 0 <= A -> 0 < X -> 0 < Y -> 0 <= Z1 -> 0 < D -> 0 <= C0 <= V ->
    (A * X * Y + Z1 * D + V) * es <= 2147483647 ->
    ((A * X * Y + Z1 * D + V - C0) * es)%C = Some ((A * X * Y + Z1 * D + (V - C0)) * es).
  Proof.
    intros. assert (0 <= A * X) by nia. assert (A * X <= A * X * Y) by nia.
    assert (0 <= Z1 * D) by nia.
    assert (A * X * Y + Z1 * D + V <= 2147483647) by nia.
    assert (0 <= (A * X * Y + Z1 * D + V - C0) * es <= 2147483647) by nia.
    unfold ci. rewrite (cmul_ok A X) by lia. rewrite (cmul_ok (A * X) Y) by lia.
    rewrite (cmul_ok Z1 D) by lia. rewrite (cadd_ok (A * X * Y)) by lia. rewrite cadd_ok by lia.
    rewrite csub_ok by lia.
    rewrite cmul_ok by lia. f_equal. ring.
  Qed.

  Lemma mono2 a b c d : 0 <= a <= c -> 0 <= b <= d -> a * b <= c * d.
  Proof. intros. nia. Qed.

  Lemma src_bound i j k : 0 <= i < L -> 0 <= j < S -> 0 <= k < B ->
    offset l S L B i j k * es <= 2147483647.
  Proof. intros. pose proof (offset_range l S L B i j k). nia. Qed.

  Lemma ev_dst' i j k c : r0 <= i < r1 -> c0 <= j < c1 -> b0 <= k < b1 ->
    match l with
    | BIL => c = (((i - r0) * S' * B' + (k - b0) * S' + j - c0) * es)%C
    | BIP => c = (((i - r0) * S' * B' + (j - c0) * B' + k - b0) * es)%C
    | BSQ => c = (((k - b0) * S' * L' + (i - r0) * S' + j - c0) * es)%C
    end -> c = Some (offset l S' L' B' (i - r0) (j - c0) (k - b0) * es).
  Proof.
    intros Hi Hj Hk. pose proof (src_bound i j k ltac:(lia) ltac:(lia) ltac:(lia)) as SB.
    assert (T : S <= 2147483647 /\ L <= 2147483647 /\ B <= 2147483647).
    { assert (0 < S * L) by nia. assert (S <= S * L) by nia. assert (L <= S * L) by nia.
      assert (S * L <= S * L * B) by nia. assert (B <= S * L * B) by nia.
      assert (S * L * B <= S * L * B * es) by nia. lia. }
    destruct l; cbn [offset] in *; intros ->.
    - change ((k - b0)%C) with (csub (Some k) (Some b0)). change ((i - r0)%C) with (csub (Some i) (Some r0)).
      rewrite !csub_ok by lia.
      change (Some (k - b0)) with (ci (k - b0)). change (Some (i - r0)) with (ci (i - r0)).
      rewrite ev_dst; try lia; [f_equal; ring|].
      assert ((k - b0) * S' <= k * S) by (apply mono2; lia).
      assert ((k - b0) * S' * L' <= k * S * L) by (apply mono2; nia).
      assert ((i - r0) * S' <= i * S) by (apply mono2; lia). nia.
    - change ((k - b0)%C) with (csub (Some k) (Some b0)). change ((i - r0)%C) with (csub (Some i) (Some r0)).
      rewrite !csub_ok by lia.
      change (Some (k - b0)) with (ci (k - b0)). change (Some (i - r0)) with (ci (i - r0)).
      rewrite ev_dst; try lia; [f_equal; ring|].
      assert ((i - r0) * S' <= i * S) by (apply mono2; lia).
      assert ((i - r0) * S' * B' <= i * S * B) by (apply mono2; nia).
      assert ((k - b0) * S' <= k * S) by (apply mono2; lia). nia.
    - change ((j - c0)%C) with (csub (Some j) (Some c0)). change ((i - r0)%C) with (csub (Some i) (Some r0)).
      rewrite !csub_ok by lia.
      change (Some (j - c0)) with (ci (j - c0)). change (Some (i - r0)) with (ci (i - r0)).
      rewrite ev_dst; try lia; [f_equal; ring|].
      assert ((i - r0) * S' <= i * S) by (apply mono2; lia).
      assert ((i - r0) * S' * B' <= i * S * B) by (apply mono2; nia).
      assert ((j - c0) * B' <= j * B) by (apply mono2; lia). nia.
  Qed.

End DstIdx.

Section Range.
  Variables (e : env) (s0 : st) (src dst : nat) (nsrc ndst : Z) (fs fd : Z -> Z).
  Variables (S L B es : Z) (l : layout) (r0 c0 b0 r1 c1 b1 : Z).
  Hypotheses (HS : 0 < S) (HL : 0 < L) (HB : 0 < B) (Hes : 1 <= es)
             (Hsz : S * L * B * es <= 2147483647).
  Hypotheses (Hr : 0 <= r0 < r1) (Hr1 : r1 <= L) (Hc : 0 <= c0 < c1) (Hc1 : c1 <= S)
             (Hb : 0 <= b0 < b1) (Hb1 : b1 <= B).
  Let S' := c1 - c0.
  Let L' := r1 - r0.
  Let B' := b1 - b0.
  Hypotheses (Hsrc : isb s0 src nsrc fs) (Hdst : isb s0 dst ndst fd) (Hne : src <> dst)
             (Hn1 : S * L * B * es <= nsrc) (Hn2 : S' * L' * B' * es <= ndst).

  Definition range_spec (x : Z) : Z :=
    match dec l S' L' B' (x / es) with
    | (i, j, k) => fs (offset l S L B (i + r0) (j + c0) (k + b0) * es + x mod es) mod 256
    end.

  Lemma range_elem_wr i j k : r0 <= i < r1 -> c0 <= j < c1 -> b0 <= k < b1 ->
    wr e s0 dst
      (for_ 0 es (fun t =>
         si <- ev (ci (offset l S L B i j k * es) + t)%C ;;
         di <- ev (ci (offset l S' L' B' (i - r0) (j - c0) (k - b0) * es) + t)%C ;;
         x <- load8 (Some src) si ;;
         store8 (Some dst) di x))
      (fun p => exists t, 0 <= t < es /\ p = offset l S' L' B' (i - r0) (j - c0) (k - b0) * es + t)
      range_spec.
  Proof.
    intros Hi Hj Hk. apply wr_for. intros t Ht.
    pose proof (offset_range l S L B i j k ltac:(lia) ltac:(lia) ltac:(lia)) as O1.
    pose proof (offset_range l S' L' B' (i - r0) (j - c0) (k - b0) ltac:(lia) ltac:(lia) ltac:(lia)) as O2.
    pose proof (byte_range _ _ es t O1 Ht) as B1.
    pose proof (byte_range _ _ es t O2 Ht) as B2.
    assert (RS : S' * L' * B' <= S * L * B) by (apply range_small; lia). assert (S' * L' * B' * es <= S * L * B * es) by nia.
    eapply wr_bind; [apply rdv_ev; apply cadd_ok; lia|].
    eapply wr_bind; [apply rdv_ev; apply cadd_ok; lia|].
    eapply wr_bind; [eapply rdv_load8; eauto; lia|].
    eapply wr_store8; [eauto|lia|].
    rewrite Z.mod_mod by lia. unfold range_spec.
    destruct (radix2 (offset l S' L' B' (i - r0) (j - c0) (k - b0)) t es Ht) as [-> ->].
    rewrite dec_offset by lia.
    replace (i - r0 + r0) with i by lia. replace (j - c0 + c0) with j by lia.
    replace (k - b0 + b0) with k by lia. reflexivity.
  Qed.

  Lemma range_spec_at i j k t : 0 <= i < L' -> 0 <= j < S' -> 0 <= k < B' -> 0 <= t < es ->
    range_spec (offset l S' L' B' i j k * es + t) =
    fs (offset l S L B (i + r0) (j + c0) (k + b0) * es + t) mod 256.
  Proof.
    intros Hi Hj Hk Ht. unfold range_spec.
    destruct (radix2 (offset l S' L' B' i j k) t es Ht) as [-> ->].
    rewrite dec_offset by auto. reflexivity.
  Qed.


  Definition covers (P : Z -> Prop) : Prop := forall i j k t,
    0 <= i < L' -> 0 <= j < S' -> 0 <= k < B' -> 0 <= t < es -> P (offset l S' L' B' i j k * es + t).
End Range.

Ltac cover_with a b c := cbv beta;
  exists a; split; [lia|]; exists b; split; [lia|]; exists c; split; [lia|].

Ltac range_cover r0 c0 b0 :=
  let i := fresh in let j := fresh in let k := fresh in let t := fresh in
  intros i j k t ? ? ? ?;
  first [ cover_with (i + r0) (k + b0) (j + c0) | cover_with (i + r0) (j + c0) (k + b0)
        | cover_with (k + b0) (i + r0) (j + c0) ];
  exists t; split; [lia|];
  replace (i + r0 - r0) with i by lia; replace (j + c0 - c0) with j by lia;
  replace (k + b0 - b0) with k by lia; reflexivity.

Section Loops.
  Variables (e : env) (s0 : st) (src dst : nat) (nsrc ndst : Z) (fs fd : Z -> Z).
  Variables (S L B es : Z) (r0 c0 b0 r1 c1 b1 : Z).
  Hypotheses (HS : 0 < S) (HL : 0 < L) (HB : 0 < B) (Hes : 1 <= es)
             (Hsz : S * L * B * es <= 2147483647).
  Hypotheses (Hr : 0 <= r0 < r1) (Hr1 : r1 <= L) (Hc : 0 <= c0 < c1) (Hc1 : c1 <= S)
             (Hb : 0 <= b0 < b1) (Hb1 : b1 <= B).
  Let S' := c1 - c0.
  Let L' := r1 - r0.
  Let B' := b1 - b0.
  Hypotheses (Hsrc : isb s0 src nsrc fs) (Hdst : isb s0 dst ndst fd) (Hne : src <> dst)
             (Hn1 : S * L * B * es <= nsrc) (Hn2 : S' * L' * B' * es <= ndst).

  Lemma range_bil : exists P,
    wr e s0 dst
      (for_ r0 r1 (fun i => for_ b0 b1 (fun k => for_ c0 c1 (fun j =>
         src_index <- ev ((i * S * B + k * S + j) * es)%C ;;
         dst_index <- ev (((i - r0) * S' * B' + (k - b0) * S' + j - c0) * es)%C ;;
         for_ 0 es (fun t =>
           si <- ev (src_index + t)%C ;;
           di <- ev (dst_index + t)%C ;;
           x <- load8 (Some src) si ;;
           store8 (Some dst) di x)))))
      P (range_spec fs S L B es BIL r0 c0 b0 r1 c1 b1)
    /\ covers es BIL r0 c0 b0 r1 c1 b1 P.
  Proof.
    eexists. split.
    { eapply wr_for. intros i Hi. eapply wr_for. intros k Hk. eapply wr_for. intros j Hj.
      cbv beta. eapply wr_bind; [apply rdv_ev; apply (ev_bil S L B es i j k); auto; lia|].
      eapply wr_bind; [apply rdv_ev; apply (ev_dst' S L B es BIL r0 c0 b0 r1 c1 b1) with (i := i) (j := j) (k := k); auto; reflexivity|].
      apply (range_elem_wr e s0 src dst nsrc ndst fs fd S L B es BIL r0 c0 b0 r1 c1 b1); auto. }
    range_cover r0 c0 b0.
  Qed.

  Lemma range_bip : exists P,
    wr e s0 dst
      (for_ r0 r1 (fun i => for_ c0 c1 (fun j => for_ b0 b1 (fun k =>
         src_index <- ev ((i * S * B + j * B + k) * es)%C ;;
         dst_index <- ev (((i - r0) * S' * B' + (j - c0) * B' + k - b0) * es)%C ;;
         for_ 0 es (fun t =>
           si <- ev (src_index + t)%C ;;
           di <- ev (dst_index + t)%C ;;
           x <- load8 (Some src) si ;;
           store8 (Some dst) di x)))))
      P (range_spec fs S L B es BIP r0 c0 b0 r1 c1 b1)
    /\ covers es BIP r0 c0 b0 r1 c1 b1 P.
  Proof.
    eexists. split.
    { eapply wr_for. intros i Hi. eapply wr_for. intros j Hj. eapply wr_for. intros k Hk.
      cbv beta. eapply wr_bind; [apply rdv_ev; apply (ev_bip S L B es i j k); auto; lia|].
      eapply wr_bind; [apply rdv_ev; apply (ev_dst' S L B es BIP r0 c0 b0 r1 c1 b1) with (i := i) (j := j) (k := k); auto; reflexivity|].
      apply (range_elem_wr e s0 src dst nsrc ndst fs fd S L B es BIP r0 c0 b0 r1 c1 b1); auto. }
    range_cover r0 c0 b0.
  Qed.

  Lemma range_bsq : exists P,
    wr e s0 dst
      (for_ b0 b1 (fun k => for_ r0 r1 (fun i => for_ c0 c1 (fun j =>
         src_index <- ev ((k * S * L + i * S + j) * es)%C ;;
         dst_index <- ev (((k - b0) * S' * L' + (i - r0) * S' + j - c0) * es)%C ;;
         for_ 0 es (fun t =>
           si <- ev (src_index + t)%C ;;
           di <- ev (dst_index + t)%C ;;
           x <- load8 (Some src) si ;;
           store8 (Some dst) di x)))))
      P (range_spec fs S L B es BSQ r0 c0 b0 r1 c1 b1)
    /\ covers es BSQ r0 c0 b0 r1 c1 b1 P.
  Proof.
    eexists. split.
    { eapply wr_for. intros k Hk. eapply wr_for. intros i Hi. eapply wr_for. intros j Hj.
      cbv beta. eapply wr_bind; [apply rdv_ev; apply (ev_bsq S L B es i j k); auto; lia|].
      eapply wr_bind; [apply rdv_ev; apply (ev_dst' S L B es BSQ r0 c0 b0 r1 c1 b1) with (i := i) (j := j) (k := k); auto; reflexivity|].
      apply (range_elem_wr e s0 src dst nsrc ndst fs fd S L B es BSQ r0 c0 b0 r1 c1 b1); auto. }
    range_cover r0 c0 b0.
  Qed.

End Loops.

Lemma get_range_run e s p m l es r0 c0 b0 r1 c1 b1 :
  env_ok e -> heap_ok s -> cube s p m l es ->
  0 <= r0 < r1 -> r1 <= hm_lines m -> 0 <= c0 < c1 -> c1 <= hm_samples m ->
  0 <= b0 < b1 -> b1 <= hm_bands m ->
  exists p' s', hyper_mat_get_range p r0 c0 b0 r1 c1 b1 e s = Ret p' s'
    /\ sub_cube s m l es r0 c0 b0 r1 c1 b1 s' p'.
Proof.
  intros He Hs [Hh Ht Hp Hty HS HL HB Hsz Hws Hd Hw] Hr Hr1 Hc Hc1 Hb Hb1.
  assert (Hes0 := type_size_range _ _ Hty). assert (Hes : 1 <= es) by lia.
  set (S := hm_samples m) in *. set (L := hm_lines m) in *. set (B := hm_bands m) in *.
  set (ty := hm_type m) in *. set (k := List.length (objs s)).
  assert (0 < S * L) by nia. assert (0 < S * L * B) by nia.
  assert (S <= S * L) by nia. assert (L <= S * L) by nia. assert (S * L <= S * L * B) by nia.
  assert (B <= S * L * B) by nia. assert (S * L * B <= S * L * B * es) by nia.
  assert (RS : (c1 - c0) * (r1 - r0) * (b1 - b0) <= S * L * B) by (apply range_small; lia).
  assert (RSe : (c1 - c0) * (r1 - r0) * (b1 - b0) * es <= 2147483647) by nia.
  unfold hyper_mat_get_range. rewrite bind_assert by lia.
  runs (ev_ok _ _ e s (csub_ok c1 c0 ltac:(lia))). runs (ev_ok _ _ e s (csub_ok r1 r0 ltac:(lia))).
  runs (ev_ok _ _ e s (csub_ok b1 b0 ltac:(lia))).
  runs (hget_ok _ _ e _ Hh). fold S L B ty.
  assert (Et : exists a b c, hm_il m = [a; b; c]) by (rewrite Ht; destruct l; do 3 eexists; reflexivity).
  destruct Et as (ta & tb & tc & Et).
  assert (Htag : [ta; tb; tc] = tag_of l) by congruence.
  destruct (create_hm0 e s (c1 - c0) (r1 - r0) (b1 - b0) ty es ta tb tc []) as (d0 & w0 & E & Z1 & Z2); auto; try lia.
  rewrite Htag in E. rewrite Ht. runs E. fold k.
  set (S' := c1 - c0) in *. set (L' := r1 - r0) in *. set (B' := b1 - b0) in *.
  set (s1 := newhm e s S' L' B' ty es (tag_of l) d0 w0).
  pose proof (newhm_hdr e s S' L' B' ty es (tag_of l) d0 w0) as Hn1. fold s1 k in Hn1.
  runs (hget_ok _ _ e _ Hn1). cbn [newhdr hm_data hm_wave]. fold k.
  rewrite (type_size_elemsize _ _ Hty).
  apply readable_isb in Hd as (q & sz & d & Eq & Hq & Hn). rewrite Eq.
  pose proof (newhm_data e s S' L' B' ty es (tag_of l) d0 w0) as Hn2. fold s1 k in Hn2.
  assert (Hq1 : isb s1 q sz d) by (apply newhm_old; auto).
  assert (Hqk : q <> (k + 1)%nat) by (eapply isb_old_ne; eauto).
  set (WT := ((if nonnull (hm_wave m) then n <- ev (b1 - b0)%C ;; memcpy (Some (k + 2)%nat) 0 (hm_wave m) (b0 * 4) (n * 4) else ret tt) ;;; ret (Some k))).
  assert (LP : exists dd, 
    (c0_ <- il_cmp m "bil" ;;
     (if negb (c0_ =? 0) then
        for_ r0 r1 (fun i => for_ b0 b1 (fun k0 => for_ c0 c1 (fun j =>
          src_index <- ev ((i * S * B + k0 * S + j) * es)%C ;;
          dst_index <- ev (((i - r0) * S' * B' + (k0 - b0) * S' + j - c0) * es)%C ;;
          for_ 0 es (fun t => si <- ev (src_index + t)%C ;; di <- ev (dst_index + t)%C ;;
             x <- load8 (Some q) si ;; store8 (Some (k + 1)%nat) di x))))
      else
        c2 <- il_cmp m "bip" ;;
        if negb (c2 =? 0) then
          for_ r0 r1 (fun i => for_ c0 c1 (fun j => for_ b0 b1 (fun k0 =>
            src_index <- ev ((i * S * B + j * B + k0) * es)%C ;;
            dst_index <- ev (((i - r0) * S' * B' + (j - c0) * B' + k0 - b0) * es)%C ;;
            for_ 0 es (fun t => si <- ev (src_index + t)%C ;; di <- ev (dst_index + t)%C ;;
               x <- load8 (Some q) si ;; store8 (Some (k + 1)%nat) di x))))
        else
          c3 <- il_cmp m "bsq" ;;
          if negb (c3 =? 0) then
            for_ b0 b1 (fun k0 => for_ r0 r1 (fun i => for_ c0 c1 (fun j =>
              src_index <- ev ((k0 * S * L + i * S + j) * es)%C ;;
              dst_index <- ev (((k0 - b0) * S' * L' + (i - r0) * S' + j - c0) * es)%C ;;
              for_ 0 es (fun t => si <- ev (src_index + t)%C ;; di <- ev (dst_index + t)%C ;;
                 x <- load8 (Some q) si ;; store8 (Some (k + 1)%nat) di x))))
          else ret tt) ;;; WT) e s1
    = WT e (newhm e s S' L' B' ty es (tag_of l) dd w0)
    /\ (forall i j b t, 0 <= i < L' -> 0 <= j < S' -> 0 <= b < B' -> 0 <= t < es ->
         dd (offset l S' L' B' i j b * es + t) mod 256 =
         d (offset l S L B (i + r0) (j + c0) (b + b0) * es + t) mod 256)).
  { assert (G : forall prog, (exists P, wr e s1 (k + 1) prog P (range_spec d S L B es l r0 c0 b0 r1 c1 b1)
        /\ covers es l r0 c0 b0 r1 c1 b1 P) ->
        exists dd, (prog ;;; WT) e s1 = WT e (newhm e s S' L' B' ty es (tag_of l) dd w0)
        /\ (forall i j b t, 0 <= i < L' -> 0 <= j < S' -> 0 <= b < B' -> 0 <= t < es ->
         dd (offset l S' L' B' i j b * es + t) mod 256 =
         d (offset l S L B (i + r0) (j + c0) (b + b0) * es + t) mod 256)).
    { intros prog (P & W & Cv). destruct (wr_run _ _ _ _ _ _ _ _ Hn2 W) as (dd & E1 & A & _).
      exists dd. split.
      - runs E1. unfold s1, k. rewrite newhm_putd1. reflexivity.
      - intros i j b t Hi Hj Hk Ht'. rewrite A by (apply Cv; auto). apply range_spec_at; auto. }
    destruct l.
    - runs (il_cmp_bil _ _ e s1 Ht Hp). cbn [Z.eqb negb]. rewrite bind_assoc.
      runs (il_cmp_bip _ _ e s1 Ht Hp). cbn [Z.eqb negb]. rewrite bind_assoc.
      runs (il_cmp_bsq _ _ e s1 Ht Hp). cbn [Z.eqb negb]. apply G.
      apply (range_bsq e s1 q (k + 1) sz (S' * L' * B' * es) d d0); auto; lia.
    - runs (il_cmp_bil _ _ e s1 Ht Hp). cbn [Z.eqb negb]. apply G.
      apply (range_bil e s1 q (k + 1) sz (S' * L' * B' * es) d d0); auto; lia.
    - runs (il_cmp_bil _ _ e s1 Ht Hp). cbn [Z.eqb negb]. rewrite bind_assoc.
      runs (il_cmp_bip _ _ e s1 Ht Hp). cbn [Z.eqb negb]. apply G.
      apply (range_bip e s1 q (k + 1) sz (S' * L' * B' * es) d d0); auto; lia. }
  destruct LP as (dd & E1 & A).
  enough (X : exists p' s', WT e (newhm e s S' L' B' ty es (tag_of l) dd w0) = Ret p' s'
              /\ sub_cube s m l es r0 c0 b0 r1 c1 b1 s' p')
    by (destruct X as (p' & s' & X1 & X2); exists p', s'; split; [exact (eq_trans E1 X1)|exact X2]).
  clear E1.
  set (s2 := newhm e s S' L' B' ty es (tag_of l) dd w0).
  pose proof (newhm_wave e s S' L' B' ty es (tag_of l) dd w0) as Hn4. fold s2 k in Hn4.
  assert (Hwv : exists dw,
    WT e s2 = Ret (Some k) (newhm e s S' L' B' ty es (tag_of l) dd dw)
    /\ (forall b, 0 <= b < B' * 4 -> Some (dw b mod 256) =
          match hm_wave m with None => Some 0 | Some _ => byte_at s (hm_wave m) (b0 * 4 + b) end)).
  { unfold WT. destruct Hw as [-> | Hr'].
    - exists w0. split; [reflexivity|]. intros b Hb'. now rewrite Z2.
    - apply readable_isb in Hr' as (qw & szw & wv & -> & Hqw & Hnw). cbn [nonnull]. eexists. split.
      { rewrite bind_assoc. runs (ev_ok _ _ e s2 (csub_ok b1 b0 ltac:(lia))). fold B'.
        erewrite bind_ret; [reflexivity|].
        rewrite (memcpy_ok e s2 (k + 2) (B' * 4) w0 qw szw wv); auto; try lia.
        - unfold s2, k at 1. rewrite newhm_putd2. reflexivity.
        - apply newhm_old; auto.
        - eapply isb_old_ne; eauto. }
      intros b Hb'. cbv beta. replace ((0 <=? b) && (b <? 0 + B' * 4)) with true by lia.
      rewrite (byte_at_isb s qw szw wv) by (auto; lia). do 3 f_equal. lia. }
  destruct Hwv as (dw & E2 & Aw). do 2 eexists. split; [exact E2|].
  pose proof (newhm_data e s S' L' B' ty es (tag_of l) dd dw) as Hn5. fold k in Hn5.
  pose proof (newhm_wave e s S' L' B' ty es (tag_of l) dd dw) as Hn6. fold k in Hn6.
  exists (newhdr e s S' L' B' ty (tag_of l)).
  split.
  { constructor; cbn [newhdr hm_samples hm_lines hm_bands hm_type hm_il hm_data hm_wave]; auto; try lia.
    - apply newhm_hdr.
    - apply newhm_pad; auto.
    - eapply isb_readable; eauto. lia.
    - right. eapply isb_readable; eauto. lia. }
  cbn [newhdr hm_samples hm_lines hm_bands hm_type hm_il hm_data hm_wave]. fold k.
  split; [exists k; auto|]. split; [exists (k + 1)%nat; split; auto; lia|].
  split; [exists (k + 2)%nat; split; auto; lia|].
  do 4 (split; [reflexivity|]).
  split; [|split; [|split; [|split; [reflexivity|]]]].
  - intros i j b t (Hi & Hj & Hk) Hte. cbn [newhdr hm_samples hm_lines hm_bands] in Hi, Hj, Hk.
    unfold sample_byte; cbn [newhdr hm_samples hm_lines hm_bands hm_data]. fold k S L B. rewrite Eq.
    pose proof (offset_range l S' L' B' i j b Hi Hj Hk) as O.
    pose proof (byte_range _ _ es t O Hte) as O'.
    pose proof (offset_range l S L B (i + r0) (j + c0) (b + b0) ltac:(lia) ltac:(lia) ltac:(lia)) as O2.
    pose proof (byte_range _ _ es t O2 Hte) as O2'.
    rewrite (byte_at_isb _ _ _ _ _ Hn5), (byte_at_isb _ _ _ _ _ Hq) by lia. f_equal. auto.
  - intros b Hb'. rewrite <- Aw by auto. now rewrite (byte_at_isb _ _ _ _ _ Hn6).
  - apply newhm_old_unchanged.
  - apply newhm_heap_ok; auto.
Qed.

(** Taking a box of a box is taking the composed box. *)
Lemma get_range_compose e s p m l es r0 c0 b0 r1 c1 b1 r0' c0' b0' r1' c1' b1' :
  env_ok e -> heap_ok s -> cube s p m l es ->
  0 <= r0 < r1 -> r1 <= hm_lines m -> 0 <= c0 < c1 -> c1 <= hm_samples m ->
  0 <= b0 < b1 -> b1 <= hm_bands m ->
  0 <= r0' < r1' -> r1' <= r1 - r0 -> 0 <= c0' < c1' -> c1' <= c1 - c0 ->
  0 <= b0' < b1' -> b1' <= b1 - b0 ->
  exists p1 s1 p2 s2,
    hyper_mat_get_range p r0 c0 b0 r1 c1 b1 e s = Ret p1 s1
    /\ hyper_mat_get_range p1 r0' c0' b0' r1' c1' b1' e s1 = Ret p2 s2
    /\ sub_cube s m l es (r0 + r0') (c0 + c0') (b0 + b0') (r0 + r1') (c0 + c1') (b0 + b1') s2 p2.
Proof.
  intros He Hs C Hr Hr1 Hc Hc1 Hb Hb1 Hr' Hr1' Hc' Hc1' Hb' Hb1'.
  destruct (get_range_run e s p m l es r0 c0 b0 r1 c1 b1) as (p1 & s1 & E1 & SC); auto.
  destruct SC as (m1 & C1 & F1 & F2 & F3 & ES & EL & EB & ET & PS & PW & PO & PF & PH).
  destruct (get_range_run e s1 p1 m1 l es r0' c0' b0' r1' c1' b1') as (p2 & s2 & E2 & SC2); auto; try lia.
  destruct SC2 as (m2 & C2 & G1 & G2 & G3 & ES2 & EL2 & EB2 & ET2 & PS2 & PW2 & PO2 & PF2 & PH2).
  exists p1, s1, p2, s2. split; auto. split; auto.
  pose proof (old_unchanged_length _ _ PO) as LL.
  exists m2. split; auto. split; [eapply fresh_trans; eauto|]. split; [eapply fresh_trans; eauto|].
  split; [eapply fresh_trans; eauto|]. split; [lia|]. split; [lia|]. split; [lia|]. split; [congruence|].
  split.
  { intros i j k t (Hi & Hj & Hk) Ht. rewrite PS2 by (auto; repeat split; lia).
    rewrite PS by (auto; repeat split; lia). f_equal; lia. }
  split.
  { intros b Hbb. rewrite PW2 by lia. destruct F3 as (kw & Ew & _).
    replace (match hm_wave m1 with Some _ => byte_at s1 (hm_wave m1) (b0' * 4 + b) | None => Some 0 end)
      with (byte_at s1 (hm_wave m1) (b0' * 4 + b)) by (now rewrite Ew).
    rewrite PW by lia. destruct (hm_wave m); auto. f_equal. lia. }
  split; [eapply old_unchanged_trans; eauto|]. split; [congruence|auto].
Qed.
