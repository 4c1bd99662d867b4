(** * Proofs: k-means. *)
From Verif Require Import Base Logic ModelCore ModelFloat ModelPixel ModelVector ModelCluster
  SpecBase SpecNum SpecStat SpecVector SpecCluster SpecCxx
  ProofFloat ProofFloat2 ProofCore ProofLayout ProofHM ProofCopy ProofWord ProofArr ProofSave2.
From Coq Require Import ZifyBool ZifyNat Floats.SpecFloat.
Ltac Zify.zify_post_hook ::= Z.div_mod_to_equations.
Open Scope Z_scope.

(** ** The first nearest centre *)

Fixpoint best (c : Z -> Z * Z) (i j b : Z) (n : nat) : Z * Z :=
  match n with
  | O => (0, b)
  | S m => let r := best c i j b m in
           let d := sqdist (c (Z.of_nat m)) i j in
           if d <? snd r then (Z.of_nat m, d) else r
  end.

Lemma best_nearest c i j b n : (0 < n)%nat -> (forall k, 0 <= k < Z.of_nat n -> sqdist (c k) i j < b) ->
  first_nearest (Z.of_nat n) c i j (fst (best c i j b n)) /\ snd (best c i j b n) = sqdist (c (fst (best c i j b n))) i j.
Proof.
  intros Hn Hb. induction n as [|n IH]; [lia|]. destruct n as [|n].
  { cbn [best snd]. replace (sqdist (c (Z.of_nat 0)) i j <? b) with true by (specialize (Hb 0 ltac:(lia)); change (Z.of_nat 0) with 0; lia).
    cbn [fst snd]. change (Z.of_nat 0) with 0. split; [|reflexivity]. split; [lia|]. split; [|intros; lia].
    intros k Hk. replace k with 0 by lia. lia. }
  specialize (IH ltac:(lia) ltac:(intros; apply Hb; lia)). destruct IH as ((R & LE & LT) & EQ).
  set (N := S n) in *. cbn [best]. set (r := best c i j b N) in *. set (d := sqdist (c (Z.of_nat N)) i j).
  destruct (Z.ltb_spec d (snd r)) as [H|H]; cbn [fst snd].
  - split; [|reflexivity]. split; [lia|]. split.
    + intros k Hk. destruct (Z.eq_dec k (Z.of_nat N)) as [->|]; [lia|]. specialize (LE k ltac:(lia)). fold d. lia.
    + intros k Hk. specialize (LE k ltac:(lia)). fold d. lia.
  - split; [|exact EQ]. split; [lia|]. split; [|exact LT].
    intros k Hk. destruct (Z.eq_dec k (Z.of_nat N)) as [->|]; [fold d; lia|]. apply LE. lia.
Qed.

Lemma distance_ok pow2 c i j : squares pow2 46340 -> Z.abs (fst c - j) <= 46340 -> Z.abs (snd c - i) <= 46340 ->
  sqdist c i j <= 2147483647 -> distance pow2 (fst c) (snd c) i j = Some (sqdist c i j).
Proof.
  intros Sq H1 H2 H3. unfold distance, sqdist in *. set (a := fst c - j) in *. set (b := snd c - i) in *.
  assert (0 <= a * a) by apply Z.square_nonneg. assert (0 <= b * b) by apply Z.square_nonneg.
  rewrite csub_ok by (fold a; lia). rewrite csub_ok by (fold b; lia). fold a b.
  pose proof (Sq a H1) as Sa. pose proof (Sq b H2) as Sb.
  assert (A : isint 53 1024 (db_add (pow2 (db_of_Z a)) (pow2 (db_of_Z b))) (a * a + b * b)).
  { apply add_int; try lia; [exact Sa|exact Sb]. }
  destruct A as [V N]. unfold int_of_sf. rewrite (db_trunc _ _ V N). rewrite Z.quot_mul by (apply Z.neq_sym, Z.lt_neq, sf_one_pos).
  apply chk_ok. lia.
Qed.

(** ** The three arrays *)

Definition flat (c : Z -> Z * Z) (t : Z) : Z := if Z.even t then fst (c (t / 2)) else snd (c (t / 2)).
Definition pupd (c : Z -> Z * Z) (k : Z) (v : Z * Z) : Z -> Z * Z := fun t => if t =? k then v else c t.

Lemma flat_x c k : flat c (2 * k) = fst (c k).
Proof. unfold flat. rewrite Z.even_mul. replace (2 * k / 2) with k by lia. reflexivity. Qed.
Lemma flat_y c k : flat c (2 * k + 1) = snd (c k).
Proof. unfold flat. rewrite Z.even_add, Z.even_mul. replace ((2 * k + 1) / 2) with k by lia. reflexivity. Qed.
Lemma flat_cases t : (exists k, t = 2 * k) \/ (exists k, t = 2 * k + 1).
Proof. destruct (Z.Even_or_Odd t) as [[k ->]|[k ->]]; eauto. Qed.
Lemma flat_updx c k x t : fupd (flat c) (2 * k) x t = flat (pupd c k (x, snd (c k))) t.
Proof.
  unfold fupd. destruct (flat_cases t) as [[u ->]|[u ->]]; rewrite ?flat_x, ?flat_y; unfold pupd;
    destruct (Z.eqb_spec u k) as [->|]; cbn [fst snd].
  - now rewrite Z.eqb_refl.
  - now replace (2 * u =? 2 * k) with false by lia.
  - now replace (2 * k + 1 =? 2 * k) with false by lia.
  - now replace (2 * u + 1 =? 2 * k) with false by lia.
Qed.
Lemma flat_updy c k y t : fupd (flat c) (2 * k + 1) y t = flat (pupd c k (fst (c k), y)) t.
Proof.
  unfold fupd. destruct (flat_cases t) as [[u ->]|[u ->]]; rewrite ?flat_x, ?flat_y; unfold pupd;
    destruct (Z.eqb_spec u k) as [->|]; cbn [fst snd].
  - now replace (2 * k =? 2 * k + 1) with false by lia.
  - now replace (2 * u =? 2 * k + 1) with false by lia.
  - now rewrite Z.eqb_refl.
  - now replace (2 * u + 1 =? 2 * k + 1) with false by lia.
Qed.

Definition small (z : Z) : Prop := 0 <= z <= 2147483647.

Lemma geti_ok e s q base n g i off : arr s q base 4 n g -> 0 <= i < n -> off = base + i * 4 -> small (g i) ->
  geti (Some q) off e s = Ret (g i) s.
Proof.
  intros A Hi -> Hg. unfold geti.
  rewrite (bind_ret _ _ _ _ _ _ (arr_load e s q base 4 n g i (base + i * 4) 4 A Hi eq_refl eq_refl)).
  unfold ret. f_equal. unfold sgn, small in *. change (2 ^ 32) with 4294967296. change (2 ^ (32 - 1)) with 2147483648.
  rewrite Z.mod_small by lia. replace (g i <? 2147483648) with true by lia. reflexivity.
Qed.

Section Mem.
  Variables (e : env) (q1 q2 q3 qd : nat) (K nd : Z) (dat : Z -> Z).
  Hypotheses (N12 : q1 <> q2) (N13 : q1 <> q3) (N23 : q2 <> q3) (Nd : qd <> q1 /\ qd <> q2 /\ qd <> q3).

  Definition mem (s : st) (c a : Z -> Z * Z) (n : Z -> Z) : Prop :=
    arr s q1 16 4 (2 * K) (flat c) /\ arr s q2 0 4 (2 * K) (flat a) /\ arr s q3 0 4 K n /\ isb s qd nd dat.

  (** Only the three arrays have changed. *)
  Definition fr (s s' : st) : Prop :=
    files s' = files s /\ List.length (objs s') = List.length (objs s)
    /\ (forall k o, nth_error (objs s) k = Some o -> exists o', nth_error (objs s') k = Some o' /\ o_root o' = o_root o /\ o_live o' = o_live o)
    /\ unchanged_except [Some q1; Some q2; Some q3] s s'
    /\ (forall p, ~ 16 <= p < 16 + 8 * K -> byte_at s' (Some q1) p = byte_at s (Some q1) p)
    /\ (heap_ok s -> heap_ok s').

  Lemma fr_refl s : fr s s.
  Proof. split; [auto|]. split; [auto|]. split; [eauto|]. split; [intros k _ _; auto|]. auto. Qed.
  Lemma fr_trans s s1 s2 : fr s s1 -> fr s1 s2 -> fr s s2.
  Proof.
    intros (A1 & A2 & A3 & A4 & A5 & A6) (B1 & B2 & B3 & B4 & B5 & B6).
    split; [congruence|]. split; [congruence|]. split; [|split; [|split; [|auto]]].
    - intros k o Ho. destruct (A3 k o Ho) as (o1 & H1 & R1 & L1). destruct (B3 k o1 H1) as (o2 & H2 & R2 & L2).
      exists o2. split; auto. split; congruence.
    - intros k Hk Hn. rewrite B4, A4; auto. rewrite A2. exact Hk.
    - intros p Hp. rewrite B5, A5; auto.
  Qed.
  Lemma inside_fr s q lo hi s' : inside s q lo hi s' -> (q = q1 /\ 16 <= lo /\ hi <= 16 + 8 * K) \/ q = q2 \/ q = q3 -> fr s s'.
  Proof.
    intros H Hq. pose proof (inside_only _ _ _ _ _ H) as (A1 & A2 & A3 & A4 & A5).
    split; [auto|]. split; [auto|]. split; [|split; [|split]].
    - intros k o Ho. destruct H as (N & d & d' & I & -> & B). unfold putd; cbn [objs].
      destruct (Nat.eq_dec q k) as [->|Hne].
      + rewrite lupd_nth_eq, Ho. cbn. eexists. split; [reflexivity|]. auto.
      + rewrite lupd_nth_ne by auto. eauto.
    - intros k Hk Hn. apply A3; auto. intros [E|[]]. apply Hn. destruct Hq as [(-> & _)|[->| ->]]; rewrite E; cbn; auto.
    - intros p Hp. destruct Hq as [(-> & B1 & B2)|Hq].
      + apply A5. lia.
      + assert (q1 <> q) by (destruct Hq as [->| ->]; auto).
        destruct H as (N & d & d' & I & -> & B). unfold byte_at.
        now rewrite (nth_bytes_at s (putd s q d') q1) by (apply objs_putd_ne; auto).
    - intros Hs. eapply inside_heap_ok; eauto.
  Qed.

  Lemma mem_ext s c a n c' a' n' : (forall k, 0 <= k < K -> c k = c' k) -> (forall k, 0 <= k < K -> a k = a' k) ->
    (forall k, 0 <= k < K -> n k = n' k) -> mem s c a n -> mem s c' a' n'.
  Proof.
    intros Hc Ha Hn (A & B & C & D). split; [|split; [|split; [|exact D]]].
    - eapply arr_ext; [|exact A]. intros i Hi. unfold flat. rewrite Hc by (clear -Hi; lia). reflexivity.
    - eapply arr_ext; [|exact B]. intros i Hi. unfold flat. rewrite Ha by (clear -Hi; lia). reflexivity.
    - eapply arr_ext; [|exact C]. exact Hn.
  Qed.

  Section Ops.
    Variables (s : st) (c a : Z -> Z * Z) (n : Z -> Z) (k : Z).
    Hypotheses (HM : mem s c a n) (Hk : 0 <= k < K).

    Lemma get1x : small (fst (c k)) -> geti (Some q1) (16 + 8 * k) e s = Ret (fst (c k)) s.
    Proof.
      intros H. rewrite <- flat_x in *. destruct HM as (A & _).
      eapply geti_ok; eauto; clear -Hk; lia.
    Qed.
    Lemma get1y : small (snd (c k)) -> geti (Some q1) (16 + 8 * k + 4) e s = Ret (snd (c k)) s.
    Proof.
      intros H. rewrite <- flat_y in *. destruct HM as (A & _).
      eapply geti_ok; eauto; clear -Hk; lia.
    Qed.
    Lemma get2x : small (fst (a k)) -> geti (Some q2) (8 * k) e s = Ret (fst (a k)) s.
    Proof.
      intros H. rewrite <- flat_x in *. destruct HM as (_ & A & _).
      eapply geti_ok; eauto; clear -Hk; lia.
    Qed.
    Lemma get2y : small (snd (a k)) -> geti (Some q2) (8 * k + 4) e s = Ret (snd (a k)) s.
    Proof.
      intros H. rewrite <- flat_y in *. destruct HM as (_ & A & _).
      eapply geti_ok; eauto; clear -Hk; lia.
    Qed.
    Lemma get3 : small (n k) -> geti (Some q3) (4 * k) e s = Ret (n k) s.
    Proof. intros H. destruct HM as (_ & _ & A & _). eapply geti_ok; eauto; clear -Hk; lia. Qed.

    Variable v : Z.
    Hypothesis (Hv : small v).

    Lemma word_small : u32 v mod 256 ^ 4 = v.
    Proof. unfold u32, small in *. change (256 ^ 4) with 4294967296. rewrite Z.mod_mod by lia. apply Z.mod_small. lia. Qed.

    Ltac others H := repeat split; auto; try (eapply arr_inside; [exact H|eassumption|left; congruence]); try (eapply inside_old; eauto; intuition congruence).

    Lemma put1x : exists s', puti (Some q1) (16 + 8 * k) v e s = Ret tt s' /\ mem s' (pupd c k (v, snd (c k))) a n /\ fr s s'.
    Proof.
      destruct HM as (A & B & C & D).
      destruct (arr_store e s q1 16 4 (2 * K) (flat c) (2 * k) (16 + 8 * k) 4 (u32 v) A ltac:(lia) ltac:(lia) eq_refl) as (s' & E & A' & I).
      rewrite word_small in A'. exists s'. split; [exact E|]. split; [|eapply inside_fr; eauto; left; lia].
      split; [eapply arr_ext; [|exact A']; intros; apply flat_updx|]. others I.
    Qed.
    Lemma put1y : exists s', puti (Some q1) (16 + 8 * k + 4) v e s = Ret tt s' /\ mem s' (pupd c k (fst (c k), v)) a n /\ fr s s'.
    Proof.
      destruct HM as (A & B & C & D).
      destruct (arr_store e s q1 16 4 (2 * K) (flat c) (2 * k + 1) (16 + 8 * k + 4) 4 (u32 v) A ltac:(lia) ltac:(lia) eq_refl) as (s' & E & A' & I).
      rewrite word_small in A'. exists s'. split; [exact E|]. split; [|eapply inside_fr; eauto; left; lia].
      split; [eapply arr_ext; [|exact A']; intros; apply flat_updy|]. others I.
    Qed.
    Lemma put2x : exists s', puti (Some q2) (8 * k) v e s = Ret tt s' /\ mem s' c (pupd a k (v, snd (a k))) n /\ fr s s'.
    Proof.
      destruct HM as (A & B & C & D).
      destruct (arr_store e s q2 0 4 (2 * K) (flat a) (2 * k) (8 * k) 4 (u32 v) B ltac:(lia) ltac:(lia) eq_refl) as (s' & E & A' & I).
      rewrite word_small in A'. exists s'. split; [exact E|]. split; [|eapply inside_fr; eauto].
      split; [|split; [eapply arr_ext; [|exact A']; intros; apply flat_updx|]]; others I.
    Qed.
    Lemma put2y : exists s', puti (Some q2) (8 * k + 4) v e s = Ret tt s' /\ mem s' c (pupd a k (fst (a k), v)) n /\ fr s s'.
    Proof.
      destruct HM as (A & B & C & D).
      destruct (arr_store e s q2 0 4 (2 * K) (flat a) (2 * k + 1) (8 * k + 4) 4 (u32 v) B ltac:(lia) ltac:(lia) eq_refl) as (s' & E & A' & I).
      rewrite word_small in A'. exists s'. split; [exact E|]. split; [|eapply inside_fr; eauto].
      split; [|split; [eapply arr_ext; [|exact A']; intros; apply flat_updy|]]; others I.
    Qed.
    Lemma put3 : exists s', puti (Some q3) (4 * k) v e s = Ret tt s' /\ mem s' c a (fupd n k v) /\ fr s s'.
    Proof.
      destruct HM as (A & B & C & D).
      destruct (arr_store e s q3 0 4 K n k (4 * k) 4 (u32 v) C ltac:(lia) ltac:(lia) eq_refl) as (s' & E & A' & I).
      rewrite word_small in A'. exists s'. split; [exact E|]. split; [|eapply inside_fr; eauto].
      split; [|split; [|split; [exact A'|]]]; others I.
    Qed.
  End Ops.
End Mem.
