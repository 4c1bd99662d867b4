(** * Multi-byte elements. *)
From Verif Require Import Base Logic ModelFloat SpecBase SpecNum ProofCore ProofFloat.
From Coq Require Import Floats.SpecFloat ZifyBool ZifyNat.
Ltac Zify.zify_post_hook ::= Z.div_mod_to_equations.
Open Scope Z_scope.

(** Byte t of the number v. *)
Definition byte_of (v t : Z) : Z := v / 256 ^ t mod 256.

Lemma byte_of_0 v : byte_of v 0 = v mod 256.
Proof. unfold byte_of. change (256 ^ 0) with 1. now rewrite Z.div_1_r. Qed.
Lemma byte_of_succ v t : 0 <= t -> byte_of (v / 256) t = byte_of v (t + 1).
Proof.
  intros Ht. unfold byte_of. rewrite Z.pow_add_r by lia. change (256 ^ 1) with 256.
  assert (0 < 256 ^ t) by (apply Z.pow_pos_nonneg; lia).
  rewrite Z.div_div by lia. do 2 f_equal. ring.
Qed.
Lemma byte_of_mod v t : byte_of v t mod 256 = byte_of v t.
Proof. unfold byte_of. apply Z.mod_mod. lia. Qed.

(** The number in n cells. *)
Fixpoint word (d : Z -> Z) (off : Z) (n : nat) : Z :=
  match n with O => 0 | S n' => d off mod 256 + 256 * word d (off + 1) n' end.

Lemma word_range d n : forall off, 0 <= word d off n < 256 ^ Z.of_nat n.
Proof.
  induction n as [|n IH]; intros off; [cbn; lia|]. cbn [word].
  rewrite Nat2Z.inj_succ, Z.pow_succ_r by lia. pose proof (IH (off + 1)).
  pose proof (Z.mod_pos_bound (d off) 256 ltac:(lia)). lia.
Qed.

Lemma word_ext d d' n : forall off, (forall t, 0 <= t < Z.of_nat n -> d (off + t) mod 256 = d' (off + t) mod 256) ->
  word d off n = word d' off n.
Proof.
  induction n as [|n IH]; intros off H; [reflexivity|]. cbn [word]. f_equal.
  - specialize (H 0 ltac:(lia)). now rewrite Z.add_0_r in H.
  - f_equal. apply IH. intros t Ht. specialize (H (1 + t) ltac:(lia)). now rewrite Z.add_assoc in H.
Qed.

Lemma word_bytes d v n : forall off, (forall t, 0 <= t < Z.of_nat n -> d (off + t) mod 256 = byte_of v t) ->
  word d off n = v mod 256 ^ Z.of_nat n.
Proof.
  revert v. induction n as [|n IH]; intros v off H; [cbn; now rewrite Z.mod_1_r|].
  cbn [word]. rewrite (IH (v / 256)).
  - pose proof (H 0 ltac:(lia)) as H0. rewrite Z.add_0_r, byte_of_0 in H0. rewrite H0.
    rewrite Nat2Z.inj_succ, Z.pow_succ_r by lia.
    assert (0 < 256 ^ Z.of_nat n) by (apply Z.pow_pos_nonneg; lia).
    rewrite Z.rem_mul_r by lia. ring.
  - intros t Ht. rewrite byte_of_succ by lia. rewrite <- (H (t + 1)) by lia. do 2 f_equal. lia.
Qed.

Lemma rdv_loadle e s0 q p n d k : p <> q -> isb s0 p n d ->
  forall off, 0 <= off -> off + Z.of_nat k <= n -> rdv e s0 q (loadle (Some p) off k) (word d off k).
Proof.
  intros Hp H. induction k as [|k IH]; intros off H0 H1; [apply rdv_ret|]. cbn [loadle word].
  eapply rdv_bind; [eapply rdv_load8; eauto; lia|].
  eapply rdv_bind; [apply IH; lia|]. apply rdv_ret.
Qed.

Lemma rdv_loadf e s0 q p n d i : p <> q -> isb s0 p n d -> 0 <= i -> 4 * i + 4 <= n ->
  rdv e s0 q (loadf (Some p) i) (fl_of_bits (word d (4 * i) 4)).
Proof.
  intros. unfold loadf. eapply rdv_bind; [eapply rdv_loadle; eauto; lia|]. apply rdv_ret.
Qed.

Lemma wr_storele e s0 q n d spec k : isb s0 q n d -> forall v off, 0 <= off -> off + Z.of_nat k <= n ->
  (forall t, 0 <= t < Z.of_nat k -> spec (off + t) = byte_of v t) ->
  wr e s0 q (storele (Some q) off k v) (fun p => off <= p < off + Z.of_nat k) spec.
Proof.
  intros H. induction k as [|k IH]; intros v off H0 H1 Hs.
  - eapply wr_iff; [apply wr_ret|]. intros p. lia.
  - cbn [storele]. eapply wr_iff.
    + apply wr_seq.
      * eapply wr_store8; eauto; [lia|]. specialize (Hs 0 ltac:(lia)). rewrite Z.add_0_r, byte_of_0 in Hs.
        rewrite Hs. apply Z.mod_mod. lia.
      * apply (IH (v / 256) (off + 1)); [lia|lia|]. intros t Ht.
        rewrite byte_of_succ by lia. rewrite <- (Hs (t + 1)) by lia. f_equal. lia.
    + intros p. cbv beta. lia.
Qed.

(** Contents of an array of elements of size es whose i-th element is g i. *)
Definition elems (es : Z) (g : Z -> Z) (p : Z) : Z := byte_of (g (p / es)) (p mod es).

Lemma elems_at es g i t : 0 <= t < es -> elems es g (i * es + t) = byte_of (g i) t.
Proof.
  intros Ht. unfold elems. replace ((i * es + t) / es) with i.
  2:{ rewrite Z.add_comm, Z.div_add by lia. rewrite Z.div_small by lia. lia. }
  replace ((i * es + t) mod es) with t; auto.
  rewrite Z.add_comm, Z.mod_add by lia. rewrite Z.mod_small; lia.
Qed.

Lemma wr_elem e s0 q N d es g i off v : isb s0 q N d -> 0 < es -> 0 <= i -> (i + 1) * es <= N ->
  off = i * es -> v mod 256 ^ es = g i mod 256 ^ es ->
  wr e s0 q (storele (Some q) off (Z.to_nat es) v) (fun p => i * es <= p < (i + 1) * es) (elems es g).
Proof.
  intros H Hes Hi Hn -> Hv. eapply wr_iff.
  - eapply wr_storele; eauto; [nia|rewrite Z2Nat.id by lia; lia|].
    intros t Ht. rewrite Z2Nat.id in Ht by lia. rewrite elems_at by lia.
    assert (E : forall x, byte_of x t = byte_of (x mod 256 ^ es) t).
    { intros x. unfold byte_of.
      assert (P : 0 < 256 ^ t) by (apply Z.pow_pos_nonneg; lia).
      assert (P2 : 0 < 256 ^ (es - t - 1)) by (apply Z.pow_pos_nonneg; lia).
      assert (Ep : 256 ^ es = 256 ^ t * (256 * 256 ^ (es - t - 1))).
      { change 256 with (256 ^ 1) at 3. rewrite <- !Z.pow_add_r by lia. f_equal. lia. }
      rewrite Ep, Z.rem_mul_r by lia.
      rewrite (Z.add_comm (x mod 256 ^ t)), (Z.mul_comm (256 ^ t)), Z.div_add_l by lia.
      rewrite (Z.div_small (x mod 256 ^ t)) by (apply Z.mod_pos_bound; lia). rewrite Z.add_0_r.
      rewrite Z.rem_mul_r by lia. rewrite (Z.mul_comm 256), Z.mod_add by lia.
      now rewrite Z.mod_mod by lia. }
    rewrite E, <- Hv, <- E. reflexivity.
  - intros p. rewrite Z2Nat.id by lia. lia.
Qed.

Lemma wr_elems e s0 q n es body spec : 0 < es ->
  (forall i, 0 <= i < n -> wr e s0 q (body i) (fun p => i * es <= p < (i + 1) * es) spec) ->
  wr e s0 q (for_ 0 n body) (fun p => 0 <= p < n * es) spec.
Proof.
  intros Hes H. eapply wr_iff; [apply wr_for; exact H|].
  intros p. cbv beta. split.
  - intros (i & Hi & Hp). nia.
  - intros Hp. exists (p / es). pose proof (Z.div_mod p es ltac:(lia)). pose proof (Z.mod_pos_bound p es Hes).
    assert (0 <= p / es) by (apply Z.div_pos; lia). split; nia.
Qed.

(** Observing elements. *)
Lemma word_at_isb s q n d k : isb s q n d -> forall off, 0 <= off -> off + Z.of_nat k <= n ->
  word_at s (Some q) off k = Some (word d off k).
Proof.
  intros H. induction k as [|k IH]; intros off H0 H1; [reflexivity|]. cbn [word_at word].
  rewrite (byte_at_isb s q n d off) by (auto; lia). rewrite IH by lia. reflexivity.
Qed.

Lemma word_elems d es g i : 0 < es -> 0 <= g i < 256 ^ es ->
  (forall p, i * es <= p < (i + 1) * es -> d p mod 256 = elems es g p) ->
  word d (i * es) (Z.to_nat es) = g i.
Proof.
  intros Hes Hg H. rewrite (word_bytes d (g i)); rewrite ?Z2Nat.id by lia.
  - now apply Z.mod_small.
  - intros t Ht. rewrite H by lia. apply elems_at. lia.
Qed.
