(** * Proofs about the interleave conversions. *)
From Verif Require Import Base Logic ModelCore ModelImage SpecBase ProofCore.
From Coq Require Import String ZifyBool ZifyNat.
Ltac Zify.zify_post_hook ::= Z.div_mod_to_equations.
Open Scope Z_scope.

(** ** Layout arithmetic *)

Definition dec (l : layout) (S L B x : Z) : Z * Z * Z :=
  match l with
  | BSQ => (x / S mod L, x mod S, x / S / L)
  | BIL => (x / S / B, x mod S, x / S mod B)
  | BIP => (x / B / S, x / B mod S, x mod B)
  end.

Lemma radix2 a b n : 0 <= b < n -> (a * n + b) / n = a /\ (a * n + b) mod n = b.
Proof.
  intros. split.
  - rewrite Z.div_add_l by lia. rewrite Z.div_small; lia.
  - rewrite Z.add_comm, Z_mod_plus_full. apply Z.mod_small; lia.
Qed.

Lemma dec_offset l S L B i j k :
  0 <= i < L -> 0 <= j < S -> 0 <= k < B ->
  dec l S L B (offset l S L B i j k) = (i, j, k).
Proof.
  intros Hi Hj Hk. destruct l; cbn [dec offset].
  - destruct (radix2 (k * L + i) j S Hj) as [-> ->].
    destruct (radix2 k i L Hi) as [-> ->]. reflexivity.
  - destruct (radix2 (i * B + k) j S Hj) as [-> ->].
    destruct (radix2 i k B Hk) as [-> ->]. reflexivity.
  - destruct (radix2 (i * S + j) k B Hk) as [-> ->].
    destruct (radix2 i j S Hj) as [-> ->]. reflexivity.
Qed.

Lemma offset_range l S L B i j k :
  0 <= i < L -> 0 <= j < S -> 0 <= k < B ->
  0 <= offset l S L B i j k < S * L * B.
Proof.
  intros Hi Hj Hk. destruct l; cbn [offset].
  - assert (0 <= k * L + i < B * L) by nia. nia.
  - assert (0 <= i * B + k < L * B) by nia. nia.
  - assert (0 <= i * S + j < L * S) by nia. nia.
Qed.

Lemma redivmod x n : 0 < n -> x / n * n + x mod n = x.
Proof. intros. rewrite Z.mul_comm, <- Z.div_mod by lia. reflexivity. Qed.

Lemma offset_dec l S L B x : 0 < S -> 0 < L -> 0 < B -> 0 <= x < S * L * B ->
  match dec l S L B x with
  | (i, j, k) => offset l S L B i j k = x /\ 0 <= i < L /\ 0 <= j < S /\ 0 <= k < B
  end.
Proof.
  intros HS HL HB Hx.
  assert (G : forall a b c y, 0 < a -> 0 < b -> 0 <= y < a * b * c ->
     (y / a / b * b + (y / a) mod b) * a + y mod a = y
     /\ 0 <= (y / a) mod b < b /\ 0 <= y mod a < a /\ 0 <= y / a / b < c).
  { intros a b c y Ha Hb Hy.
    assert (0 <= y / a < b * c) by (split; [apply Z.div_pos; lia | apply Z.div_lt_upper_bound; nia]).
    rewrite (redivmod (y / a) b), (redivmod y a) by auto.
    split; [reflexivity|]. split; [apply Z.mod_pos_bound; auto|]. split; [apply Z.mod_pos_bound; auto|].
    split; [apply Z.div_pos; lia | apply Z.div_lt_upper_bound; lia]. }
  destruct l; cbn [dec offset].
  - destruct (G S L B x) as (? & ? & ? & ?); auto; nia.
  - destruct (G S B L x) as (? & ? & ? & ?); auto; nia.
  - destruct (G B S L x) as (? & ? & ? & ?); auto; nia.
Qed.

Lemma byte_range x n es t : 0 <= x < n -> 0 <= t < es -> 0 <= x * es + t < n * es.
Proof. intros. nia. Qed.

(** ** Evaluating the index expressions of the code *)

Section Idx.
  Variables (S L B es i j k : Z).
  Hypotheses (HS : 0 < S) (HL : 0 < L) (HB : 0 < B) (Hes : 1 <= es)
             (Hsz : S * L * B * es <= 2147483647)
             (Hi : 0 <= i < L) (Hj : 0 <= j < S) (Hk : 0 <= k < B).

  Let T : S * L * B <= S * L * B * es. Proof. nia. Qed.
  Let R : forall l, 0 <= offset l S L B i j k * es <= 2147483647.
  Proof. intros l. pose proof (offset_range l S L B i j k Hi Hj Hk). nia. Qed.

  Lemma ev_bil : ((i * S * B + k * S + j) * es)%C = Some (offset BIL S L B i j k * es).
  Proof.
    pose proof (offset_range BIL S L B i j k Hi Hj Hk) as O. cbn [offset] in O.
    pose proof (R BIL) as RR. cbn [offset] in RR.
    assert (0 <= i * S * B) by nia. assert (0 <= k * S) by nia.
    assert (E : (i * B + k) * S + j = i * S * B + k * S + j) by ring.
    assert (i * S <= i * S * B) by nia. assert (0 <= i * S) by nia.
    cbn [offset]. rewrite E in *. clear E.
    cev_with lia. reflexivity.
  Qed.

  Lemma ev_bsq : ((k * S * L + i * S + j) * es)%C = Some (offset BSQ S L B i j k * es).
  Proof.
    pose proof (offset_range BSQ S L B i j k Hi Hj Hk) as O. cbn [offset] in O.
    pose proof (R BSQ) as RR. cbn [offset] in RR.
    assert (0 <= k * S * L) by nia. assert (0 <= i * S) by nia.
    assert (E : (k * L + i) * S + j = k * S * L + i * S + j) by ring.
    assert (k * S <= k * S * L) by nia. assert (0 <= k * S) by nia.
    cbn [offset]. rewrite E in *. clear E.
    cev_with lia. reflexivity.
  Qed.

  Lemma ev_bip : ((i * S * B + j * B + k) * es)%C = Some (offset BIP S L B i j k * es).
  Proof.
    pose proof (offset_range BIP S L B i j k Hi Hj Hk) as O. cbn [offset] in O.
    pose proof (R BIP) as RR. cbn [offset] in RR.
    assert (0 <= i * S * B) by nia. assert (0 <= j * B) by nia.
    assert (E : (i * S + j) * B + k = i * S * B + j * B + k) by ring.
    assert (i * S <= i * S * B) by nia. assert (0 <= i * S) by nia.
    cbn [offset]. rewrite E in *. clear E.
    cev_with lia. reflexivity.
  Qed.
End Idx.

(** ** Copying one element, all six loops *)

Section Conv.
  Variables (e : env) (s0 : st) (src dst : nat) (nsrc ndst : Z) (fs fd : Z -> Z).
  Variables (S L B es : Z) (lin lout : layout).
  Hypotheses (HS : 0 < S) (HL : 0 < L) (HB : 0 < B) (Hes : 1 <= es)
             (Hsz : S * L * B * es <= 2147483647).
  Hypotheses (Hsrc : isb s0 src nsrc fs) (Hdst : isb s0 dst ndst fd) (Hne : src <> dst)
             (Hn1 : S * L * B * es <= nsrc) (Hn2 : S * L * B * es <= ndst).

  (** What byte x of the output must be. *)
  Definition conv_spec (x : Z) : Z :=
    match dec lout S L B (x / es) with
    | (i, j, k) => fs (offset lin S L B i j k * es + x mod es) mod 256
    end.

  Lemma elem_wr i j k : 0 <= i < L -> 0 <= j < S -> 0 <= k < B ->
    wr e s0 dst
      (for_ 0 es (fun t =>
         x <- load8 (Some src) (u32 (u32 (offset lin S L B i j k * es) + t)) ;;
         store8 (Some dst) (u32 (u32 (offset lout S L B i j k * es) + t)) x))
      (fun p => exists t, 0 <= t < es /\ p = offset lout S L B i j k * es + t)
      conv_spec.
  Proof.
    intros Hi Hj Hk. apply wr_for. intros t Ht.
    pose proof (offset_range lin S L B i j k Hi Hj Hk) as O1.
    pose proof (offset_range lout S L B i j k Hi Hj Hk) as O2.
    pose proof (byte_range _ _ es t O1 Ht) as B1.
    pose proof (byte_range _ _ es t O2 Ht) as B2.
    assert (U : forall y, 0 <= y * es -> 0 <= y * es + t < S * L * B * es -> u32 (u32 (y * es) + t) = y * es + t).
    { intros y Hy0 Hy. unfold u32. rewrite (Z.mod_small (y * es)) by lia. apply Z.mod_small; lia. }
    rewrite !U by (auto; nia).
    eapply wr_bind; [eapply rdv_load8; eauto; lia|].
    eapply wr_store8; [eauto|lia|].
    rewrite Z.mod_mod by lia. unfold conv_spec.
    destruct (radix2 (offset lout S L B i j k) t es Ht) as [-> ->].
    rewrite dec_offset by auto. reflexivity.
  Qed.

  Lemma conv_spec_at i j k t : 0 <= i < L -> 0 <= j < S -> 0 <= k < B -> 0 <= t < es ->
    conv_spec (offset lout S L B i j k * es + t) = fs (offset lin S L B i j k * es + t) mod 256.
  Proof.
    intros Hi Hj Hk Ht. unfold conv_spec.
    destruct (radix2 (offset lout S L B i j k) t es Ht) as [-> ->].
    rewrite dec_offset by auto. reflexivity.
  Qed.
End Conv.
