(** * Proofs: comparing the moments, turning the plane. *)
From Coq Require Import Reals Lra.
From Verif Require Import Base ModelFloat ModelDouble SpecBase SpecNum SpecMatrix SpecShape
  ProofFloat ProofFloat2 ProofErr ProofShape.
From Coq Require Import Floats.SpecFloat ZifyBool ZifyNat.
Open Scope Z_scope.

(** ** Sums of magnitudes *)
Lemma rounded_nonzero A x : rounded 53 1024 1074 A x -> A <> 0 ->
  db_ok x /\ ((exists m e, x = S754_finite (A <? 0) m e) \/ x = S754_infinity (A <? 0)).
Proof.
  intros R HA. pose proof (rnd_err 53 1024 ltac:(lia) ltac:(lia) ltac:(lia) 1074 A ltac:(lia)) as E.
  change (53 + emin 53 1024 + 1074 - 1) with 52 in E. change (1074 - 1074) with 0 in E. change (2 ^ 0) with 1 in E. rewrite Z.mul_1_r in E.
  change (2 ^ 53) with 9007199254740992 in E. change (2 ^ 52) with 4503599627370496 in E. unfold rounded in R.
  set (r := rnd 53 1024 1074 A) in *. clearbody r.
  assert (Sg : (A < 0 -> r < 0) /\ (0 < A -> 0 < r)) by (clear - E; lia).
  destruct (_ <? _) in R.
  - destruct R as [V N]. split; [exact V|]. left. destruct x as [s|s| |s m e]; try discriminate N.
    + injection N as N. exfalso. clear - N Sg HA. lia.
    + cbn [sf_num] in N. injection N as N. pose proof (db_emin _ _ _ V). pose proof (pow_pos (e + 1074) ltac:(lia)) as P.
      exists m, e. f_equal. clear - HA N P Sg. generalize dependent (2 ^ (e + 1074)). intros z N Hz.
      assert (0 < Zpos m * z) by (apply Z.mul_pos_pos; lia).
      destruct s; cbn [cond_Zopp] in N; [rewrite Z.mul_opp_l in N|]; destruct (Z.ltb_spec A 0); auto; exfalso; lia.
  - subst x. split; [reflexivity|]. right. reflexivity.
Qed.

(** Zero, positive, or infinite. *)
Definition good (x : sf) : Prop := db_ok x /\ (x = S754_zero false \/ (exists m e, x = S754_finite false m e) \/ x = S754_infinity false).

Lemma num_finite s m e : sf_num (S754_finite s m e) = Some (cond_Zopp s (Zpos m) * 2 ^ (e + 1074)). Proof. reflexivity. Qed.
Lemma scaled_pos' m e : -1074 <= e -> 0 < Zpos m * 2 ^ (e + 1074).
Proof. intros H. apply Z.mul_pos_pos; [lia|]. apply pow_pos. lia. Qed.

Lemma add_good x y : good x -> good y -> good (db_add x y) /\ (x <> S754_zero false \/ y <> S754_zero false -> db_add x y <> S754_zero false).
Proof.
  intros [Vx Hx] [Vy Hy]. pose proof (db_add_ok _ _ Vx Vy) as V.
  assert (G : forall m e m' e', x = S754_finite false m e -> y = S754_finite false m' e' ->
    (exists m e, db_add x y = S754_finite false m e) \/ db_add x y = S754_infinity false).
  { intros m e m' e' -> ->. pose proof (db_emin _ _ _ Vx) as B1. pose proof (db_emin _ _ _ Vy) as B2.
    pose proof (SFadd_num 53 1024 ltac:(lia) ltac:(lia) ltac:(lia) _ _ _ _ Vx Vy eq_refl eq_refl) as R. cbn [cond_Zopp] in R.
    pose proof (scaled_pos' m e ltac:(lia)) as P1. pose proof (scaled_pos' m' e' ltac:(lia)) as P2.
    apply rounded_nonzero in R as [_ R]; [|clear - P1 P2; lia].
    replace (_ <? 0) with false in R by (clear - P1 P2; lia). exact R. }
  unfold good. destruct Hx as [->|[(m & e & ->)| ->]].
  - destruct Hy as [->|[(m' & e' & ->)| ->]].
    + split; [split; auto|]. intros [|]; congruence.
    + split; [split; [exact V|right; left; exists m', e'; reflexivity]|]. intros _. discriminate.
    + split; [split; auto|]. discriminate.
  - destruct Hy as [->|[(m' & e' & ->)| ->]].
    + split; [split; [exact V|right; left; exists m, e; reflexivity]|]. intros _. discriminate.
    + destruct (G _ _ _ _ eq_refl eq_refl) as [(m2 & e2 & E)|E]; rewrite E in *; (split; [split; [exact V|eauto]|discriminate]).
    + split; [split; auto|]. discriminate.
  - destruct Hy as [->|[(m' & e' & ->)| ->]]; (split; [split; auto|discriminate]).
Qed.

Lemma double_good x : db_ok x -> is_fin x = true -> good (SFabs (db_add x x)) /\ (is_nonzero x = true -> SFabs (db_add x x) <> S754_zero false).
Proof.
  intros V F. destruct x as [b|b| |b m e]; try discriminate F.
  - destruct b; (split; [split; [reflexivity|left; reflexivity]|discriminate]).
  - pose proof (db_emin _ _ _ V) as B.
    pose proof (SFadd_num 53 1024 ltac:(lia) ltac:(lia) ltac:(lia) _ _ _ _ V V eq_refl eq_refl) as R. pose proof (scaled_pos' m e ltac:(lia)) as P1.
    apply rounded_nonzero in R as [W R]; [|destruct b; cbn [cond_Zopp]; rewrite ?Z.mul_opp_l; clear - P1; lia].
    change (SFadd 53 1024 (S754_finite b m e) (S754_finite b m e)) with (db_add (S754_finite b m e) (S754_finite b m e)) in *.
    destruct R as [(m2 & e2 & E)|E]; rewrite E in *; cbn [SFabs].
    + split; [|discriminate]. split; [exact W|]. right; left. eauto.
    + split; [|discriminate]. split; [reflexivity|]. auto.
Qed.

Definition total (f : sf -> sf -> sf) (l : list sf) (a : sf) : sf := fold_left db_add (map (fun x => SFabs (f x x)) l) a.
Lemma similarity_self l : similarity l l = db_sub (db_of_Z 1) (db_div (total db_sub l (db_of_Z 0)) (total db_add l (db_of_Z 0))).
Proof.
  unfold similarity. assert (E : forall f, map (fun x : sf * sf => SFabs (f (fst x) (snd x))) (combine l l) = map (fun x => SFabs (f x x)) l).
  { intros f. induction l as [|x r IH]; cbn [combine map]; [reflexivity|]. now rewrite IH. }
  rewrite !E. reflexivity.
Qed.

Lemma total_good l : forall a, Forall db_ok l -> forallb is_fin l = true -> good a ->
  good (total db_add l a) /\ (a <> S754_zero false \/ existsb is_nonzero l = true -> total db_add l a <> S754_zero false).
Proof.
  unfold total. induction l as [|x r IH]; intros a Hl F G; cbn [map fold_left forallb existsb] in *.
  - split; [exact G|]. intros [H|H]; [exact H|discriminate H].
  - apply andb_prop in F as [Fx Fr]. inversion Hl as [|? ? Vx Vr]; subst. destruct (double_good x Vx Fx) as [Gx Nx].
    destruct (add_good a _ G Gx) as [Ga Na]. destruct (IH _ Vr Fr Ga) as [I1 I2]. split; [exact I1|].
    intros [H|H]; apply I2; [left; apply Na; auto|]. apply orb_prop in H as [H|H]; [left; apply Na; right; auto|right; exact H].
Qed.

Lemma self_zero x : db_ok x -> is_fin x = true -> SFabs (db_sub x x) = S754_zero false.
Proof.
  intros V F. destruct x as [b|b| |b m e]; try discriminate F.
  - destruct b; reflexivity.
  - unfold db_sub. cbn [SFsub]. rewrite Z.sub_diag. reflexivity.
Qed.
Lemma self_nan x : is_fin x = false -> SFabs (db_sub x x) = S754_nan.
Proof. intros F. destruct x as [b|b| |b m e]; try discriminate F; [destruct b|]; reflexivity. Qed.
Lemma nan_total f l : total f l S754_nan = S754_nan.
Proof.
  unfold total. induction l as [|x r IH]; cbn [map fold_left]; [reflexivity|]. unfold db_add at 2. cbn [SFadd]. exact IH.
Qed.
Lemma sub_total l : Forall db_ok l -> total db_sub l (S754_zero false) = if forallb is_fin l then S754_zero false else S754_nan.
Proof.
  intros Hl. induction Hl as [|x r Vx Vr IH]; [reflexivity|]. cbn [forallb]. unfold total in *. cbn [map fold_left].
  destruct (is_fin x) eqn:F; cbn [andb].
  - rewrite (self_zero x Vx F). exact IH.
  - rewrite (self_nan x F). exact (nan_total db_sub r).
Qed.
Lemma zero_total l : Forall db_ok l -> existsb is_nonzero l = false -> total db_add l (S754_zero false) = S754_zero false.
Proof.
  intros Hl. induction Hl as [|x r Vx Vr IH]; [reflexivity|]. cbn [existsb]. unfold total in *. cbn [map fold_left]. intros F.
  apply orb_false_elim in F as [F1 F2]. destruct x as [b|b| |b m e]; try discriminate F1. specialize (IH F2). destruct b; exact IH.
Qed.
Lemma nan_div y : db_div S754_nan y = S754_nan. Proof. destruct y; reflexivity. Qed.

(** A list compared with itself. *)
Theorem compare_self l : Forall db_ok l -> similarity l l = if forallb is_fin l && existsb is_nonzero l then db_of_Z 1 else S754_nan.
Proof.
  intros Hl. rewrite similarity_self. change (db_of_Z 0) with (S754_zero false). rewrite (sub_total l Hl).
  destruct (forallb is_fin l) eqn:F; cbn [andb]; [|rewrite nan_div; reflexivity].
  destruct (existsb is_nonzero l) eqn:N.
  - destruct (total_good l (S754_zero false) Hl F) as [[V G] H]; [split; [reflexivity|left; reflexivity]|].
    specialize (H (or_intror N)). destruct G as [G|[(m & e & G)|G]]; [congruence| |]; rewrite G; reflexivity.
  - rewrite (zero_total l Hl N). reflexivity.
Qed.

(** ** Turning the plane *)
Section Turn.
  Open Scope R_scope.
  Variables (c s : R) (l : list (R * R * R)) (k : nat -> R).
  Hypothesis H : c * c + s * s = 1.
  Notation uu := (cloud_moment l).
  Notation vv := (cloud_moment (map (turn_point c s) l)).

  Ltac by_points := clear H; induction l as [|[[w x] y] r IH]; cbn [map cloud_moment fold_right fst snd turn_point] in *;
    [ring|unfold cloud_moment in *; cbn [map fold_right] in *; rewrite IH; cbn [turn_point fst snd]; ring].
  Lemma w20 : vv 2 0 = c * c * uu 2 0 - 2 * c * s * uu 1 1 + s * s * uu 0 2. Proof. by_points. Qed.
  Lemma w11 : vv 1 1 = c * s * uu 2 0 + (c * c - s * s) * uu 1 1 - c * s * uu 0 2. Proof. by_points. Qed.
  Lemma w02 : vv 0 2 = s * s * uu 2 0 + 2 * c * s * uu 1 1 + c * c * uu 0 2. Proof. by_points. Qed.
  Lemma w30 : vv 3 0 = c * c * c * uu 3 0 - 3 * c * c * s * uu 2 1 + 3 * c * s * s * uu 1 2 - s * s * s * uu 0 3. Proof. by_points. Qed.
  Lemma w21 : vv 2 1 = c * c * s * uu 3 0 + (c * c * c - 2 * c * s * s) * uu 2 1 + (s * s * s - 2 * c * c * s) * uu 1 2 + c * s * s * uu 0 3. Proof. by_points. Qed.
  Lemma w12 : vv 1 2 = c * s * s * uu 3 0 + (2 * c * c * s - s * s * s) * uu 2 1 + (c * c * c - 2 * c * s * s) * uu 1 2 - c * c * s * uu 0 3. Proof. by_points. Qed.
  Lemma w03 : vv 0 3 = s * s * s * uu 3 0 + 3 * c * s * s * uu 2 1 + 3 * c * c * s * uu 1 2 + c * c * c * uu 0 3. Proof. by_points. Qed.
  Let u p q : R := k (p + q)%nat * uu p q.
  Let v p q : R := k (p + q)%nat * vv p q.
  Lemma v20 : v 2 0 = c * c * u 2 0 - 2 * c * s * u 1 1 + s * s * u 0 2. Proof. unfold u, v. cbn [Nat.add]. rewrite w20. ring. Qed.
  Lemma v11 : v 1 1 = c * s * u 2 0 + (c * c - s * s) * u 1 1 - c * s * u 0 2. Proof. unfold u, v. cbn [Nat.add]. rewrite w11. ring. Qed.
  Lemma v02 : v 0 2 = s * s * u 2 0 + 2 * c * s * u 1 1 + c * c * u 0 2. Proof. unfold u, v. cbn [Nat.add]. rewrite w02. ring. Qed.
  Lemma v30 : v 3 0 = c * c * c * u 3 0 - 3 * c * c * s * u 2 1 + 3 * c * s * s * u 1 2 - s * s * s * u 0 3. Proof. unfold u, v. cbn [Nat.add]. rewrite w30. ring. Qed.
  Lemma v21 : v 2 1 = c * c * s * u 3 0 + (c * c * c - 2 * c * s * s) * u 2 1 + (s * s * s - 2 * c * c * s) * u 1 2 + c * s * s * u 0 3. Proof. unfold u, v. cbn [Nat.add]. rewrite w21. ring. Qed.
  Lemma v12 : v 1 2 = c * s * s * u 3 0 + (2 * c * c * s - s * s * s) * u 2 1 + (c * c * c - 2 * c * s * s) * u 1 2 - c * c * s * u 0 3. Proof. unfold u, v. cbn [Nat.add]. rewrite w12. ring. Qed.
  Lemma v03 : v 0 3 = s * s * s * u 3 0 + 3 * c * s * s * u 2 1 + 3 * c * c * s * u 1 2 + c * c * c * u 0 3. Proof. unfold u, v. cbn [Nat.add]. rewrite w03. ring. Qed.

  Theorem turned : hu_values real_numbers v = hu_values real_numbers u.
  Proof.
    unfold hu_values. cbn [real_numbers a_add a_sub a_mul a_int]. cbv zeta.
    assert (A : v 3 0 - 3 * v 1 2 = (c * c * c - 3 * c * s * s) * (u 3 0 - 3 * u 1 2) - (3 * c * c * s - s * s * s) * (3 * u 2 1 - u 0 3)) by (rewrite v30, v12; ring).
    assert (B : 3 * v 2 1 - v 0 3 = (3 * c * c * s - s * s * s) * (u 3 0 - 3 * u 1 2) + (c * c * c - 3 * c * s * s) * (3 * u 2 1 - u 0 3)) by (rewrite v21, v03; ring).
    assert (C : v 3 0 + v 1 2 = c * (u 3 0 + u 1 2) - s * (u 2 1 + u 0 3)).
    { transitivity ((c * c + s * s) * (c * (u 3 0 + u 1 2) - s * (u 2 1 + u 0 3))); [rewrite v30, v12; ring|rewrite H; ring]. }
    assert (D : v 2 1 + v 0 3 = s * (u 3 0 + u 1 2) + c * (u 2 1 + u 0 3)).
    { transitivity ((c * c + s * s) * (s * (u 3 0 + u 1 2) + c * (u 2 1 + u 0 3))); [rewrite v21, v03; ring|rewrite H; ring]. }
    assert (E : v 2 0 - v 0 2 = (c * c - s * s) * (u 2 0 - u 0 2) - 4 * c * s * u 1 1) by (rewrite v20, v02; ring).
    assert (F : v 1 1 = c * s * (u 2 0 - u 0 2) + (c * c - s * s) * u 1 1) by (rewrite v11; ring).
    assert (G : v 2 0 + v 0 2 = (c * c + s * s) * (u 2 0 + u 0 2)) by (rewrite v20, v02; ring).
    rewrite A, B, C, D, E, F, G. clear A B C D E F G.
    generalize (u 3 0 - 3 * u 1 2) (3 * u 2 1 - u 0 3) (u 3 0 + u 1 2) (u 2 1 + u 0 3) (u 2 0 - u 0 2) (u 2 0 + u 0 2) (u 1 1).
    intros a b p q e f g.
    repeat (apply (f_equal2 (@cons R))); [| | | | | | |reflexivity].
    - rewrite H. ring.
    - transitivity ((c * c + s * s) * (c * c + s * s) * (e * e + 4 * g * g)); [ring|rewrite H; ring].
    - transitivity ((c * c + s * s) * (c * c + s * s) * (c * c + s * s) * (a * a + b * b)); [ring|rewrite H; ring].
    - transitivity ((c * c + s * s) * (p * p + q * q)); [ring|rewrite H; ring].
    - transitivity ((c * c + s * s) * (c * c + s * s) * (c * c + s * s) * (a * p * (p * p - 3 * q * q) + b * q * (3 * p * p - q * q))); [ring|rewrite H; ring].
    - transitivity ((c * c + s * s) * (c * c + s * s) * (e * (p * p - q * q) + 4 * g * p * q)); [ring|rewrite H; ring].
    - transitivity ((c * c + s * s) * (c * c + s * s) * (c * c + s * s) * (b * p * (p * p - 3 * q * q) - a * q * (3 * p * p - q * q))); [ring|rewrite H; ring].
  Qed.
End Turn.
Theorem shape_turned : forall c s k l, (c * c + s * s)%R = 1%R ->
  hu_values real_numbers (fun p q => (k (p + q)%nat * cloud_moment (map (turn_point c s) l) p q)%R)
  = hu_values real_numbers (fun p q => (k (p + q)%nat * cloud_moment l p q)%R).
Proof. exact (fun c s k l H => turned c s l k H). Qed.
