(** * Loops that update a stored array, as folds. *)
From Verif Require Import Base Logic SpecBase SpecNum SpecMatrix ProofCore ProofLayout ProofHM ProofWord ProofArr ProofMath ProofMatrix.
From Coq Require Import ZifyBool ZifyNat.
Ltac Zify.zify_post_hook ::= Z.div_mod_to_equations.
Open Scope Z_scope.

Lemma foldz_0 {T} (f : T -> Z -> T) a : foldz 0 f a = a.
Proof. reflexivity. Qed.

Lemma foldz_ext {T} n (f g : T -> Z -> T) a : (forall x i, 0 <= i < n -> f x i = g x i) -> foldz n f a = foldz n g a.
Proof.
  intros H. destruct (Z_le_gt_dec n 0) as [Hn|Hn].
  - unfold foldz. now replace (Z.to_nat n) with 0%nat by lia.
  - assert (K : 0 <= n) by lia. revert H. clear Hn. pattern n. apply natlike_ind; auto.
    intros k Hk IH H. unfold Z.succ in *. rewrite !foldz_S by lia. rewrite IH by (intros; apply H; lia). apply H. lia.
Qed.

(** A loop whose passes transform the array. *)
Lemma arr_for e s q base es N (F : Z -> (Z -> Z) -> Z -> Z) n g body : 0 <= n ->
  arr s q base es N g ->
  (forall i g1 s1, 0 <= i < n -> arr s1 q base es N g1 -> inside s q base (base + N * es) s1 ->
     exists s2, body i e s1 = Ret tt s2 /\ arr s2 q base es N (F i g1) /\ inside s1 q base (base + N * es) s2) ->
  exists s', for_ 0 n body e s = Ret tt s' /\ arr s' q base es N (foldz n (fun g i => F i g) g)
    /\ inside s q base (base + N * es) s'.
Proof.
  intros Hn A Hb.
  destruct (for_inv e 0 n body (fun i s1 => arr s1 q base es N (foldz i (fun g i => F i g) g)
      /\ inside s q base (base + N * es) s1) s) as (s' & E & A' & I'); [lia| | |].
  - split; auto. destruct (arr_isb _ _ _ _ _ _ A) as (M & d & Hd). eapply inside_refl; eauto.
  - intros i s1 Hi [A1 I1]. destruct (Hb i _ s1 Hi A1 I1) as (s2 & E2 & A2 & I2). exists s2. split; auto.
    rewrite foldz_S by lia. split; auto. eapply inside_trans; eauto.
  - exists s'. auto.
Qed.

(** Folds that act cell by cell. *)
Lemma foldz_cell n (F : Z -> (Z -> Z) -> Z -> Z) G g t : 0 <= n ->
  (forall i g1, 0 <= i < n -> F i g1 t = G (g1 t) i) ->
  foldz n (fun g i => F i g) g t = foldz n G (g t).
Proof.
  intros Hn H. revert H. pattern n. apply natlike_ind; auto.
  intros k Hk IH H. unfold Z.succ in *. rewrite !foldz_S by lia. rewrite H by lia. rewrite IH; auto.
  intros; apply H; lia.
Qed.

(** A fold that acts only once. *)
Lemma foldz_once {T} n (f : T -> T) k a : 0 <= k < n -> foldz n (fun x i => if i =? k then f x else x) a = f a.
Proof.
  intros Hk. assert (L : forall m, 0 <= m -> foldz m (fun x i => if i =? k then f x else x) a = if k <? m then f a else a).
  { intros m Hm. pattern m. apply natlike_ind; auto.
    - now replace (k <? 0) with false by lia.
    - intros u Hu IH. unfold Z.succ. rewrite foldz_S by lia. rewrite IH.
      destruct (Z.eqb_spec u k) as [->|]; [replace (k <? k) with false by lia; now replace (k <? k + 1) with true by lia|].
      destruct (Z.ltb_spec k u), (Z.ltb_spec k (u + 1)); auto; lia. }
  rewrite L by lia. now replace (k <? n) with true by lia.
Qed.

Lemma foldz_never {T} n (f : T -> Z -> T) a : (forall x i, 0 <= i < n -> f x i = x) -> foldz n f a = a.
Proof.
  intros H. rewrite (foldz_ext n f (fun x _ => x)) by auto. unfold foldz. induction (Z.to_nat n); cbn; auto.
Qed.

(** Transport of a fold along a function. *)
Lemma foldz_map {A B} (h : A -> B) (Q : A -> Prop) n (f : A -> Z -> A) (g : B -> Z -> B) a : 0 <= n -> Q a ->
  (forall x i, 0 <= i < n -> Q x -> Q (f x i) /\ h (f x i) = g (h x) i) ->
  Q (foldz n f a) /\ h (foldz n f a) = foldz n g (h a).
Proof.
  intros Hn Ha H. revert H. pattern n. apply natlike_ind; auto.
  intros k Hk IH H. unfold Z.succ in *. rewrite !foldz_S by lia.
  destruct IH as [Q1 E1]; [intros; apply H; auto; lia|].
  destruct (H (foldz k f a) k ltac:(lia) Q1) as [Q2 E2]. split; auto. now rewrite E2, E1.
Qed.
