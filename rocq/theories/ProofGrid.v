(** * Loops over the cells of a stored matrix. *)
From Verif Require Import Base Logic SpecBase SpecNum SpecMatrix ProofCore ProofLayout ProofHM ProofWord ProofArr.
From Coq Require Import ZifyBool ZifyNat.
Ltac Zify.zify_post_hook ::= Z.div_mod_to_equations.
Open Scope Z_scope.

(** ** Indices *)
Lemma cell_range m n i j : 0 <= i < m -> 0 <= j < n -> 0 <= i * n + j < m * n.
Proof. intros. nia. Qed.
Lemma cell_div n i j : 0 <= j < n -> (i * n + j) / n = i.
Proof. intros. rewrite Z.add_comm, Z.div_add, Z.div_small by lia. lia. Qed.
Lemma cell_mod n i j : 0 <= j < n -> (i * n + j) mod n = j.
Proof. intros. rewrite Z.add_comm, Z.mod_add by lia. now apply Z.mod_small. Qed.
Lemma cell_split m n t : 0 < n -> 0 <= t < m * n ->
  t = t / n * n + t mod n /\ 0 <= t / n < m /\ 0 <= t mod n < n.
Proof.
  intros Hn Ht. pose proof (Z.div_mod t n ltac:(lia)). pose proof (Z.mod_pos_bound t n Hn).
  assert (0 <= t / n) by (apply Z.div_pos; lia). repeat split; nia.
Qed.

(** ** Stored matrices *)
Lemma word_isb s p off k w : word_at s p off (S k) = Some w ->
  exists q N d, p = Some q /\ isb s q N d /\ 0 <= off /\ off + Z.of_nat (S k) <= N.
Proof.
  revert off w. induction k as [|k IH]; intros off w H.
  - cbn [word_at] in H. unfold byte_at in H. destruct (bytes_at s p) as [[[q N] d]|] eqn:E; [|discriminate].
    destruct (inb off N) eqn:Hi; [|discriminate]. unfold inb in Hi.
    apply bytes_at_inv in E as [-> E]. exists q, N, d. split; auto. split; auto. lia.
  - remember (S k) as k1. cbn [word_at] in H. unfold byte_at in H.
    destruct (bytes_at s p) as [[[q N] d]|] eqn:E; [|discriminate].
    destruct (inb off N) eqn:Hi; [|discriminate]. unfold inb in Hi.
    destruct (word_at s p (off + 1) k1) as [r|] eqn:Er; [|discriminate]. subst k1.
    destruct (IH _ _ Er) as (q1 & N1 & d1 & -> & I1 & H1 & H2).
    unfold isb in I1. rewrite E in I1. injection I1 as <- <- <-.
    exists q, N, d. split; auto. split; [apply bytes_at_inv in E; tauto|]. lia.
Qed.

Lemma matrix_arr s p es r c X : 0 < es -> 0 < r -> 0 < c -> matrix s p es r c X ->
  exists q, p = Some q /\ arr s q 0 es (r * c) (fun t => X (t / c) (t mod c)).
Proof.
  intros He Hr Hc H. pose proof (H (r - 1) (c - 1) ltac:(lia) ltac:(lia)) as L.
  replace (Z.to_nat es) with (S (Z.to_nat (es - 1))) in L by lia.
  apply word_isb in L as (q & N & d & -> & I & L1 & L2). exists q. split; auto.
  exists N, d. split; auto. split; [lia|]. split; auto. split; [nia|].
  intros t Ht. destruct (cell_split r c t Hc Ht) as (E & H1 & H2).
  specialize (H _ _ H1 H2). rewrite <- E in H. rewrite (word_at_isb s q N d) in H by (auto; nia).
  rewrite Z.add_0_l. now injection H.
Qed.

Lemma arr_matrix s q es r c X : arr s q 0 es (r * c) (fun t => X (t / c) (t mod c)) -> matrix s (Some q) es r c X.
Proof.
  intros A i j Hi Hj. pose proof (cell_range r c i j Hi Hj) as Hr.
  pose proof (arr_word _ _ _ _ _ _ _ A Hr) as H. cbv beta in H.
  rewrite cell_div, cell_mod, Z.add_0_l in H by lia. exact H.
Qed.

(** ** Running over the cells in order *)
Definition upto (t : Z) (h g : Z -> Z) : Z -> Z := fun r => if r <? t then h r else g r.

Lemma upto_le t h g r : t <= r -> upto t h g r = g r.
Proof. intros. unfold upto. now replace (r <? t) with false by lia. Qed.
Lemma upto_lt t h g r : r < t -> upto t h g r = h r.
Proof. intros. unfold upto. now replace (r <? t) with true by lia. Qed.

Lemma upto_step s q base es n t h g x : arr s q base es n (fupd (upto t h g) t x) -> x = h t ->
  arr s q base es n (upto (t + 1) h g).
Proof.
  intros A ->. eapply arr_ext; [|exact A]. intros i Hi. unfold fupd, upto.
  destruct (Z.eqb_spec i t) as [->|]; [now replace (t <? t + 1) with true by lia|].
  destruct (Z.ltb_spec i t), (Z.ltb_spec i (t + 1)); auto; lia.
Qed.

Lemma line_run e s q base es n g h body : 0 <= n -> arr s q base es n g ->
  (forall j s1, 0 <= j < n -> arr s1 q base es n (upto j h g) -> inside s q base (base + n * es) s1 ->
     exists s2, body j e s1 = Ret tt s2 /\ arr s2 q base es n (upto (j + 1) h g) /\ inside s1 q base (base + n * es) s2) ->
  exists s', for_ 0 n body e s = Ret tt s' /\ arr s' q base es n h /\ inside s q base (base + n * es) s'.
Proof.
  intros Hn A Hb.
  destruct (for_inv e 0 n body (fun j s1 => arr s1 q base es n (upto j h g) /\ inside s q base (base + n * es) s1) s)
    as (s' & E & A' & I'); [lia| | |].
  - split; [eapply arr_ext; [|exact A]; intros; now rewrite upto_le by lia|].
    destruct (arr_isb _ _ _ _ _ _ A) as (N & d & Hd). eapply inside_refl; eauto.
  - intros j s1 Hj [A1 I1]. destruct (Hb j s1 Hj A1 I1) as (s2 & E2 & A2 & I2). exists s2. split; auto. split; auto.
    eapply inside_trans; eauto.
  - exists s'. split; auto. split; auto. eapply arr_ext; [|exact A']. intros. now rewrite upto_lt by lia.
Qed.

Lemma grid_run e s q es m n g h body : 0 <= m -> 0 <= n -> arr s q 0 es (m * n) g ->
  (forall i j s1, 0 <= i < m -> 0 <= j < n -> arr s1 q 0 es (m * n) (upto (i * n + j) h g) ->
     inside s q 0 (m * n * es) s1 ->
     exists s2, body i j e s1 = Ret tt s2 /\ arr s2 q 0 es (m * n) (upto (i * n + j + 1) h g)
       /\ inside s1 q 0 (m * n * es) s2) ->
  exists s', for_ 0 m (fun i => for_ 0 n (body i)) e s = Ret tt s' /\ arr s' q 0 es (m * n) h
    /\ inside s q 0 (m * n * es) s'.
Proof.
  intros Hm Hn A Hb.
  destruct (for_inv e 0 m (fun i => for_ 0 n (body i))
    (fun i s1 => arr s1 q 0 es (m * n) (upto (i * n) h g) /\ inside s q 0 (m * n * es) s1) s)
    as (s' & E & A' & I'); [lia| | |].
  - split; [eapply arr_ext; [|exact A]; intros; now rewrite upto_le by lia|].
    destruct (arr_isb _ _ _ _ _ _ A) as (N & d & Hd). eapply inside_refl; eauto.
  - intros i s1 Hi [A1 I1].
    destruct (for_inv e 0 n (body i)
      (fun j s2 => arr s2 q 0 es (m * n) (upto (i * n + j) h g) /\ inside s q 0 (m * n * es) s2) s1)
      as (s2 & E2 & A2 & I2); [lia| | |].
    + split; auto. now rewrite Z.add_0_r.
    + intros j s2 Hj [A2 I2]. destruct (Hb i j s2 Hi Hj A2 I2) as (s3 & E3 & A3 & I3). exists s3. split; auto.
      rewrite Z.add_assoc. split; auto. eapply inside_trans; eauto.
    + exists s2. split; auto. split; auto. replace ((i + 1) * n) with (i * n + n) by lia. auto.
  - exists s'. split; auto. split; auto. eapply arr_ext; [|exact A']. intros. now rewrite upto_lt by lia.
Qed.

(** ** Writing every cell once, in any order *)
Lemma scatter_run e s q es N m n pos h body : 0 < es -> 0 <= m -> 0 <= n ->
  (exists g, arr s q 0 es N g) ->
  (forall i j, 0 <= i < m -> 0 <= j < n -> 0 <= pos i j < N) ->
  (forall i j i' j', 0 <= i < m -> 0 <= j < n -> 0 <= i' < m -> 0 <= j' < n -> pos i j = pos i' j' -> i = i' /\ j = j') ->
  (forall i j s1 g1, 0 <= i < m -> 0 <= j < n -> inside s q 0 (N * es) s1 -> arr s1 q 0 es N g1 ->
     exists s2, body i j e s1 = Ret tt s2 /\ arr s2 q 0 es N (fupd g1 (pos i j) (h i j))
       /\ inside s1 q 0 (N * es) s2) ->
  exists s' g', for_ 0 m (fun i => for_ 0 n (body i)) e s = Ret tt s' /\ arr s' q 0 es N g'
    /\ (forall i j, 0 <= i < m -> 0 <= j < n -> g' (pos i j) = h i j) /\ inside s q 0 (N * es) s'.
Proof.
  intros He Hm Hn [g A] Hp Hinj Hb.
  destruct (for_inv e 0 m (fun i => for_ 0 n (body i))
    (fun i s1 => exists g1, arr s1 q 0 es N g1 /\ inside s q 0 (N * es) s1
        /\ forall a b, 0 <= a < i -> 0 <= b < n -> g1 (pos a b) = h a b) s)
    as (s' & E & g1 & A' & I' & H'); [lia| | |].
  - exists g. split; auto. destruct (arr_isb _ _ _ _ _ _ A) as (N0 & d & Hd). split; [eapply inside_refl; eauto|].
    intros; lia.
  - intros i s1 Hi (g1 & A1 & I1 & H1).
    destruct (for_inv e 0 n (body i)
      (fun j s2 => exists g2, arr s2 q 0 es N g2 /\ inside s q 0 (N * es) s2
        /\ (forall a b, 0 <= a < i -> 0 <= b < n -> g2 (pos a b) = h a b)
        /\ (forall b, 0 <= b < j -> g2 (pos i b) = h i b)) s1)
      as (s2 & E2 & g2 & A2 & I2 & H2 & H3); [lia| | |].
    + exists g1. split; auto. split; auto. split; auto. intros; lia.
    + intros j s2 Hj (g2 & A2 & I2 & H2 & H3). destruct (Hb i j s2 g2 Hi Hj I2 A2) as (s3 & E3 & A3 & I3).
      exists s3. split; auto. eexists. split; [exact A3|]. split; [eapply inside_trans; eauto|]. unfold fupd. split.
      * intros a b Ha Hb'. destruct (Z.eqb_spec (pos a b) (pos i j)) as [Q|]; [|apply H2; auto].
        destruct (Hinj a b i j) as [-> ->]; auto; lia.
      * intros b Hb'. destruct (Z.eqb_spec (pos i b) (pos i j)) as [Q|].
        { destruct (Hinj i b i j) as [_ ->]; auto; lia. }
        apply H3. assert (b <> j) by (intros ->; auto). lia.
    + exists s2. split; auto. exists g2. split; auto. split; auto. intros a b Ha Hb'.
      destruct (Z.eq_dec a i) as [->|]; [apply H3; auto|apply H2; auto; lia].
  - exists s', g1. auto.
Qed.

Lemma inside_whole s q es m s' : inside s q 0 (0 + m * es) s' -> inside s q 0 (m * es) s'.
Proof. now rewrite Z.add_0_l. Qed.
