(** * Arrays of words updated in place. *)
From Verif Require Import Base Logic ModelFloat SpecBase SpecNum ProofCore ProofLayout ProofHM ProofWord.
From Coq Require Import ZifyBool ZifyNat Permutation.
Ltac Zify.zify_post_hook ::= Z.div_mod_to_equations.
Open Scope Z_scope.

Lemma loadle_ok e s q N d k : isb s q N d -> forall off, 0 <= off -> off + Z.of_nat k <= N ->
  loadle (Some q) off k e s = Ret (word d off k) s.
Proof.
  intros H. induction k as [|k IH]; intros off H0 H1; [reflexivity|]. cbn [loadle word].
  rewrite (bind_ret _ _ _ _ _ _ (load8_ok e s q N d off H ltac:(lia))).
  rewrite (bind_ret _ _ _ _ _ _ (IH (off + 1) ltac:(lia) ltac:(lia))). reflexivity.
Qed.

Lemma storele_ok e s q N d k v off : isb s q N d -> 0 <= off -> off + Z.of_nat k <= N ->
  exists d', storele (Some q) off k v e s = Ret tt (putd s q d')
    /\ word d' off k = v mod 256 ^ Z.of_nat k
    /\ forall p, ~ off <= p < off + Z.of_nat k -> d' p = d p.
Proof.
  intros H H0 H1.
  destruct (wr_run e s q N d (storele (Some q) off k v) (fun p => off <= p < off + Z.of_nat k)
              (fun p => byte_of v (p - off)) H) as (d' & E & A & B).
  { eapply wr_storele; eauto. intros t Ht. f_equal. lia. }
  exists d'. split; [exact E|]. split; [|exact B].
  apply word_bytes. intros t Ht. rewrite A by lia. f_equal. lia.
Qed.

(** The n words of es bytes from byte base on are g 0, g 1, ... *)
Definition arr (s : st) (q : nat) (base es n : Z) (g : Z -> Z) : Prop :=
  exists N d, isb s q N d /\ 0 <= base /\ 0 < es /\ base + n * es <= N
    /\ forall i, 0 <= i < n -> word d (base + i * es) (Z.to_nat es) = g i.

(** s' differs from s at most in bytes lo..hi-1 of q. *)
Definition inside (s : st) (q : nat) (lo hi : Z) (s' : st) : Prop :=
  exists N d d', isb s q N d /\ s' = putd s q d' /\ forall p, ~ lo <= p < hi -> d' p = d p.

Lemma inside_refl s q lo hi N d : isb s q N d -> inside s q lo hi s.
Proof. intros H. exists N, d, d. split; auto. split; auto. now rewrite (putd_id _ _ _ _ H). Qed.

Lemma inside_trans s q lo hi s1 s2 : inside s q lo hi s1 -> inside s1 q lo hi s2 -> inside s q lo hi s2.
Proof.
  intros (N & d & d1 & H & -> & A) (N2 & d2 & d3 & H2 & -> & B). exists N, d, d3.
  split; auto. rewrite putd_putd. split; auto. intros p Hp.
  pose proof (isb_putd_eq _ _ _ _ d1 H) as H1. unfold isb in H1, H2. rewrite H1 in H2. injection H2 as <- <-.
  rewrite B, A; auto.
Qed.

Lemma inside_weaken s q lo hi lo' hi' s' : lo' <= lo -> hi <= hi' -> inside s q lo hi s' -> inside s q lo' hi' s'.
Proof. intros H1 H2 (N & d & d' & H & -> & A). exists N, d, d'. split; auto. split; auto. intros p Hp. apply A. lia. Qed.

Lemma inside_isb s q lo hi s' : inside s q lo hi s' -> exists N d, isb s' q N d.
Proof. intros (N & d & d' & H & -> & A). exists N, d'. eapply isb_putd_eq; eauto. Qed.

Lemma inside_old s q lo hi s' p n f : inside s q lo hi s' -> p <> q -> isb s p n f -> isb s' p n f.
Proof. intros (N & d & d' & H & -> & A) Hp Hf. apply isb_putd_ne; auto. Qed.

Lemma inside_only s q lo hi s' : inside s q lo hi s' -> only_bytes s (Some q) lo hi s'.
Proof.
  intros (N & d & d' & H & -> & A). split; [reflexivity|]. split; [apply lupd_length|]. split; [|split].
  - intros k Hk Hn. apply objs_putd_ne. intros ->. apply Hn. now left.
  - intros n Hr. apply readable_isb in Hr as (q0 & sz & f & [= <-] & Hq & Hs).
    unfold isb in Hq, H. rewrite Hq in H. injection H as <- <-.
    eapply isb_readable; [eapply isb_putd_eq; eauto|auto].
  - intros i Hi. unfold byte_at. pose proof (isb_putd_eq _ _ _ _ d' H) as H'. unfold isb in H, H'.
    rewrite H, H'. now rewrite A.
Qed.

Lemma inside_heap_ok s q lo hi s' : inside s q lo hi s' -> heap_ok s -> heap_ok s'.
Proof.
  intros (N & d & d' & H & -> & A) Hs k o Ho. unfold putd in *; cbn [objs] in *.
  rewrite lupd_length. destruct (Nat.eq_dec q k) as [->|Hne].
  - rewrite lupd_nth_eq in Ho. apply isb_obj in H as (a & r & H). rewrite H in Ho. cbn in Ho. injection Ho as <-.
    cbn. apply (Hs _ _ H).
  - rewrite lupd_nth_ne in Ho by auto. apply (Hs _ _ Ho).
Qed.

Lemma arr_of s q N d base es n : isb s q N d -> 0 <= base -> 0 < es -> base + n * es <= N ->
  arr s q base es n (fun i => word d (base + i * es) (Z.to_nat es)).
Proof. intros. exists N, d. auto. Qed.

Lemma arr_ext s q base es n g g' : (forall i, 0 <= i < n -> g i = g' i) -> arr s q base es n g -> arr s q base es n g'.
Proof. intros H (N & d & H1 & H2 & H3 & H4 & H5). exists N, d. do 4 (split; auto). intros. rewrite <- H; auto. Qed.

Lemma arr_range s q base es n g i : arr s q base es n g -> 0 <= i < n -> 0 <= g i < 256 ^ es.
Proof.
  intros (N & d & H1 & H2 & H3 & H4 & H5) Hi. rewrite <- H5 by auto.
  pose proof (word_range d (Z.to_nat es) (base + i * es)) as H. now rewrite Z2Nat.id in H by lia.
Qed.

Lemma arr_sub s q base es n n' g : n' <= n -> arr s q base es n g -> arr s q base es n' g.
Proof. intros H (N & d & H1 & H2 & H3 & H4 & H5). exists N, d. do 3 (split; auto). split; [nia|]. intros. apply H5. lia. Qed.

Lemma arr_isb s q base es n g : arr s q base es n g -> exists N d, isb s q N d.
Proof. intros (N & d & H & _). eauto. Qed.

Lemma arr_load e s q base es n g i off k : arr s q base es n g -> 0 <= i < n ->
  off = base + i * es -> Z.of_nat k = es -> loadle (Some q) off k e s = Ret (g i) s.
Proof.
  intros (N & d & H1 & H2 & H3 & H4 & H5) Hi -> Hk.
  rewrite (loadle_ok e s q N d k H1) by nia. rewrite <- H5 by auto.
  now replace (Z.to_nat es) with k by lia.
Qed.

Lemma arr_store e s q base es n g i off k v : arr s q base es n g -> 0 <= i < n ->
  off = base + i * es -> Z.of_nat k = es ->
  exists s', storele (Some q) off k v e s = Ret tt s'
    /\ arr s' q base es n (fupd g i (v mod 256 ^ es)) /\ inside s q (base + i * es) (base + (i + 1) * es) s'.
Proof.
  intros (N & d & H1 & H2 & H3 & H4 & H5) Hi -> Hk.
  destruct (storele_ok e s q N d k v (base + i * es) H1) as (d' & E & A & B); [nia|nia|].
  exists (putd s q d'). split; [exact E|]. split.
  - exists N, d'. split; [eapply isb_putd_eq; eauto|]. do 3 (split; auto).
    intros j Hj. unfold fupd. destruct (Z.eqb_spec j i) as [->|Hne].
    + replace (Z.to_nat es) with k by lia. now rewrite A, Hk.
    + rewrite <- H5 by auto. apply word_ext. intros t Ht. rewrite B; auto. nia.
  - exists N, d, d'. split; auto. split; auto. intros p Hp. apply B. lia.
Qed.

Lemma arr_inside s q lo hi s' q' base es n g : inside s q lo hi s' -> arr s q' base es n g ->
  q' <> q \/ base + n * es <= lo \/ hi <= base -> arr s' q' base es n g.
Proof.
  intros (N & d & d' & H & -> & A) (N1 & d1 & H1 & H2 & H3 & H4 & H5) Hd.
  destruct (Nat.eq_dec q' q) as [->|Hne].
  - unfold isb in H, H1. rewrite H in H1. injection H1 as <- <-. fold (isb s q N d) in H.
    exists N, d'. split; [eapply isb_putd_eq; eauto|]. do 3 (split; auto).
    intros i Hi. rewrite <- H5 by auto. apply word_ext. intros t Ht. rewrite A; auto.
    intros Hp. destruct Hd as [Hd|Hd]; [congruence|nia].
  - exists N1, d1. split; [apply isb_putd_ne; auto|]. auto.
Qed.

Lemma arr_word s q base es n g i : arr s q base es n g -> 0 <= i < n ->
  word_at s (Some q) (base + i * es) (Z.to_nat es) = Some (g i).
Proof.
  intros (N & d & H1 & H2 & H3 & H4 & H5) Hi.
  rewrite (word_at_isb s q N d) by (auto; rewrite ?Z2Nat.id by lia; nia). now rewrite H5.
Qed.

(** ** The elements as a list *)
Definition tab (n : Z) (g : Z -> Z) : list Z := map (fun i => g (Z.of_nat i)) (seq 0 (Z.to_nat n)).

Lemma arr_elements s q es n g : arr s q 0 es n g -> elements s (Some q) es n = map Some (tab n g).
Proof.
  intros H. unfold elements, tab. rewrite map_map. apply map_ext_in. intros i Hi. apply in_seq in Hi.
  pose proof (arr_word s q 0 es n g (Z.of_nat i) H ltac:(lia)) as E. now rewrite Z.add_0_l in E.
Qed.

Lemma in_tab n g x : In x (tab n g) <-> exists i, 0 <= i < n /\ g i = x.
Proof.
  unfold tab. rewrite in_map_iff. split.
  - intros (i & E & Hi). apply in_seq in Hi. exists (Z.of_nat i). split; [lia|auto].
  - intros (i & Hi & E). exists (Z.to_nat i). rewrite Z2Nat.id by lia. split; auto. apply in_seq. lia.
Qed.

Lemma map_fupd_out g i v (l : list nat) : ~ In (Z.to_nat i) l -> 0 <= i ->
  map (fun k => fupd g i v (Z.of_nat k)) l = map (fun k => g (Z.of_nat k)) l.
Proof.
  intros H Hi. apply map_ext_in. intros k Hk. unfold fupd. destruct (Z.eqb_spec (Z.of_nat k) i) as [E|]; auto.
  destruct H. replace (Z.to_nat i) with k by lia. auto.
Qed.

(** Exchanging two neighbours permutes the elements. *)
Lemma tab_swap n g j : 0 <= j -> j + 1 < n ->
  Permutation (tab n g) (tab n (fupd (fupd g j (g (j + 1))) (j + 1) (g j))).
Proof.
  intros Hj Hn. unfold tab.
  replace (Z.to_nat n) with (Z.to_nat j + (2 + Z.to_nat (n - j - 2)))%nat by lia.
  rewrite !seq_app, !map_app. cbn [Nat.add].
  rewrite !map_fupd_out by (rewrite ?in_seq; lia).
  apply Permutation_app_head.
  change (seq (Z.to_nat j) 2) with [Z.to_nat j; S (Z.to_nat j)]. cbn [map app].
  rewrite !map_fupd_out by (rewrite ?in_seq; lia).
  unfold fupd. rewrite Nat2Z.inj_succ, Z2Nat.id by lia.
  replace (Z.succ j =? j + 1) with true by lia. replace (j =? j + 1) with false by lia. rewrite Z.eqb_refl.
  replace (Z.succ j) with (j + 1) by lia. apply perm_swap.
Qed.
