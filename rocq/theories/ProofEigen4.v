(** * Proofs: the eigenvector code computes the algorithm in floats. *)
From Verif Require Import Base Logic ModelFloat ModelDouble ModelMatrix ModelEigen SpecBase SpecNum SpecMatrix SpecStat SpecSpectral SpecEigen SpecCxx
  ProofCore ProofHM ProofCopy ProofFloat ProofFloat2 ProofWord ProofArr ProofGrid ProofMatrix ProofInvert ProofStat ProofFold ProofValid ProofFilter ProofEigen.
From Coq Require Import Lia ZifyBool ZifyNat Floats.SpecFloat.
Open Scope Z_scope.

Notation FE := float_earith.
Definition upd2 (d : Z -> Z -> sf) (i j : Z) (x : sf) : Z -> Z -> sf := fun r c => if (r =? i) && (c =? j) then x else d r c.

Definition shape (o : obj) := (o_addr o, o_size o, o_root o, o_live o).
Definition same_shape (s s' : st) : Prop := List.length (objs s') = List.length (objs s) /\
  forall k, option_map shape (nth_error (objs s') k) = option_map shape (nth_error (objs s) k).
Lemma inside_shape s q lo hi s' : inside s q lo hi s' -> same_shape s s'.
Proof.
  intros (N & d & d' & _ & -> & _). unfold putd, same_shape; cbn [objs]. split; [apply lupd_length|]. intros k.
  destruct (Nat.eq_dec q k) as [<-|H]; [rewrite lupd_nth_eq|now rewrite lupd_nth_ne]. destruct (nth_error (objs s) q) as [[]|]; reflexivity.
Qed.
Lemma shape_trans s s1 s2 : same_shape s s1 -> same_shape s1 s2 -> same_shape s s2.
Proof. intros [A B] [A' B']. split; [congruence|]. intros k. now rewrite B'. Qed.

Lemma fl_opp_ok x : fl_ok x -> fl_ok (SFopp x).
Proof. destruct x; auto. Qed.
Lemma root_ok x : fl_ok x -> fl_ok (fl_of_db (db_sqrt (db_of_fl x))).
Proof. intros. now apply fl_of_db_valid, db_sqrt_ok, db_of_fl_ok. Qed.
Lemma e_back_done m (d : Z -> Z -> sf) : forall k, forall r, m - 1 - Z.of_nat k <= r -> e_back FE m (S k) d r = e_back FE m k d r.
Proof. intros k r Hr. cbn [e_back]. now replace (r =? m - 2 - Z.of_nat k) with false by lia. Qed.

Section Eig.
  Variables (e : env) (m : Z).
  Hypotheses (Hm : 0 < m) (B : m * m <= 2147483647).
  Notation N := (m * m).

  (** An m x m matrix of floats in memory. *)
  Definition h2 (s : st) (p : nat) (d : Z -> Z -> sf) : Prop :=
    exists g, arr s p 0 4 N g /\ forall i j, 0 <= i < m -> 0 <= j < m -> fl_of_bits (g (i * m + j)) = d i j.

  Lemma h2_ok s p d i j : h2 s p d -> 0 <= i < m -> 0 <= j < m -> fl_ok (d i j).
  Proof.
    intros (g & A & H) Hi Hj. rewrite <- H by auto. apply fl_of_bits_ok. exact (arr_range _ _ _ _ _ _ _ A (cell_range m m i j Hi Hj)).
  Qed.
  Lemma h2_load s p d i j : h2 s p d -> 0 <= i < m -> 0 <= j < m -> loadf (Some p) (i * m + j) e s = Ret (d i j) s.
  Proof. intros (g & A & H) Hi Hj. rewrite (loadf_arr e s p N g _ A (cell_range m m i j Hi Hj)), H by auto. reflexivity. Qed.
  Lemma h2_store s p d i j x : h2 s p d -> 0 <= i < m -> 0 <= j < m -> fl_ok x ->
    exists s', storef (Some p) (i * m + j) x e s = Ret tt s' /\ h2 s' p (upd2 d i j x) /\ inside s p 0 (N * 4) s'.
  Proof.
    intros (g & A & H) Hi Hj Vx. destruct (storef_arr e s p N g (i * m + j) x A (cell_range m m i j Hi Hj)) as (s' & E & A' & I).
    exists s'. split; [exact E|]. split; [|exact I]. eexists. split; [exact A'|]. intros r c Hr Hc. unfold fupd, upd2.
    destruct (Z.eqb_spec (r * m + c) (i * m + j)) as [Q|Q].
    - assert (X : (r * m + c) / m = (i * m + j) / m) by congruence. rewrite !cell_div in X by lia. subst r. assert (c = j) by lia. subst c.
      rewrite !Z.eqb_refl. now apply fl_word_back.
    - replace ((r =? i) && (c =? j)) with false; [now apply H|]. symmetry. apply andb_false_iff.
      destruct (Z.eqb_spec r i) as [->|]; auto. right. apply Z.eqb_neq. intros ->. auto.
  Qed.
  Lemma h2_ext s p d d' : (forall i j, 0 <= i < m -> 0 <= j < m -> d i j = d' i j) -> h2 s p d -> h2 s p d'.
  Proof. intros X (g & A & H). exists g. split; auto. intros. rewrite H, X; auto. Qed.
  Lemma h2_inside s q s' p d : inside s q 0 (N * 4) s' -> p <> q -> h2 s p d -> h2 s' p d.
  Proof. intros I Hp (g & A & H). exists g. split; auto. eapply arr_inside; eauto. Qed.

  Variables (pa pv pl tm : nat).
  Hypothesis D : pa <> pv /\ pl <> pv /\ pa <> tm /\ pv <> tm /\ pl <> tm.
  Variables (a : Z -> Z -> sf) (lam : Z -> sf).

  Definition q4 (s : st) (d v : Z -> Z -> sf) : Prop :=
    heap_ok s /\ h2 s pa a /\ (exists g, arr s pl 0 4 m g /\ forall i, 0 <= i < m -> fl_of_bits (g i) = lam i) /\ h2 s tm d /\ h2 s pv v.
  Definition go (s s' : st) : Prop := keeps s [pv; tm] (N * 4) s' /\ same_shape s s'.
  Lemma go_refl s : go s s. Proof. split; [apply keeps_refl|]. split; auto. Qed.
  Lemma go_trans s s1 s2 : go s s1 -> go s1 s2 -> go s s2.
  Proof. intros [] []. split; [eapply keeps_trans; eauto|eapply shape_trans; eauto]. Qed.

  Lemma q4_ext s d v d' v' : q4 s d v -> (forall i j, 0 <= i < m -> 0 <= j < m -> d i j = d' i j) -> (forall i j, 0 <= i < m -> 0 <= j < m -> v i j = v' i j) -> q4 s d' v'.
  Proof. intros (H1 & H2 & H3 & H4 & H5) X Y. split; auto. split; auto. split; auto. split; eapply h2_ext; eauto. Qed.

  Lemma q4_t s d v i j x : q4 s d v -> 0 <= i < m -> 0 <= j < m -> fl_ok x ->
    exists s', storef (Some tm) (i * m + j) x e s = Ret tt s' /\ q4 s' (upd2 d i j x) v /\ go s s'.
  Proof.
    intros (H1 & H2 & (g & H3 & L) & H4 & H5) Hi Hj Vx. destruct (h2_store s tm d i j x H4 Hi Hj Vx) as (s' & E & A & I). decompose [and] D.
    exists s'. split; [exact E|]. split; [|split; [eapply inside_keeps; eauto; [lia|lia|cbn; auto]|eapply inside_shape; eauto]].
    split; [eapply inside_heap_ok; eauto|]. split; [eapply h2_inside; eauto|]. split; [exists g; split; auto; eapply arr_inside; eauto|]. split; [exact A|eapply h2_inside; eauto].
  Qed.
  Lemma q4_v s d v i j x : q4 s d v -> 0 <= i < m -> 0 <= j < m -> fl_ok x ->
    exists s', storef (Some pv) (i * m + j) x e s = Ret tt s' /\ q4 s' d (upd2 v i j x) /\ go s s'.
  Proof.
    intros (H1 & H2 & (g & H3 & L) & H4 & H5) Hi Hj Vx. destruct (h2_store s pv v i j x H5 Hi Hj Vx) as (s' & E & A & I). decompose [and] D.
    exists s'. split; [exact E|]. split; [|split; [eapply inside_keeps; eauto; [lia|lia|cbn; auto]|eapply inside_shape; eauto]].
    split; [eapply inside_heap_ok; eauto|]. split; [eapply h2_inside; eauto|]. split; [exists g; split; auto; eapply arr_inside; eauto|]. split; [eapply h2_inside; eauto|exact A].
  Qed.
  Lemma q4_tl s d v i j : q4 s d v -> 0 <= i < m -> 0 <= j < m -> loadf (Some tm) (i * m + j) e s = Ret (d i j) s.
  Proof. intros (_ & _ & _ & H & _). now apply h2_load. Qed.
  Lemma q4_vl s d v i j : q4 s d v -> 0 <= i < m -> 0 <= j < m -> loadf (Some pv) (i * m + j) e s = Ret (v i j) s.
  Proof. intros (_ & _ & _ & _ & H). now apply h2_load. Qed.
  Lemma q4_tok s d v i j : q4 s d v -> 0 <= i < m -> 0 <= j < m -> fl_ok (d i j).
  Proof. intros (_ & _ & _ & H & _). now apply (h2_ok s tm). Qed.
  Lemma q4_vok s d v i j : q4 s d v -> 0 <= i < m -> 0 <= j < m -> fl_ok (v i j).
  Proof. intros (_ & _ & _ & _ & H). now apply (h2_ok s pv). Qed.
  Lemma cell i j s : 0 <= i < m -> 0 <= j < m -> ev (i * m + j)%C e s = Ret (i * m + j) s.
  Proof. intros. now apply (ev_cell e s m m). Qed.

  (** ** The loops *)
  Lemma shift_run s v x : q4 s a v -> fl_ok x ->
    exists s', for_ 0 m (fun i => d <- ev (i * m + i)%C ;; y <- loadf (Some tm) d ;; storef (Some tm) d (fl_sub y x)) e s = Ret tt s'
      /\ q4 s' (e_shift FE a x) v /\ go s s'.
  Proof.
    intros Q Vx.
    match goal with |- context [for_ 0 m ?body] => destruct (for_inv e 0 m body
      (fun i s1 => q4 s1 (fun r c => if (r =? c) && (r <? i) then fl_sub (a r c) x else a r c) v /\ go s s1) s) as (s' & E & Q' & G); [lia| | |] end.
    - split; [|apply go_refl]. refine (q4_ext _ _ _ _ _ Q _ _); auto. intros i j Hi Hj. now replace (i <? 0) with false by lia; rewrite andb_false_r.
    - intros i s1 Hi [Q1 G1]. rewrite (bind_ret _ _ _ _ _ _ (cell i i s1 Hi Hi)). rewrite (bind_ret _ _ _ _ _ _ (q4_tl _ _ _ i i Q1 Hi Hi)). cbv beta.
      rewrite Z.ltb_irrefl, andb_false_r.
      assert (Va : fl_ok (a i i)) by (pose proof (q4_tok _ _ _ i i Q Hi Hi); auto).
      destruct (q4_t _ _ _ i i (fl_sub (a i i) x) Q1 Hi Hi (fl_sub_ok _ _ Va Vx)) as (s2 & E2 & Q2 & G2). exists s2. split; [exact E2|]. split; [|eapply go_trans; eauto].
      refine (q4_ext _ _ _ _ _ Q2 _ _); auto. intros r c Hr Hc. unfold upd2. destruct (Z.eqb_spec r i) as [->|]; cbn [andb].
      + destruct (Z.eqb_spec c i) as [->|]; [now replace ((i =? i) && (i <? i + 1)) with true by lia|]. now replace (i =? c) with false by lia.
      + now replace (r <? i + 1) with (r <? i) by lia.
    - exists s'. split; [exact E|]. split; [|exact G]. refine (q4_ext _ _ _ _ _ Q' _ _); auto. intros r c Hr Hc. unfold e_shift.
      replace (r <? m) with true by lia. rewrite andb_true_r. reflexivity.
  Qed.

  Lemma divide_run s d v i : q4 s d v -> 0 <= i < m ->
    exists s', for_ 1 m (fun j => k <- ev (i * m + j)%C ;; x <- loadf (Some tm) k ;; storef (Some tm) k (fl_div x (d i i))) e s = Ret tt s'
      /\ q4 s' (e_divide FE i d) v /\ go s s'.
  Proof.
    intros Q Hi. pose proof (q4_tok _ _ _ i i Q Hi Hi) as Vx.
    match goal with |- context [for_ 1 m ?body] => destruct (for_inv e 1 m body
      (fun j s1 => q4 s1 (fun r c => if (r =? i) && (1 <=? c) && (c <? j) then fl_div (d r c) (d i i) else d r c) v /\ go s s1) s) as (s' & E & Q' & G); [lia| | |] end.
    - split; [|apply go_refl]. refine (q4_ext _ _ _ _ _ Q _ _); auto. intros r c Hr Hc. now replace ((r =? i) && (1 <=? c) && (c <? 1)) with false by lia.
    - intros j s1 Hj [Q1 G1]. assert (Hj' : 0 <= j < m) by lia.
      rewrite (bind_ret _ _ _ _ _ _ (cell i j s1 Hi Hj')). rewrite (bind_ret _ _ _ _ _ _ (q4_tl _ _ _ i j Q1 Hi Hj')). cbv beta.
      rewrite Z.ltb_irrefl, andb_false_r.
      destruct (q4_t _ _ _ i j (fl_div (d i j) (d i i)) Q1 Hi Hj' (fl_div_ok _ _ (q4_tok _ _ _ i j Q Hi Hj') Vx)) as (s2 & E2 & Q2 & G2). exists s2. split; [exact E2|]. split; [|eapply go_trans; eauto].
      refine (q4_ext _ _ _ _ _ Q2 _ _); auto. intros r c Hr Hc. unfold upd2. destruct (Z.eqb_spec r i) as [->|]; cbn [andb]; [|reflexivity].
      destruct (Z.eqb_spec c j) as [->|]; [now replace ((1 <=? j) && (j <? j + 1)) with true by lia|]. now replace (c <? j + 1) with (c <? j) by lia.
    - exists s'. split; [exact E|]. split; [|exact G]. refine (q4_ext _ _ _ _ _ Q' _ _); auto. intros r c Hr Hc. unfold e_divide.
      replace (c <? m) with true by lia. rewrite andb_true_r. reflexivity.
  Qed.

  Lemma clear_row_run s d v i r : q4 s d v -> 0 <= i < m -> i < r < m ->
    exists s', for_ i m (fun j1 => k1 <- ev (r * m + j1)%C ;; k2 <- ev (i * m + j1)%C ;; x <- loadf (Some tm) k1 ;; y <- loadf (Some tm) k2 ;;
        storef (Some tm) k1 (fl_sub x (fl_mul (d r i) y))) e s = Ret tt s'
      /\ q4 s' (fun r' c => if (r' =? r) && (i <=? c) then fl_sub (d r c) (fl_mul (d r i) (d i c)) else d r' c) v /\ go s s'.
  Proof.
    intros Q Hi Hr. assert (Hr' : 0 <= r < m) by lia.
    match goal with |- context [for_ i m ?body] => destruct (for_inv e i m body
      (fun j s1 => q4 s1 (fun r' c => if (r' =? r) && (i <=? c) && (c <? j) then fl_sub (d r c) (fl_mul (d r i) (d i c)) else d r' c) v /\ go s s1) s) as (s' & E & Q' & G); [lia| | |] end.
    - split; [|apply go_refl]. refine (q4_ext _ _ _ _ _ Q _ _); auto. intros r' c Hr0 Hc. now replace ((r' =? r) && (i <=? c) && (c <? i)) with false by lia.
    - intros j s1 Hj [Q1 G1]. assert (Hj' : 0 <= j < m) by lia.
      rewrite (bind_ret _ _ _ _ _ _ (cell r j s1 Hr' Hj')). rewrite (bind_ret _ _ _ _ _ _ (cell i j s1 Hi Hj')).
      rewrite (bind_ret _ _ _ _ _ _ (q4_tl _ _ _ r j Q1 Hr' Hj')). rewrite (bind_ret _ _ _ _ _ _ (q4_tl _ _ _ i j Q1 Hi Hj')). cbv beta.
      rewrite Z.ltb_irrefl, !andb_false_r.
      assert (Vn : fl_ok (fl_sub (d r j) (fl_mul (d r i) (d i j)))).
      { apply fl_sub_ok; [apply (q4_tok _ _ _ r j Q); auto|]. apply fl_mul_ok; [apply (q4_tok _ _ _ r i Q); auto|apply (q4_tok _ _ _ i j Q); auto]. }
      destruct (q4_t _ _ _ r j _ Q1 Hr' Hj' Vn) as (s2 & E2 & Q2 & G2). exists s2. split; [exact E2|]. split; [|eapply go_trans; eauto].
      refine (q4_ext _ _ _ _ _ Q2 _ _); auto. intros r' c Hr0 Hc. unfold upd2. destruct (Z.eqb_spec r' r) as [->|]; cbn [andb]; [|reflexivity].
      destruct (Z.eqb_spec c j) as [->|]; [now replace ((i <=? j) && (j <? j + 1)) with true by lia|]. now replace (c <? j + 1) with (c <? j) by lia.
    - exists s'. split; [exact E|]. split; [|exact G]. refine (q4_ext _ _ _ _ _ Q' _ _); auto. intros r' c Hr0 Hc.
      replace (c <? m) with true by lia. rewrite andb_true_r. reflexivity.
  Qed.

  Lemma clear_run s d v i : q4 s d v -> 0 <= i < m ->
    exists s', for_ (i + 1) m (fun i1 => k <- ev (i1 * m + i)%C ;; coe <- loadf (Some tm) k ;;
        for_ i m (fun j1 => k1 <- ev (i1 * m + j1)%C ;; k2 <- ev (i * m + j1)%C ;; x <- loadf (Some tm) k1 ;; y <- loadf (Some tm) k2 ;;
          storef (Some tm) k1 (fl_sub x (fl_mul coe y)))) e s = Ret tt s'
      /\ q4 s' (e_clear FE i d) v /\ go s s'.
  Proof.
    intros Q Hi.
    match goal with |- context [for_ (i + 1) m ?body] => destruct (for_inv e (i + 1) m body
      (fun r s1 => q4 s1 (fun r' c => if (i <? r') && (r' <? r) && (i <=? c) then fl_sub (d r' c) (fl_mul (d r' i) (d i c)) else d r' c) v /\ go s s1) s) as (s' & E & Q' & G); [lia| | |] end.
    - split; [|apply go_refl]. refine (q4_ext _ _ _ _ _ Q _ _); auto. intros r' c Hr0 Hc. now replace ((i <? r') && (r' <? i + 1) && (i <=? c)) with false by lia.
    - intros r s1 Hr [Q1 G1]. assert (Hr' : 0 <= r < m) by lia.
      rewrite (bind_ret _ _ _ _ _ _ (cell r i s1 Hr' Hi)). rewrite (bind_ret _ _ _ _ _ _ (q4_tl _ _ _ r i Q1 Hr' Hi)).
      destruct (clear_row_run s1 _ v i r Q1 Hi ltac:(lia)) as (s2 & E2 & Q2 & G2). exists s2. split; [exact E2|]. split; [|eapply go_trans; eauto].
      refine (q4_ext _ _ _ _ _ Q2 _ _); auto. intros r' c Hr0 Hc. cbv beta.
      replace ((i <? r) && (r <? r) && (i <=? c)) with false by lia. replace ((i <? r) && (r <? r) && (i <=? i)) with false by lia. replace ((i <? i) && (i <? r) && (i <=? c)) with false by lia.
      destruct (Z.eqb_spec r' r) as [->|].
      + replace ((i <? r) && (r <? r + 1)) with true by lia. cbn [andb]. destruct (Z.leb_spec i c); [reflexivity|]. now replace ((i <? r) && (r <? r) && false) with false by lia.
      + now replace (r' <? r + 1) with (r' <? r) by lia.
    - exists s'. split; [exact E|]. split; [|exact G]. refine (q4_ext _ _ _ _ _ Q' _ _); auto. intros r c Hr0 Hc. unfold e_clear.
      replace (r <? m) with true by lia. rewrite andb_true_r. reflexivity.
  Qed.

  Lemma elim_run s d v : q4 s d v ->
    exists s', for_ 0 (m - 1) (fun i =>
      d <- ev (i * m + i)%C ;;
      coe <- loadf (Some tm) d ;;
      for_ 1 m (fun j =>
        k <- ev (i * m + j)%C ;;
        x <- loadf (Some tm) k ;;
        storef (Some tm) k (fl_div x coe)) ;;;
      for_ (i + 1) m (fun i1 =>
        k <- ev (i1 * m + i)%C ;;
        coe <- loadf (Some tm) k ;;
        for_ i m (fun j1 =>
          k1 <- ev (i1 * m + j1)%C ;;
          k2 <- ev (i * m + j1)%C ;;
          x <- loadf (Some tm) k1 ;;
          y <- loadf (Some tm) k2 ;;
          storef (Some tm) k1 (fl_sub x (fl_mul coe y))))) e s = Ret tt s'
      /\ q4 s' (e_elim FE (Z.to_nat (m - 1)) d) v /\ go s s'.
  Proof.
    intros Q.
    match goal with |- context [for_ 0 (m - 1) ?body] => destruct (for_inv e 0 (m - 1) body
      (fun i s1 => q4 s1 (e_elim FE (Z.to_nat i) d) v /\ go s s1) s) as (s' & E & Q' & G); [lia| | |eauto] end.
    - split; [exact Q|apply go_refl].
    - intros i s1 Hi [Q1 G1]. assert (Hi' : 0 <= i < m) by lia. rewrite (bind_ret _ _ _ _ _ _ (cell i i s1 Hi' Hi')).
      rewrite (bind_ret _ _ _ _ _ _ (q4_tl _ _ _ i i Q1 Hi' Hi')).
      destruct (divide_run s1 _ v i Q1 Hi') as (s2 & E2 & Q2 & G2). rewrite (bind_ret _ _ _ _ _ _ E2).
      destruct (clear_run s2 _ v i Q2 Hi') as (s3 & E3 & Q3 & G3). exists s3. split; [exact E3|].
      split; [|eapply go_trans; [exact G1|]; eapply go_trans; eauto].
      replace (Z.to_nat (i + 1)) with (S (Z.to_nat i)) by lia. cbn [e_elim]. rewrite Z2Nat.id by lia. exact Q3.
  Qed.

  Lemma row_run s d v w i cnt n : q4 s d v -> 0 <= i < m -> 0 <= cnt < m -> i + 1 + Z.of_nat n <= m ->
    (forall r, i < r < m -> v r cnt = w r) ->
    forS (i + 1) (i + 1 + Z.of_nat n) (fun j2 sum2 =>
        k <- ev (i * m + j2)%C ;;
        k2 <- ev (j2 * m + cnt)%C ;;
        x <- loadf (Some tm) k ;;
        y <- loadf (Some pv) k2 ;;
        ret (fl_add sum2 (fl_mul x y))) (fl_of_Z 0) e s = Ret (e_row FE n d w i (i + 1)) s.
  Proof.
    intros Q Hi Hc Hn Hw.
    match goal with |- forS _ _ ?b _ _ _ = _ => destruct (forS_inv e (i + 1) (i + 1 + Z.of_nat n) b
      (fun j y s1 => s1 = s /\ y = e_row FE (Z.to_nat (j - (i + 1))) d w i (i + 1)) s (fl_of_Z 0)) as (y & s' & E & -> & ->); [lia| | |] end.
    - split; auto. now rewrite Z.sub_diag.
    - intros j y s1 Hj [-> ->]. assert (Hj' : 0 <= j < m) by lia.
      rewrite (bind_ret _ _ _ _ _ _ (cell i j s Hi Hj')). rewrite (bind_ret _ _ _ _ _ _ (cell j cnt s Hj' Hc)).
      rewrite (bind_ret _ _ _ _ _ _ (q4_tl _ _ _ i j Q Hi Hj')). rewrite (bind_ret _ _ _ _ _ _ (q4_vl _ _ _ j cnt Q Hj' Hc)).
      eexists _, s. split; [reflexivity|]. split; [reflexivity|].
      replace (Z.to_nat (j + 1 - (i + 1))) with (S (Z.to_nat (j - (i + 1)))) by lia. cbn [e_row].
      replace (i + 1 + Z.of_nat (Z.to_nat (j - (i + 1)))) with j by lia. rewrite Hw by lia. reflexivity.
    - rewrite E. do 2 f_equal. lia.
  Qed.

  (** Column cnt of v from row lo on is w. *)
  Definition col (v : Z -> Z -> sf) (cnt lo : Z) (w : Z -> sf) : Z -> Z -> sf := fun r c => if (c =? cnt) && (lo <=? r) then w r else v r c.

  Lemma back_run s d v cnt : 0 <= cnt < m -> q4 s d (col v cnt (m - 1) (fun _ => fl_of_Z 1)) ->
    exists s', forS 0 (m - 1) (fun t sum1 =>
      let i2 := m - 2 - t in
      sum2 <- forS (i2 + 1) m (fun j2 sum2 =>
        k <- ev (i2 * m + j2)%C ;;
        k2 <- ev (j2 * m + cnt)%C ;;
        x <- loadf (Some tm) k ;;
        y <- loadf (Some pv) k2 ;;
        ret (fl_add sum2 (fl_mul x y))) (fl_of_Z 0) ;;
      d <- ev (i2 * m + i2)%C ;;
      x <- loadf (Some tm) d ;;
      let sum2 := fl_div (SFopp sum2) x in
      k <- ev (i2 * m + cnt)%C ;;
      storef (Some pv) k sum2 ;;;
      ret (fl_add sum1 (fl_mul sum2 sum2))) (fl_of_Z 1) e s = Ret (e_squares FE m (Z.to_nat (m - 1)) d) s'
      /\ q4 s' d (col v cnt 0 (e_back FE m (Z.to_nat (m - 1)) d)) /\ go s s' /\ fl_ok (e_squares FE m (Z.to_nat (m - 1)) d).
  Proof.
    intros Hc Q.
    match goal with |- context [forS 0 (m - 1) ?b] => destruct (forS_inv e 0 (m - 1) b
      (fun t y s1 => y = e_squares FE m (Z.to_nat t) d /\ q4 s1 d (col v cnt (m - 1 - t) (e_back FE m (Z.to_nat t) d)) /\ go s s1 /\ fl_ok y) s (fl_of_Z 1)) as (y & s' & E & -> & Q' & G & V); [lia| | |] end.
    - split; [reflexivity|]. split; [|split; [apply go_refl|apply fl_of_Z_valid]]. rewrite Z.sub_0_r. exact Q.
    - intros t y s1 Ht (-> & Q1 & G1 & V1). cbv zeta. set (i2 := m - 2 - t). assert (Hi : 0 <= i2 < m) by lia.
      pose proof (row_run s1 d _ (e_back FE m (Z.to_nat t) d) i2 cnt (S (Z.to_nat t)) Q1 Hi Hc ltac:(lia)) as R.
      replace (i2 + 1 + Z.of_nat (S (Z.to_nat t))) with m in R by lia. rewrite (bind_ret _ _ _ _ _ _ (R ltac:(intros r Hr; unfold col; now replace ((cnt =? cnt) && (m - 1 - t <=? r)) with true by lia))). clear R.
      rewrite (bind_ret _ _ _ _ _ _ (cell i2 i2 s1 Hi Hi)). rewrite (bind_ret _ _ _ _ _ _ (q4_tl _ _ _ i2 i2 Q1 Hi Hi)). rewrite (bind_ret _ _ _ _ _ _ (cell i2 cnt s1 Hi Hc)).
      set (x := fl_div (SFopp (e_row FE (S (Z.to_nat t)) d (e_back FE m (Z.to_nat t) d) i2 (i2 + 1))) (d i2 i2)).
      assert (EX : e_back FE m (S (Z.to_nat t)) d i2 = x).
      { cbn [e_back]. rewrite Z2Nat.id by lia. fold i2. rewrite Z.eqb_refl. reflexivity. }
      assert (Vr : forall n, (n <= S (Z.to_nat t))%nat -> fl_ok (e_row FE n d (e_back FE m (Z.to_nat t) d) i2 (i2 + 1))).
      { induction n as [|n IH]; intros Hn; cbn [e_row]; [apply fl_of_Z_valid|]. apply fl_add_ok; [apply IH; lia|].
        apply fl_mul_ok; [apply (q4_tok _ _ _ i2 (i2 + 1 + Z.of_nat n) Q1); lia|].
        pose proof (q4_vok _ _ _ (i2 + 1 + Z.of_nat n) cnt Q1 ltac:(lia) Hc) as V. unfold col in V. replace ((cnt =? cnt) && (m - 1 - t <=? i2 + 1 + Z.of_nat n)) with true in V by lia. exact V. }
      assert (Vx : fl_ok x) by (apply fl_div_ok; [apply fl_opp_ok, Vr; lia|apply (q4_tok _ _ _ i2 i2 Q1); lia]).
      destruct (q4_v _ _ _ i2 cnt x Q1 Hi Hc Vx) as (s2 & E2 & Q2 & G2). rewrite (bind_ret _ _ _ _ _ _ E2).
      eexists _, s2. split; [reflexivity|]. replace (Z.to_nat (t + 1)) with (S (Z.to_nat t)) by lia. split.
      { cbn [e_squares]. rewrite Z2Nat.id by lia. fold i2. rewrite EX. reflexivity. }
      split; [|split; [eapply go_trans; eauto|apply fl_add_ok; auto; apply fl_mul_ok; auto]].
      refine (q4_ext _ _ _ _ _ Q2 _ _); auto. intros r c Hr Hc'. unfold upd2, col.
      destruct (Z.eqb_spec c cnt) as [->|]; cbn [andb]; [|rewrite andb_false_r; reflexivity]. rewrite andb_true_r.
      destruct (Z.eqb_spec r i2) as [->|Hne]; [replace (m - 1 - (t + 1) <=? i2) with true by lia; now rewrite EX|].
      replace (m - 1 - (t + 1) <=? r) with (m - 1 - t <=? r) by lia. destruct (Z.leb_spec (m - 1 - t) r); [|reflexivity]. symmetry. apply e_back_done. lia.
    - exists s'. split; [exact E|]. split; [|auto]. replace (m - 1 - (m - 1)) with 0 in Q' by lia. exact Q'.
  Qed.

  Lemma scale_run s d v cnt w x : 0 <= cnt < m -> q4 s d (col v cnt 0 w) -> fl_ok x ->
    exists s', for_ 0 m (fun i =>
      k <- ev (i * m + cnt)%C ;;
      x0 <- loadf (Some pv) k ;;
      storef (Some pv) k (fl_div x0 x)) e s = Ret tt s'
      /\ q4 s' d (col v cnt 0 (fun r => fl_div (w r) x)) /\ go s s'.
  Proof.
    intros Hc Q Vx.
    match goal with |- context [for_ 0 m ?body] => destruct (for_inv e 0 m body
      (fun i s1 => q4 s1 d (col v cnt 0 (fun r => if r <? i then fl_div (w r) x else w r)) /\ go s s1) s) as (s' & E & Q' & G); [lia| | |] end.
    - split; [|apply go_refl]. refine (q4_ext _ _ _ _ _ Q _ _); auto. intros r c Hr Hc'. unfold col. destruct (c =? cnt); cbn [andb]; auto. destruct (0 <=? r); auto. now replace (r <? 0) with false by lia.
    - intros i s1 Hi [Q1 G1]. rewrite (bind_ret _ _ _ _ _ _ (cell i cnt s1 Hi Hc)). rewrite (bind_ret _ _ _ _ _ _ (q4_vl _ _ _ i cnt Q1 Hi Hc)).
      assert (Ev : col v cnt 0 (fun r => if r <? i then fl_div (w r) x else w r) i cnt = w i).
      { unfold col. replace ((cnt =? cnt) && (0 <=? i)) with true by lia. now rewrite Z.ltb_irrefl. }
      rewrite Ev. pose proof (q4_vok _ _ _ i cnt Q1 Hi Hc) as Vw. rewrite Ev in Vw.
      destruct (q4_v _ _ _ i cnt _ Q1 Hi Hc (fl_div_ok _ _ Vw Vx)) as (s2 & E2 & Q2 & G2). exists s2. split; [exact E2|]. split; [|eapply go_trans; eauto].
      refine (q4_ext _ _ _ _ _ Q2 _ _); auto. intros r c Hr Hc'. unfold upd2, col.
      destruct (Z.eqb_spec c cnt) as [->|]; cbn [andb]; [|now rewrite andb_false_r]. rewrite andb_true_r. replace (0 <=? r) with true by lia.
      destruct (Z.eqb_spec r i) as [->|]; [now replace (i <? i + 1) with true by lia|]. now replace (r <? i + 1) with (r <? i) by lia.
    - exists s'. split; [exact E|]. split; [|exact G]. refine (q4_ext _ _ _ _ _ Q' _ _); auto. intros r c Hr Hc'. unfold col. destruct (c =? cnt); cbn [andb]; auto. replace (r <? m) with true by lia. reflexivity.
  Qed.

  Lemma copy_run s d v : q4 s d v -> exists s', memcpy (Some tm) 0 (Some pa) 0 (u64 (N * 4)) e s = Ret tt s' /\ q4 s' a v /\ go s s'.
  Proof.
    intros (H1 & (ga & (za & da & Ia & _ & _ & Za & Wa) & La) & (g & H3 & L) & (gt & (zt & dt & It & _ & _ & Zt & Wt) & Lt) & H5). decompose [and] D.
    assert (0 <= N) by nia. assert (U : u64 (N * 4) = N * 4) by (unfold u64; rewrite Z.mod_small; lia). rewrite U.
    assert (Hne : pa <> tm) by auto.
    eexists. split; [exact (memcpy_ok e s tm zt dt pa za da 0 0 (N * 4) It Ia Hne ltac:(lia) ltac:(lia) ltac:(lia) ltac:(lia) ltac:(lia))|].
    set (d' := fun i => if (0 <=? i) && (i <? 0 + N * 4) then da (i - 0 + 0) else dt i).
    assert (I : inside s tm 0 (N * 4) (putd s tm d')).
    { exists zt, dt, d'. split; auto. split; auto. intros p Hp. unfold d'. now replace ((0 <=? p) && (p <? 0 + N * 4)) with false by lia. }
    split; [|split; [eapply inside_keeps; eauto; [lia|lia|cbn; auto]|eapply inside_shape; eauto]].
    split; [eapply inside_heap_ok; eauto|]. split; [eapply h2_inside; eauto; exists ga; split; auto; exists za, da; repeat split; auto; lia|].
    split; [exists g; split; auto; eapply arr_inside; eauto|]. split; [|eapply h2_inside; eauto].
    exists ga. split; [|exact La]. exists zt, d'. split; [eapply isb_putd_eq; eauto|]. split; [lia|]. split; [lia|]. split; [lia|].
    intros i Hi. rewrite <- Wa by auto. apply word_shift. intros t Ht. unfold d'. replace ((0 <=? 0 + i * 4 + t) && (0 + i * 4 + t <? 0 + N * 4)) with true by lia. f_equal. lia.
  Qed.

  Definition scaled (k : Z) (i : Z) : sf := fl_div (e_vector FE m a (lam k) i) (fl_of_db (db_sqrt (db_of_fl (e_length2 FE m a (lam k))))).

  Lemma eigen_loop s d v : q4 s d v ->
    exists s' d', for_ 0 m (fun count =>
    evalue <- loadf (Some pl) count ;;
    mn <- ev (m * m)%C ;;
    memcpy (Some tm) 0 (Some pa) 0 (u64 (mn * 4)) ;;;
    for_ 0 m (fun i =>
      d <- ev (i * m + i)%C ;;
      x <- loadf (Some tm) d ;;
      storef (Some tm) d (fl_sub x evalue)) ;;;
    for_ 0 (m - 1) (fun i =>
      d <- ev (i * m + i)%C ;;
      coe <- loadf (Some tm) d ;;
      for_ 1 m (fun j =>
        k <- ev (i * m + j)%C ;;
        x <- loadf (Some tm) k ;;
        storef (Some tm) k (fl_div x coe)) ;;;
      for_ (i + 1) m (fun i1 =>
        k <- ev (i1 * m + i)%C ;;
        coe <- loadf (Some tm) k ;;
        for_ i m (fun j1 =>
          k1 <- ev (i1 * m + j1)%C ;;
          k2 <- ev (i * m + j1)%C ;;
          x <- loadf (Some tm) k1 ;;
          y <- loadf (Some tm) k2 ;;
          storef (Some tm) k1 (fl_sub x (fl_mul coe y))))) ;;;
    last <- ev ((ci m - 1) * m + count)%C ;;
    storef (Some pv) last (fl_of_Z 1) ;;;
    sum1 <- forS 0 (m - 1) (fun t sum1 =>
      let i2 := m - 2 - t in
      sum2 <- forS (i2 + 1) m (fun j2 sum2 =>
        k <- ev (i2 * m + j2)%C ;;
        k2 <- ev (j2 * m + count)%C ;;
        x <- loadf (Some tm) k ;;
        y <- loadf (Some pv) k2 ;;
        ret (fl_add sum2 (fl_mul x y))) (fl_of_Z 0) ;;
      d <- ev (i2 * m + i2)%C ;;
      x <- loadf (Some tm) d ;;
      let sum2 := fl_div (SFopp sum2) x in
      k <- ev (i2 * m + count)%C ;;
      storef (Some pv) k sum2 ;;;
      ret (fl_add sum1 (fl_mul sum2 sum2))) (fl_of_Z 1) ;;
    let sum1 := fl_of_db (db_sqrt (db_of_fl sum1)) in
    for_ 0 m (fun i =>
      k <- ev (i * m + count)%C ;;
      x <- loadf (Some pv) k ;;
      storef (Some pv) k (fl_div x sum1))) e s = Ret tt s' /\ q4 s' d' (fun i k => scaled k i) /\ go s s'.
  Proof.
    intros Q.
    match goal with |- context [for_ 0 m ?body] => destruct (for_inv e 0 m body
      (fun cnt s1 => (exists d1, q4 s1 d1 (fun i k => if k <? cnt then scaled k i else v i k)) /\ go s s1) s) as (s' & E & (d' & Q') & G); [lia| | |] end.
    - split; [|apply go_refl]. exists d. refine (q4_ext _ _ _ _ _ Q _ _); auto. intros i j Hi Hj. now replace (j <? 0) with false by lia.
    - intros cnt s1 Hc [(d1 & Q1) G1]. set (V := fun i k => if k <? cnt then scaled k i else v i k) in *.
      assert (VL : fl_ok (lam cnt) /\ loadf (Some pl) cnt e s1 = Ret (lam cnt) s1).
      { destruct Q1 as (_ & _ & (g & A & L) & _). rewrite (loadf_arr e s1 pl m g cnt A Hc), <- L by auto. split; [|reflexivity].
        apply fl_of_bits_ok. exact (arr_range _ _ _ _ _ _ _ A Hc). }
      destruct VL as [VL EL]. rewrite (bind_ret _ _ _ _ _ _ EL).
      assert (EM : ev (m * m)%C e s1 = Ret N s1) by (apply ev_ok; unfold ci; rewrite cmul_ok; [reflexivity|nia]). rewrite (bind_ret _ _ _ _ _ _ EM).
      destruct (copy_run s1 d1 _ Q1) as (s2 & E2 & Q2 & G2). rewrite (bind_ret _ _ _ _ _ _ E2).
      destruct (shift_run s2 _ (lam cnt) Q2 VL) as (s3 & E3 & Q3 & G3). rewrite (bind_ret _ _ _ _ _ _ E3).
      destruct (elim_run s3 _ _ Q3) as (s4 & E4 & Q4 & G4). rewrite (bind_ret _ _ _ _ _ _ E4).
      assert (Hl : 0 <= m - 1 < m) by lia.
      assert (EV : ev ((ci m - 1) * m + cnt)%C e s4 = Ret ((m - 1) * m + cnt) s4).
      { assert (E0 : (ci m - 1)%C = ci (m - 1)) by (unfold ci; rewrite csub_ok; [reflexivity|lia || nia]). rewrite E0. exact (cell (m - 1) cnt s4 Hl Hc). }
      rewrite (bind_ret _ _ _ _ _ _ EV).
      destruct (q4_v _ _ _ (m - 1) cnt (fl_of_Z 1) Q4 Hl Hc (fl_of_Z_valid 1)) as (s5 & E5 & Q5 & G5). rewrite (bind_ret _ _ _ _ _ _ E5).
      assert (Q5' : q4 s5 (e_elim FE (Z.to_nat (m - 1)) (e_shift FE a (lam cnt))) (col V cnt (m - 1) (fun _ => fl_of_Z 1))).
      { refine (q4_ext _ _ _ _ _ Q5 _ _); auto. intros r c Hr Hc'. unfold upd2, col. rewrite andb_comm. now replace (r =? m - 1) with (m - 1 <=? r) by lia. }
      destruct (back_run s5 _ _ cnt Hc Q5') as (s6 & E6 & Q6 & G6 & V6). rewrite (bind_ret _ _ _ _ _ _ E6). cbv zeta.
      destruct (scale_run s6 _ _ cnt _ _ Hc Q6 (root_ok _ V6)) as (s7 & E7 & Q7 & G7). exists s7. split; [exact E7|]. split.
      + eexists. refine (q4_ext _ _ _ _ _ Q7 _ _); auto. intros i k Hi Hk. unfold col, V. destruct (Z.eqb_spec k cnt) as [->|].
        * replace (0 <=? i) with true by lia. replace (cnt <? cnt + 1) with true by lia. reflexivity.
        * cbn [andb]. now replace (k <? cnt + 1) with (k <? cnt) by lia.
      + repeat (eapply go_trans; [eassumption|]). apply go_refl.
    - exists s', d'. split; [exact E|]. split; [|exact G]. refine (q4_ext _ _ _ _ _ Q' _ _); auto. intros i k Hi Hk. now replace (k <? m) with true by lia.
  Qed.
End Eig.

Lemma eigen_run e s a v l m A L : heap_ok s -> 0 < m -> m * m <= INT_MAX -> v <> a -> v <> l ->
  matrix s a 4 m m A -> (forall k, 0 <= k < m -> word_at s l (k * 4) 4 = Some (L k)) -> readable s v (m * m * 4) ->
  exists s', cal_eigen_vector_float a v l m m e s = Ret tt s'
    /\ matrix s' a 4 m m A
    /\ (forall i k, 0 <= i < m -> 0 <= k < m -> float_at s' v (i * m + k)
         (scaled m (fun r c => fl_of_bits (A r c)) (fun k => fl_of_bits (L k)) k i))
    /\ files s' = files s /\ unchanged_except [v] s s'
    /\ (forall t, ~ 0 <= t < m * m * 4 -> byte_at s' v t = byte_at s v t)
    /\ no_leak s s'.
Proof.
  intros Hs Hm B N1 N2 HA HL HV. unfold INT_MAX in B.
  destruct (matrix_arr s a 4 m m A ltac:(lia) Hm Hm HA) as (pa & -> & Ia).
  assert (HL' : matrix s l 4 1 m (fun _ => L)).
  { intros i j Hi Hj. replace ((i * m + j) * 4) with (j * 4) by (assert (i = 0) by lia; subst; lia). now apply HL. }
  destruct (matrix_arr s l 4 1 m _ ltac:(lia) ltac:(lia) Hm HL') as (pl & -> & Il). rewrite Z.mul_1_l in Il.
  destruct (readable_isb _ _ _ HV) as (pv & zv & dv & -> & Iv & Zv). destruct (arr_isb _ _ _ _ _ _ Ia) as (za & da & Ja). destruct (arr_isb _ _ _ _ _ _ Il) as (zl & dl & Jl).
  pose proof (isb_lt _ _ _ _ Iv) as Lv. pose proof (isb_lt _ _ _ _ Ja) as La. pose proof (isb_lt _ _ _ _ Jl) as Ll.
  unfold cal_eigen_vector_float. assert (P : 0 < m * m) by nia.
  assert (EM : ev (m * m)%C e s = Ret (m * m) s) by (apply ev_ok; unfold ci; rewrite cmul_ok; [reflexivity|lia]). rewrite (bind_ret _ _ _ _ _ _ EM). clear EM.
  assert (U : u64 (m * m * 4) = m * m * 4) by (unfold u64; rewrite Z.mod_small; lia). rewrite U. clear U.
  set (k := List.length (objs s)) in *.
  set (s1 := mkSt (objs s ++ [mkObj (e_addr e k) (m * m * 4) k true (CBytes (e_junk e k))]) (files s)).
  assert (E1 : malloc (m * m * 4) e s = Ret (Some k) s1).
  { unfold malloc. replace ((0 <=? m * m * 4) && (m * m * 4 <? 2 ^ 62)) with true; [reflexivity|]. change (2 ^ 62) with 4611686018427387904. lia. }
  rewrite (bind_ret _ _ _ _ _ _ E1). clear E1.
  assert (L1 : List.length (objs s1) = S k) by (unfold s1; cbn [objs]; rewrite app_length; cbn; lia).
  assert (H1 : heap_ok s1) by (apply (heap_ok_app s k); auto; constructor; [cbn; lia|constructor]).
  assert (OLD : forall i, (i < k)%nat -> nth_error (objs s1) i = nth_error (objs s) i).
  { intros i Hi. unfold s1; cbn [objs]. now rewrite nth_error_app1 by (fold k; lia). }
  assert (NK : nth_error (objs s1) k = Some (mkObj (e_addr e k) (m * m * 4) k true (CBytes (e_junk e k)))).
  { unfold s1; cbn [objs]. rewrite nth_error_app2 by (fold k; lia). fold k. rewrite Nat.sub_diag. reflexivity. }
  assert (OLDI : forall p z d, isb s p z d -> isb s1 p z d).
  { intros p z d Hp. apply isb_app_old; auto. }
  assert (T1 : isb s1 k (m * m * 4) (e_junk e k)) by (eapply obj_isb; exact NK).
  assert (DD : pa <> pv /\ pl <> pv /\ pa <> k /\ pv <> k /\ pl <> k) by (repeat split; try lia; congruence).
  set (af := fun r c => fl_of_bits (A r c)). set (lf := fun k => fl_of_bits (L k)).
  assert (CELL : forall (F : Z -> Z -> Z) i j, 0 <= i < m -> 0 <= j < m -> F ((i * m + j) / m) ((i * m + j) mod m) = F i j).
  { intros F i j Hi Hj. now rewrite cell_div, cell_mod by lia. }
  assert (Q : q4 m pa pv pl k af lf s1 (fun i j => fl_of_bits (word (e_junk e k) (0 + (i * m + j) * 4) (Z.to_nat 4))) (fun i j => fl_of_bits (word dv (0 + (i * m + j) * 4) (Z.to_nat 4)))).
  { split; [exact H1|]. split.
    { exists (fun t => A (t / m) (t mod m)). split; [|intros i j Hi Hj; unfold af; now rewrite CELL]. destruct Ia as (z & d & I & R). exists z, d. split; [apply OLDI; exact I|exact R]. }
    split.
    { exists L. split; [|reflexivity]. apply (arr_ext _ _ _ _ _ (fun t => L (t mod m))); [intros i Hi; now rewrite Z.mod_small|]. destruct Il as (z & d & I & R). exists z, d. split; [apply OLDI; exact I|exact R]. }
    split; eexists; (split; [eapply arr_of; [eauto|lia|lia|lia]|reflexivity]). }
  destruct (eigen_loop e m Hm B pa pv pl k DD af lf s1 _ _ Q) as (s2 & d2 & E & (F1 & F2 & F3 & F4 & F5) & (K & SL & SS)).
  rewrite (bind_ret _ _ _ _ _ _ E). clear E.
  assert (Hk : exists o, nth_error (objs s2) k = Some o /\ o_live o = true /\ o_root o = k).
  { pose proof (SS k) as X. rewrite NK in X. destruct (nth_error (objs s2) k) as [o|]; [|discriminate]. exists o. cbn in X. unfold shape in X. injection X as X1 X2 X3 X4. auto. }
  destruct Hk as (o & Ho & Hlive & Hroot).
  rewrite (free_ok e s2 k o Ho Hlive Hroot). set (s3 := mkSt (map (kill_root k) (objs s2)) (files s2)).
  exists s3. split; [reflexivity|].
  assert (SAME : forall i, (i < k)%nat -> nth_error (objs s3) i = nth_error (objs s2) i).
  { intros i Hi. unfold s3; cbn [objs]. rewrite kill_nth. pose proof (SS i) as X. rewrite OLD in X by exact Hi. destruct (nth_error (objs s2) i) as [o'|] eqn:E'; [|reflexivity].
    cbn. f_equal. apply kill_other. destruct (nth_error (objs s) i) as [o''|] eqn:E''; [|discriminate]. cbn in X. unfold shape in X. injection X as _ _ X _. rewrite X. apply Hs in E''. fold k in E''. lia. }
  assert (ARR : forall p b es n g, (p < k)%nat -> arr s2 p b es n g -> arr s3 p b es n g).
  { intros p b es n g Hp (z & d & I & R). exists z, d. split; [|exact R]. unfold isb. rewrite (nth_bytes_at s2 s3 p); auto. }
  split.
  { apply arr_matrix. apply ARR; [exact La|]. assert (NI : ~ In pa [pv; k]) by (intros [Y|[Y|[]]]; decompose [and] DD; auto).
    refine (keeps_arr s1 _ _ s2 pa 0 4 (m * m) _ K NI _). destruct Ia as (z & d & I & R). exists z, d. split; [apply OLDI; exact I|exact R]. }
  split.
  { intros i j Hi Hj. destruct F5 as (g & G1 & G2). rewrite <- G2 by auto. exists (g (i * m + j)). split; [|reflexivity].
    exact (arr_word _ _ _ _ _ _ _ (ARR _ _ _ _ _ Lv G1) (cell_range m m i j Hi Hj)). }
  destruct K as (K1 & K2 & K3 & K4 & K5).
  split; [unfold s3; cbn [files]; rewrite K1; reflexivity|]. split; [|split].
  - intros i Hi Hn. fold k in Hi. rewrite SAME, K3, OLD; auto; [lia|]. intros Y. cbn in Y. destruct Y as [Y|[Y|[]]]; [apply Hn; cbn; auto|injection Y as Y; lia].
  - intros t Ht. transitivity (byte_at s2 (Some pv) t); [apply nth_byte_at; apply SAME; exact Lv|]. rewrite K4; [|cbn; auto|lia|exact Ht]. apply nth_byte_at. apply OLD. exact Lv.
  - intros i o' Hi Hn. fold k in Hi. assert (i = k). { apply nth_error_lt in Hn. unfold s3 in Hn; cbn [objs] in Hn. rewrite map_length, SL, L1 in Hn. lia. } subst i.
    unfold s3 in Hn; cbn [objs] in Hn. rewrite kill_nth, Ho in Hn. injection Hn as <-. now apply kill_same.
Qed.
