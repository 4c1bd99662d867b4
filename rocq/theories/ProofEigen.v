(** * Proofs: what the QR code computes. *)
From Verif Require Import Base Logic ModelFloat ModelDouble ModelMatrix ModelEigen SpecBase SpecNum SpecMatrix SpecStat SpecSpectral SpecEigen
  ProofCore ProofHM ProofCopy ProofFloat ProofFloat2 ProofWord ProofArr ProofGrid ProofMatrix ProofInvert ProofStat ProofFold ProofValid ProofFilter ProofSpectral2.
From Coq Require Import Lia ZifyBool ZifyNat Floats.SpecFloat.
Open Scope Z_scope.

(** Loading what was stored. *)
Lemma loadf_val e s q n g t x : arr s q 0 4 n g -> 0 <= t < n -> g t = fl_word x -> fl_ok x -> loadf (Some q) t e s = Ret x s.
Proof. intros A Ht G V. rewrite (loadf_arr e s q n g t A Ht), G, fl_word_back by exact V. reflexivity. Qed.

Lemma norm_run e s q m g v : 0 <= m -> arr s q 0 4 m g -> (forall i, 0 <= i < m -> g i = fl_word (v i) /\ fl_ok (v i)) ->
  matrix_norm_float (Some q) m e s = Ret (float_norm m v) s.
Proof.
  intros Hm A Hv. unfold matrix_norm_float.
  assert (E : forS 0 m (fun i ans => x <- loadf (Some q) i ;; ret (fl_add ans (fl_mul x x))) (fl_of_Z 0) e s
    = Ret (foldz m (fun ans i => fl_add ans (fl_mul (v i) (v i))) (fl_of_Z 0)) s).
  { apply forS_pure; auto. intros i y Hi. destruct (Hv i Hi). now rewrite (bind_ret _ _ _ _ _ _ (loadf_val e s q m g i (v i) A Hi ltac:(auto) ltac:(auto))). }
  rewrite (bind_ret _ _ _ _ _ _ E). reflexivity.
Qed.
Lemma norm_ok n v : 0 <= n -> (forall i, 0 <= i < n -> fl_ok (v i)) -> fl_ok (float_norm n v).
Proof.
  intros Hn Hv. unfold float_norm. apply fl_of_db_valid, db_sqrt_ok, db_of_fl_ok. apply sum_ok; auto.
  intros k Hk. apply fl_mul_ok; auto.
Qed.
Lemma lowered_ok j t x : 0 <= j -> fl_ok t -> fl_ok x -> fl_ok (lowered j t x).
Proof.
  intros Hj Ht Hx. unfold lowered. revert j Hj. apply natlike_ind; [exact Hx|].
  intros k Hk IH. unfold Z.succ. rewrite foldz_S by auto. apply fl_sub_ok; auto.
Qed.

Lemma fl_zero_ok : fl_ok (fl_of_Z 0).
Proof. apply fl_of_Z_valid. Qed.

Section QR.
  Variables (e : env) (m : Z) (pa pq pr ca cq : nat).
  Hypotheses (Hm : 0 < m) (B : m * m <= 2147483647).
  Hypothesis (D : NoDup [pa; pq; pr; ca; cq]).
  Variable A : Z -> Z -> Z.
  Hypothesis HA : forall i j, 0 <= i < m -> 0 <= j < m -> 0 <= A i j < 4294967296.
  Notation N := (m * m).
  Notation T j := (float_sum m (column A j)).

  Lemma col_ok i j : 0 <= i < m -> 0 <= j < m -> fl_ok (column A j i).
  Proof. intros. apply fl_of_bits_ok. auto. Qed.
  Lemma total_ok j : 0 <= j < m -> fl_ok (T j).
  Proof. intros. apply sum_ok; [lia|]. intros. apply col_ok; auto. Qed.

  (** The five arrays. *)
  Definition five (s : st) (gq gr gc gd : Z -> Z) : Prop :=
    heap_ok s /\ arr s pa 0 4 N (fun t => A (t / m) (t mod m)) /\ arr s pq 0 4 N gq /\ arr s pr 0 4 N gr /\ arr s ca 0 4 m gc /\ arr s cq 0 4 m gd.
  Definition goes (s s' : st) : Prop := keeps s [pq; pr; ca; cq] (N * 4) s'.

  Lemma dist : pa <> pq /\ pa <> pr /\ pa <> ca /\ pa <> cq /\ pq <> pr /\ pq <> ca /\ pq <> cq /\ pr <> ca /\ pr <> cq /\ ca <> cq.
  Proof.
    inversion D as [|x1 l1 A1 D1]; subst. inversion D1 as [|x2 l2 A2 D2]; subst. inversion D2 as [|x3 l3 A3 D3]; subst. inversion D3 as [|x4 l4 A4 D4]; subst.
    cbn in *. repeat split; intro Q; subst; tauto.
  Qed.
  Lemma mm : m <= N. Proof. clear - Hm. nia. Qed.

  Lemma five_q s gq gr gc gd t x : five s gq gr gc gd -> 0 <= t < N ->
    exists s', storef (Some pq) t x e s = Ret tt s' /\ five s' (fupd gq t (fl_word x)) gr gc gd /\ goes s s'.
  Proof.
    intros (H0 & H1 & H2 & H3 & H4 & H5) Ht. destruct (storef_arr e s pq N gq t x H2 Ht) as (s' & E & A' & I). pose proof dist as DD.
    exists s'. split; [exact E|]. split; [|eapply inside_keeps; eauto; [lia|lia|cbn; auto]].
    split; [eapply inside_heap_ok; eauto|]. repeat split; auto; eapply arr_inside; eauto; left; decompose [and] DD; auto using not_eq_sym.
  Qed.
  Lemma five_r s gq gr gc gd t x : five s gq gr gc gd -> 0 <= t < N ->
    exists s', storef (Some pr) t x e s = Ret tt s' /\ five s' gq (fupd gr t (fl_word x)) gc gd /\ goes s s'.
  Proof.
    intros (H0 & H1 & H2 & H3 & H4 & H5) Ht. destruct (storef_arr e s pr N gr t x H3 Ht) as (s' & E & A' & I). pose proof dist as DD.
    exists s'. split; [exact E|]. split; [|eapply inside_keeps; eauto; [lia|lia|cbn; auto]].
    split; [eapply inside_heap_ok; eauto|]. repeat split; auto; eapply arr_inside; eauto; left; decompose [and] DD; auto using not_eq_sym.
  Qed.
  Lemma five_c s gq gr gc gd t x : five s gq gr gc gd -> 0 <= t < m ->
    exists s', storef (Some ca) t x e s = Ret tt s' /\ five s' gq gr (fupd gc t (fl_word x)) gd /\ goes s s'.
  Proof.
    intros (H0 & H1 & H2 & H3 & H4 & H5) Ht. destruct (storef_arr e s ca m gc t x H4 Ht) as (s' & E & A' & I). pose proof dist as DD. pose proof mm.
    exists s'. split; [exact E|]. split; [|eapply inside_keeps; eauto; [lia|lia|cbn; auto]].
    split; [eapply inside_heap_ok; eauto|]. repeat split; auto; eapply arr_inside; eauto; left; decompose [and] DD; auto using not_eq_sym.
  Qed.
  Lemma five_d s gq gr gc gd t x : five s gq gr gc gd -> 0 <= t < m ->
    exists s', storef (Some cq) t x e s = Ret tt s' /\ five s' gq gr gc (fupd gd t (fl_word x)) /\ goes s s'.
  Proof.
    intros (H0 & H1 & H2 & H3 & H4 & H5) Ht. destruct (storef_arr e s cq m gd t x H5 Ht) as (s' & E & A' & I). pose proof dist as DD. pose proof mm.
    exists s'. split; [exact E|]. split; [|eapply inside_keeps; eauto; [lia|lia|cbn; auto]].
    split; [eapply inside_heap_ok; eauto|]. repeat split; auto; eapply arr_inside; eauto; left; decompose [and] DD; auto using not_eq_sym.
  Qed.

  Lemma goes_refl s : goes s s. Proof. apply keeps_refl. Qed.
  Lemma goes_trans s s1 s2 : goes s s1 -> goes s1 s2 -> goes s s2. Proof. apply keeps_trans. Qed.

  (** The two columns are filled with column j. *)
  Lemma fill_run s gq gr gc gd j : five s gq gr gc gd -> 0 <= j < m ->
    exists s' gc' gd', for_ 0 m (fun i =>
        k <- ev (i * m + j)%C ;; x <- loadf (Some pa) k ;; storef (Some ca) i x ;;; y <- loadf (Some pa) k ;; storef (Some cq) i y) e s = Ret tt s'
      /\ five s' gq gr gc' gd' /\ goes s s' /\ (forall i, 0 <= i < m -> gc' i = fl_word (column A j i) /\ gd' i = fl_word (column A j i)).
  Proof.
    intros H Hj.
    destruct (for_inv e 0 m (fun i =>
        k <- ev (i * m + j)%C ;; x <- loadf (Some pa) k ;; storef (Some ca) i x ;;; y <- loadf (Some pa) k ;; storef (Some cq) i y)
      (fun i s1 => exists gc' gd', five s1 gq gr gc' gd' /\ goes s s1 /\ (forall t, 0 <= t < i -> gc' t = fl_word (column A j t) /\ gd' t = fl_word (column A j t))) s)
      as (s' & E & gc' & gd' & F & G & K); [lia| | |eauto 8].
    - exists gc, gd. split; [exact H|]. split; [apply goes_refl|intros; lia].
    - intros i s1 Hi (gc' & gd' & F & G & K). pose proof (cell_range m m i j Hi Hj) as Ht.
      assert (L : forall s2 gc2 gd2, five s2 gq gr gc2 gd2 -> loadf (Some pa) (i * m + j) e s2 = Ret (column A j i) s2).
      { intros s2 gc2 gd2 (_ & HA2 & _). rewrite (loadf_arr e s2 pa N _ _ HA2 Ht). cbv beta. rewrite cell_div, cell_mod by lia. reflexivity. }
      rewrite (bind_ret _ _ _ _ _ _ (ev_cell e s1 m m i j Hi Hj B)). rewrite (bind_ret _ _ _ _ _ _ (L _ _ _ F)).
      destruct (five_c _ _ _ _ _ i (column A j i) F Hi) as (s2 & E2 & F2 & G2). rewrite (bind_ret _ _ _ _ _ _ E2). rewrite (bind_ret _ _ _ _ _ _ (L _ _ _ F2)).
      destruct (five_d _ _ _ _ _ i (column A j i) F2 Hi) as (s3 & E3 & F3 & G3). exists s3. split; [exact E3|].
      eexists _, _. split; [exact F3|]. split; [eapply goes_trans; [exact G|]; eapply goes_trans; eauto|].
      intros t Ht'. unfold fupd. destruct (Z.eqb_spec t i) as [->|]; [auto|]. apply K. lia.
  Qed.

  (** r[k, j] becomes the sum of the column. *)
  Lemma sum_run s gq gr gc gd j t : five s gq gr gc gd -> 0 <= j < m -> 0 <= t < N -> (forall i, 0 <= i < m -> gc i = fl_word (column A j i)) ->
    gr t = fl_word (fl_of_Z 0) ->
    exists s' gr', for_ 0 m (fun i1 => x <- loadf (Some pr) t ;; y <- loadf (Some ca) i1 ;; storef (Some pr) t (fl_add x y)) e s = Ret tt s'
      /\ five s' gq gr' gc gd /\ goes s s' /\ gr' t = fl_word (T j) /\ (forall u, u <> t -> gr' u = gr u).
  Proof.
    intros H Hj Ht Hc H0.
    assert (OK : forall i, 0 <= i <= m -> fl_ok (float_sum i (column A j))) by (intros i Hi; apply sum_ok; [lia|]; intros; apply col_ok; lia).
    destruct (for_inv e 0 m (fun i1 => x <- loadf (Some pr) t ;; y <- loadf (Some ca) i1 ;; storef (Some pr) t (fl_add x y))
      (fun i s1 => exists gr', five s1 gq gr' gc gd /\ goes s s1 /\ gr' t = fl_word (float_sum i (column A j)) /\ (forall u, u <> t -> gr' u = gr u)) s)
      as (s' & E & gr' & F & G & K); [lia| | |eauto 8].
    - exists gr. split; [exact H|]. split; [apply goes_refl|]. split; [exact H0|auto].
    - intros i s1 Hi (gr' & F & G & K & U). pose proof F as (_ & _ & _ & Fr & Fc & _).
      rewrite (bind_ret _ _ _ _ _ _ (loadf_val e s1 pr N gr' t _ Fr Ht K (OK i ltac:(lia)))).
      rewrite (bind_ret _ _ _ _ _ _ (loadf_val e s1 ca m gc i _ Fc Hi (Hc i Hi) (col_ok i j Hi Hj))).
      destruct (five_r _ _ _ _ _ t (fl_add (float_sum i (column A j)) (column A j i)) F Ht) as (s2 & E2 & F2 & G2).
      exists s2. split; [exact E2|]. eexists. split; [exact F2|]. split; [eapply goes_trans; eauto|]. split.
      + unfold fupd. rewrite Z.eqb_refl. unfold float_sum. now rewrite foldz_S by lia.
      + intros u Hu. unfold fupd. replace (u =? t) with false by lia. auto.
  Qed.

  (** The other column is lowered by it. *)
  Lemma lower_run s gq gr gc gd t x v : five s gq gr gc gd -> 0 <= t < N -> gr t = fl_word x -> fl_ok x ->
    (forall i, 0 <= i < m -> gd i = fl_word (v i) /\ fl_ok (v i)) ->
    exists s' gd', for_ 0 m (fun i2 => x <- loadf (Some cq) i2 ;; y <- loadf (Some pr) t ;; storef (Some cq) i2 (fl_sub x y)) e s = Ret tt s'
      /\ five s' gq gr gc gd' /\ goes s s' /\ (forall i, 0 <= i < m -> gd' i = fl_word (fl_sub (v i) x)).
  Proof.
    intros H Ht Hx Vx Hd.
    destruct (for_inv e 0 m (fun i2 => x <- loadf (Some cq) i2 ;; y <- loadf (Some pr) t ;; storef (Some cq) i2 (fl_sub x y))
      (fun i s1 => exists gd', five s1 gq gr gc gd' /\ goes s s1 /\ (forall u, 0 <= u < m -> gd' u = fl_word (if u <? i then fl_sub (v u) x else v u))) s)
      as (s' & E & gd' & F & G & K); [lia| | |].
    - exists gd. split; [exact H|]. split; [apply goes_refl|]. intros u Hu. replace (u <? 0) with false by lia. apply Hd. lia.
    - intros i s1 Hi (gd' & F & G & K). pose proof F as (_ & _ & _ & Fr & _ & Fd). destruct (Hd i Hi) as [_ Vi].
      pose proof (K i Hi) as Ki. rewrite Z.ltb_irrefl in Ki.
      rewrite (bind_ret _ _ _ _ _ _ (loadf_val e s1 cq m gd' i _ Fd Hi Ki Vi)).
      rewrite (bind_ret _ _ _ _ _ _ (loadf_val e s1 pr N gr t _ Fr Ht Hx Vx)).
      destruct (five_d _ _ _ _ _ i (fl_sub (v i) x) F Hi) as (s2 & E2 & F2 & G2).
      exists s2. split; [exact E2|]. eexists. split; [exact F2|]. split; [eapply goes_trans; eauto|].
      intros u Hu. unfold fupd. destruct (Z.eqb_spec u i) as [->|].
      + now replace (i <? i + 1) with true by lia.
      + rewrite K by lia. now replace (u <? i + 1) with (u <? i) by lia.
    - exists s', gd'. split; [exact E|]. split; [exact F|]. split; [exact G|]. intros i Hi. rewrite K by lia. now replace (i <? m) with true by lia.
  Qed.

  (** The loop over k: the entries above the diagonal. *)
  Lemma above_run s gq gr gc gd j : five s gq gr gc gd -> 0 <= j < m ->
    (forall i, 0 <= i < m -> gc i = fl_word (column A j i) /\ gd i = fl_word (column A j i)) ->
    exists s' gr' gd', for_ 0 j (fun k =>
        t <- ev (k * m + j)%C ;;
        storef (Some pr) t (fl_of_Z 0) ;;;
        for_ 0 m (fun i1 => x <- loadf (Some pr) t ;; y <- loadf (Some ca) i1 ;; storef (Some pr) t (fl_add x y)) ;;;
        for_ 0 m (fun i2 => x <- loadf (Some cq) i2 ;; y <- loadf (Some pr) t ;; storef (Some cq) i2 (fl_sub x y))) e s = Ret tt s'
      /\ five s' gq gr' gc gd' /\ goes s s'
      /\ (forall i, 0 <= i < m -> gd' i = fl_word (lowered j (T j) (column A j i)))
      /\ (forall k, 0 <= k < j -> gr' (k * m + j) = fl_word (T j))
      /\ (forall u, (forall k, 0 <= k < j -> u <> k * m + j) -> gr' u = gr u).
  Proof.
    intros H Hj Hcd. pose proof (total_ok j Hj) as VT.
    match goal with |- context [for_ 0 j ?body] => destruct (for_inv e 0 j body (fun k s1 => exists gr' gd', five s1 gq gr' gc gd' /\ goes s s1
      /\ (forall i, 0 <= i < m -> gd' i = fl_word (lowered k (T j) (column A j i)))
      /\ (forall u, 0 <= u < k -> gr' (u * m + j) = fl_word (T j))
      /\ (forall u, (forall l, 0 <= l < k -> u <> l * m + j) -> gr' u = gr u)) s)
      as (s' & E & gr' & gd' & F); [lia| | |exists s', gr', gd'; tauto] end.
    - exists gr, gd. split; [exact H|]. split; [apply goes_refl|]. split; [intros i Hi; apply Hcd; auto|]. split; [intros; lia|auto].
    - intros k s1 Hk (gr' & gd' & F & G & K1 & K2 & K3). assert (Hk' : 0 <= k < m) by lia. pose proof (cell_range m m k j Hk' Hj) as Ht.
      rewrite (bind_ret _ _ _ _ _ _ (ev_cell e s1 m m k j Hk' Hj B)).
      destruct (five_r _ _ _ _ _ (k * m + j) (fl_of_Z 0) F Ht) as (s2 & E2 & F2 & G2). rewrite (bind_ret _ _ _ _ _ _ E2).
      destruct (sum_run _ _ _ _ _ j _ F2 Hj Ht ltac:(intros i Hi; apply Hcd; auto) ltac:(unfold fupd; now rewrite Z.eqb_refl)) as (s3 & gr3 & E3 & F3 & G3 & R1 & R2).
      rewrite (bind_ret _ _ _ _ _ _ E3).
      destruct (lower_run _ _ _ _ _ (k * m + j) (T j) (fun i => lowered k (T j) (column A j i)) F3 Ht R1 VT) as (s4 & gd4 & E4 & F4 & G4 & R4).
      { intros i Hi. split; [apply K1; auto|]. apply lowered_ok; auto; [lia|]. apply col_ok; auto. }
      exists s4. split; [exact E4|]. exists gr3, gd4. split; [exact F4|]. split; [eapply goes_trans; [exact G|]; eapply goes_trans; [exact G2|]; eapply goes_trans; eauto|].
      split; [|split].
      + intros i Hi. rewrite R4 by auto. unfold lowered. now rewrite foldz_S by lia.
      + intros u Hu. destruct (Z.eq_dec u k) as [->|Hne]; [exact R1|]. rewrite R2.
        * unfold fupd. replace (u * m + j =? k * m + j) with false by (clear - Hne Hm; nia). apply K2. lia.
        * clear - Hne Hm. nia.
      + intros u Hu. rewrite R2 by (apply Hu; lia). unfold fupd. pose proof (Hu k ltac:(lia)). replace (u =? k * m + j) with false by lia. apply K3. intros l Hl. apply Hu. lia.
  Qed.

  (** Column j of q. *)
  Lemma column_run s gq gr gc gd j x v : five s gq gr gc gd -> 0 <= j < m -> fl_ok x ->
    (forall i, 0 <= i < m -> gd i = fl_word (v i) /\ fl_ok (v i)) ->
    exists s' gq', for_ 0 m (fun i => k <- ev (i * m + j)%C ;; y <- loadf (Some cq) i ;; storef (Some pq) k (fl_div y x)) e s = Ret tt s'
      /\ five s' gq' gr gc gd /\ goes s s' /\ (forall i, 0 <= i < m -> gq' (i * m + j) = fl_word (fl_div (v i) x))
      /\ (forall u, (forall k, 0 <= k < m -> u <> k * m + j) -> gq' u = gq u).
  Proof.
    intros H Hj Vx Hd.
    destruct (for_inv e 0 m (fun i => k <- ev (i * m + j)%C ;; y <- loadf (Some cq) i ;; storef (Some pq) k (fl_div y x))
      (fun i s1 => exists gq', five s1 gq' gr gc gd /\ goes s s1 /\ (forall u, 0 <= u < i -> gq' (u * m + j) = fl_word (fl_div (v u) x))
        /\ (forall u, (forall k, 0 <= k < i -> u <> k * m + j) -> gq' u = gq u)) s)
      as (s' & E & gq' & F & G & K); [lia| | |eauto 8].
    - exists gq. split; [exact H|]. split; [apply goes_refl|]. split; [intros; lia|auto].
    - intros i s1 Hi (gq' & F & G & K1 & K2). pose proof F as (_ & _ & _ & _ & _ & Fd). destruct (Hd i Hi) as [Ei Vi]. pose proof (cell_range m m i j Hi Hj) as Ht.
      rewrite (bind_ret _ _ _ _ _ _ (ev_cell e s1 m m i j Hi Hj B)).
      rewrite (bind_ret _ _ _ _ _ _ (loadf_val e s1 cq m gd i _ Fd Hi Ei Vi)).
      destruct (five_q _ _ _ _ _ (i * m + j) (fl_div (v i) x) F Ht) as (s2 & E2 & F2 & G2).
      exists s2. split; [exact E2|]. eexists. split; [exact F2|]. split; [eapply goes_trans; eauto|]. split.
      + intros u Hu. unfold fupd. destruct (Z.eq_dec u i) as [->|Hne]; [now rewrite Z.eqb_refl|].
        replace (u * m + j =? i * m + j) with false by (clear - Hne Hm; nia). apply K1. lia.
      + intros u Hu. unfold fupd. pose proof (Hu i ltac:(lia)). replace (u =? i * m + j) with false by lia. apply K2. intros; apply Hu. lia.
  Qed.

  Notation C j i := (lowered j (T j) (column A j i)).
  Notation NR j := (float_norm m (fun i => C j i)).
  Lemma C_ok j i : 0 <= j < m -> 0 <= i < m -> fl_ok (C j i).
  Proof. intros. apply lowered_ok; [lia|now apply total_ok|now apply col_ok]. Qed.
  Lemma NR_ok j : 0 <= j < m -> fl_ok (NR j).
  Proof. intros. apply norm_ok; [lia|]. intros. now apply C_ok. Qed.

  Definition qr_loop (m : Z) (a q r col_a col_q : ptr) : M unit :=
    for_ 0 m (fun j =>
      for_ 0 m (fun i =>
        k <- ev (i * m + j)%C ;;
        x <- loadf a k ;;
        storef col_a i x ;;;
        y <- loadf a k ;;
        storef col_q i y) ;;;
      for_ 0 j (fun k =>
        t <- ev (k * m + j)%C ;;
        storef r t (fl_of_Z 0) ;;;
        for_ 0 m (fun i1 =>
          x <- loadf r t ;;
          y <- loadf col_a i1 ;;
          storef r t (fl_add x y)) ;;;
        for_ 0 m (fun i2 =>
          x <- loadf col_q i2 ;;
          y <- loadf r t ;;
          storef col_q i2 (fl_sub x y))) ;;;
      tmp <- matrix_norm_float col_q m ;;
      d <- ev (j * m + j)%C ;;
      storef r d tmp ;;;
      for_ 0 m (fun i =>
        k <- ev (i * m + j)%C ;;
        x <- loadf col_q i ;;
        storef q k (fl_div x tmp))).

  Lemma loop_run s gq gr gc gd : five s gq gr gc gd ->
    exists s' gq' gr' gc' gd', qr_loop m (Some pa) (Some pq) (Some pr) (Some ca) (Some cq) e s = Ret tt s'
      /\ five s' gq' gr' gc' gd' /\ goes s s'
      /\ (forall i j, 0 <= i < m -> 0 <= j < m -> gq' (i * m + j) = fl_word (fl_div (C j i) (NR j)))
      /\ (forall k j, 0 <= k < m -> 0 <= j < m -> gr' (k * m + j) = if k <? j then fl_word (T j) else if k =? j then fl_word (NR j) else gr (k * m + j)).
  Proof.
    intros H. unfold qr_loop.
    match goal with |- context [for_ 0 m ?body] => destruct (for_inv e 0 m body (fun j s1 => exists gq' gr' gc' gd', five s1 gq' gr' gc' gd' /\ goes s s1
      /\ (forall i c, 0 <= i < m -> 0 <= c < j -> gq' (i * m + c) = fl_word (fl_div (C c i) (NR c)))
      /\ (forall k c, 0 <= k < m -> 0 <= c < m -> gr' (k * m + c) = if c <? j then if k <? c then fl_word (T c) else if k =? c then fl_word (NR c) else gr (k * m + c) else gr (k * m + c))) s)
      as (s' & E & gq' & gr' & gc' & gd' & F & G & K1 & K2); [lia| | |] end.
    - exists gq, gr, gc, gd. split; [exact H|]. split; [apply goes_refl|]. split; [intros; lia|]. intros. now replace (c <? 0) with false by lia.
    - intros j s1 Hj (gq1 & gr1 & gc1 & gd1 & F & G & K1 & K2).
      destruct (fill_run _ _ _ _ _ j F Hj) as (s2 & gc2 & gd2 & E2 & F2 & G2 & R2). rewrite (bind_ret _ _ _ _ _ _ E2).
      destruct (above_run _ _ _ _ _ j F2 Hj R2) as (s3 & gr3 & gd3 & E3 & F3 & G3 & R3 & R4 & R5). rewrite (bind_ret _ _ _ _ _ _ E3).
      pose proof F3 as (_ & _ & _ & _ & _ & Fd).
      rewrite (bind_ret _ _ _ _ _ _ (norm_run e s3 cq m gd3 (fun i => C j i) ltac:(lia) Fd ltac:(intros i Hi; split; [apply R3; exact Hi|apply C_ok; auto]))).
      rewrite (bind_ret _ _ _ _ _ _ (ev_cell e s3 m m j j Hj Hj B)).
      destruct (five_r _ _ _ _ _ (j * m + j) (NR j) F3 (cell_range m m j j Hj Hj)) as (s4 & E4 & F4 & G4). rewrite (bind_ret _ _ _ _ _ _ E4).
      destruct (column_run _ _ _ _ _ j (NR j) (fun i => C j i) F4 Hj (NR_ok j Hj) ltac:(intros i Hi; split; [apply R3; exact Hi|apply C_ok; auto])) as (s5 & gq5 & E5 & F5 & G5 & R6 & R7).
      exists s5. split; [exact E5|]. eexists gq5, _, gc2, gd3. split; [exact F5|].
      split; [eapply goes_trans; [exact G|]; eapply goes_trans; [exact G2|]; eapply goes_trans; [exact G3|]; eapply goes_trans; eauto|].
      split.
      + intros i c Hi Hc. destruct (Z.eq_dec c j) as [->|Hne]; [apply R6; auto|].
        rewrite R7; [apply K1; lia|]. intros k Hk Q. assert (c = (i * m + c) mod m) by (rewrite cell_mod; lia). rewrite Q, cell_mod in H0; lia.
      + intros k c Hk Hc. unfold fupd. destruct (Z.eq_dec c j) as [->|Hne].
        * replace (j <? j + 1) with true by lia. destruct (Z.eqb_spec (k * m + j) (j * m + j)) as [Q|Q].
          -- assert (k = j) by (clear - Q Hm; nia). subst k. now replace (j <? j) with false by lia; rewrite Z.eqb_refl.
          -- assert (k <> j) by (intros ->; auto). replace (k =? j) with false by lia. destruct (Z.ltb_spec k j) as [L|L]; [apply R4; lia|].
             rewrite R5; [rewrite K2 by auto; now rewrite Z.ltb_irrefl|]. intros l Hl Q2. assert (k = l) by (clear - Q2 Hm; nia). lia.
        * assert (X : forall l, k * m + c <> l * m + j) by (intros l Q; assert (X : c = (k * m + c) mod m) by (rewrite cell_mod; lia); rewrite Q, cell_mod in X; lia).
          replace (k * m + c =? j * m + j) with false by (pose proof (X j); lia). rewrite R5 by (intros; apply X). rewrite K2 by auto. now replace (c <? j + 1) with (c <? j) by lia.
    - exists s', gq', gr', gc', gd'. split; [exact E|]. split; [exact F|]. split; [exact G|]. split; [exact K1|].
      intros k j Hk Hj. rewrite K2 by auto. now replace (j <? m) with true by lia.
  Qed.
End QR.

Lemma word_old s l n s' p off k : keeps s l n s' -> ~ In p l -> (p < List.length (objs s))%nat -> word_at s' (Some p) off k = word_at s (Some p) off k.
Proof.
  intros K Hp Hl. revert off. induction k as [|k IH]; intros off; [reflexivity|]. cbn [word_at]. rewrite IH.
  replace (byte_at s' (Some p) off) with (byte_at s (Some p) off); [reflexivity|]. symmetry. apply nth_byte_at. apply K; auto. intros Q. apply Hp. now apply in_some.
Qed.

(** What matrix_QR_float does. *)
Lemma qr_run e s a q r m A : heap_ok s -> 0 < m -> m * m <= INT_MAX -> a <> q -> a <> r -> q <> r ->
  matrix s a 4 m m A -> readable s q (m * m * 4) -> readable s r (m * m * 4) ->
  exists s', matrix_QR_float a q r m e s = Ret tt s'
    /\ matrix s' a 4 m m A
    /\ (forall i j, 0 <= i < m -> 0 <= j < m -> let t := float_sum m (column A j) in
         let c := fun i => lowered j t (column A j i) in
         float_at s' q (i * m + j) (fl_div (c i) (float_norm m c))
         /\ (i < j -> float_at s' r (i * m + j) t) /\ (i = j -> float_at s' r (i * m + j) (float_norm m c))
         /\ (j < i -> word_at s' r ((i * m + j) * 4) 4 = word_at s r ((i * m + j) * 4) 4))
    /\ files s' = files s /\ unchanged_except [q; r] s s'
    /\ (forall p t, p = q \/ p = r -> ~ 0 <= t < m * m * 4 -> byte_at s' p t = byte_at s p t)
    /\ (forall k, (List.length (objs s) <= k < List.length (objs s) + 2)%nat -> readable s' (Some k) (4 * m)).
Proof.
  intros Hs Hm B N1 N2 N3 HA HQ HR. unfold INT_MAX in B.
  destruct (matrix_arr s a 4 m m A ltac:(lia) Hm Hm HA) as (pa & -> & Ia).
  destruct (readable_isb _ _ _ HQ) as (pq & zq & dq & -> & Iq & Zq). destruct (readable_isb _ _ _ HR) as (pr & zr & dr & -> & Ir & Zr).
  destruct (arr_isb _ _ _ _ _ _ Ia) as (za & da & Ja).
  pose proof (isb_lt _ _ _ _ Iq) as Lq. pose proof (isb_lt _ _ _ _ Ir) as Lr. pose proof (isb_lt _ _ _ _ Ja) as La.
  unfold matrix_QR_float.
  assert (Bm : m <= 2147483647) by (clear - B Hm; nia).
  assert (U : u64 (m * 4) = 4 * m) by (unfold u64; rewrite Z.mod_small; lia). rewrite U. clear U.
  set (k := List.length (objs s)) in *.
  set (s1 := mkSt (objs s ++ [mkObj (e_addr e k) (4 * m) k true (CBytes (e_junk e k))]) (files s)).
  assert (E1 : malloc (4 * m) e s = Ret (Some k) s1).
  { unfold malloc. replace ((0 <=? 4 * m) && (4 * m <? 2 ^ 62)) with true; [reflexivity|]. change (2 ^ 62) with 4611686018427387904. lia. }
  rewrite (bind_ret _ _ _ _ _ _ E1). clear E1.
  assert (L1 : List.length (objs s1) = S k) by (unfold s1; cbn [objs]; rewrite app_length; cbn; lia).
  set (s2 := mkSt (objs s1 ++ [mkObj (e_addr e (S k)) (4 * m) (S k) true (CBytes (e_junk e (S k)))]) (files s1)).
  assert (E2 : malloc (4 * m) e s1 = Ret (Some (S k)) s2).
  { unfold malloc. rewrite L1. replace ((0 <=? 4 * m) && (4 * m <? 2 ^ 62)) with true; [reflexivity|]. change (2 ^ 62) with 4611686018427387904. lia. }
  rewrite (bind_ret _ _ _ _ _ _ E2). clear E2.
  assert (H1 : heap_ok s1) by (apply (heap_ok_app s k); auto; constructor; [cbn; lia|constructor]).
  assert (H2 : heap_ok s2) by (apply (heap_ok_app s1 (S k)); auto; constructor; [cbn; lia|constructor]).
  assert (L2 : List.length (objs s2) = S (S k)) by (unfold s2; cbn [objs]; rewrite app_length, L1; cbn; lia).
  assert (OLD : forall i, (i < k)%nat -> nth_error (objs s2) i = nth_error (objs s) i).
  { intros i Hi. unfold s2; cbn [objs]. rewrite nth_error_app1 by lia. unfold s1; cbn [objs]. now rewrite nth_error_app1 by (fold k; lia). }
  assert (OLDI : forall p z d, isb s p z d -> isb s2 p z d).
  { intros p z d Hp. unfold isb. rewrite (nth_bytes_at s s2 p); auto. apply OLD. eapply isb_lt; eauto. }
  assert (T1 : isb s2 k (4 * m) (e_junk e k)).
  { eapply obj_isb. unfold s2; cbn [objs]. rewrite nth_error_app1 by lia. unfold s1; cbn [objs]. rewrite nth_error_app2 by (fold k; lia). fold k. rewrite Nat.sub_diag. reflexivity. }
  assert (T2 : isb s2 (S k) (4 * m) (e_junk e (S k))).
  { eapply obj_isb. unfold s2; cbn [objs]. rewrite nth_error_app2 by lia. rewrite L1, Nat.sub_diag. reflexivity. }
  assert (A2 : arr s2 pa 0 4 (m * m) (fun t => A (t / m) (t mod m))).
  { destruct Ia as (z & d & I & R). exists z, d. split; [apply OLDI; exact I|exact R]. }
  assert (HR2 : forall i j, 0 <= i < m -> 0 <= j < m -> 0 <= A i j < 4294967296).
  { intros i j Hi Hj. pose proof (arr_range _ _ _ _ _ _ (i * m + j) A2 (cell_range m m i j Hi Hj)) as R. cbv beta in R. rewrite cell_div, cell_mod in R by lia. exact R. }
  assert (ND : NoDup [pa; pq; pr; k; S k]).
  { assert (pa <> pq) by congruence. assert (pa <> pr) by congruence. assert (pq <> pr) by congruence.
    repeat constructor; cbn; intros Q; decompose [or] Q; subst; lia || contradiction. }
  pose proof (arr_of _ _ _ _ 0 4 (m * m) (OLDI _ _ _ Iq) ltac:(lia) ltac:(lia) ltac:(lia)) as Aq.
  pose proof (arr_of _ _ _ _ 0 4 (m * m) (OLDI _ _ _ Ir) ltac:(lia) ltac:(lia) ltac:(lia)) as Ar.
  pose proof (arr_of _ _ _ _ 0 4 m T1 ltac:(lia) ltac:(lia) ltac:(lia)) as Ac. pose proof (arr_of _ _ _ _ 0 4 m T2 ltac:(lia) ltac:(lia) ltac:(lia)) as Ad.
  destruct (loop_run e m pa pq pr k (S k) Hm B ND A HR2 s2 _ _ _ _ (conj H2 (conj A2 (conj Aq (conj Ar (conj Ac Ad)))))) as (s' & gq & gr & gc & gd & E & F & G & K1 & K2).
  exists s'. split; [exact E|]. destruct F as (F0 & F1 & F2 & F3 & F4 & F5).
  split; [apply arr_matrix; exact F1|].
  assert (AT : forall p g, arr s' p 0 4 (m * m) g -> forall i j x, 0 <= i < m -> 0 <= j < m -> fl_ok x -> g (i * m + j) = fl_word x -> float_at s' (Some p) (i * m + j) x).
  { intros p g Hg i j x Hi Hj Vx Ex. exists (fl_word x). split; [|now apply fl_word_back]. rewrite <- Ex. exact (arr_word _ _ _ _ _ _ _ Hg (cell_range m m i j Hi Hj)). }
  split; [|split; [|split; [|split]]].
  - intros i j Hi Hj. cbv zeta. pose proof (C_ok m Hm A HR2 j i Hj Hi) as VC. pose proof (NR_ok m Hm A HR2 j Hj) as VN. pose proof (total_ok m Hm A HR2 j Hj) as VT.
    pose proof (K2 i j Hi Hj) as K.
    split; [apply (AT pq gq F2); auto; apply fl_div_ok; auto|]. split; [|split].
    + intros L. replace (i <? j) with true in K by lia. apply (AT pr gr F3); auto.
    + intros L. replace (i <? j) with false in K by lia. replace (i =? j) with true in K by lia. apply (AT pr gr F3); auto.
    + intros L. replace (i <? j) with false in K by lia. replace (i =? j) with false in K by lia.
      pose proof (arr_word _ _ _ _ _ _ _ F3 (cell_range m m i j Hi Hj)) as W1. rewrite K in W1. rewrite Z.add_0_l in W1.
      change (Z.to_nat 4) with 4%nat in W1. rewrite W1. pose proof (cell_range m m i j Hi Hj). symmetry. rewrite (word_at_isb _ _ _ _ 4 Ir) by lia. do 2 f_equal.
  - rewrite (proj1 G). reflexivity.
  - destruct G as (_ & _ & G & _). intros i Hi Hn. rewrite G; [apply OLD; exact Hi|rewrite L2; fold k in Hi; lia|].
    intros Q. cbn in Q. fold k in Hi. destruct Q as [Q|[Q|[Q|[Q|[]]]]]; [apply Hn; cbn; auto|apply Hn; cbn; auto|injection Q as Q; lia|injection Q as Q; lia].
  - destruct G as (_ & _ & _ & G & _). intros p t [-> | ->] Ht; (rewrite G; [|cbn; auto|lia|exact Ht]); apply nth_byte_at; apply OLD; auto.
  - assert (LV : forall p g, arr s' p 0 4 m g -> readable s' (Some p) (4 * m)) by (intros p g (z & d & I & _ & _ & Z4 & _); exists p, z, d; split; [reflexivity|]; split; [exact I|lia]).
    intros i Hi. fold k in Hi. assert (i = k \/ i = S k) as [-> | ->] by lia; eapply LV; eauto.
Qed.
