(** * Proofs: k-means, the whole function. *)
From Verif Require Import Base Logic ModelCore ModelFloat ModelPixel ModelVector ModelCluster
  SpecBase SpecNum SpecStat SpecVector SpecCluster SpecCxx
  ProofFloat ProofFloat2 ProofCore ProofLayout ProofHM ProofCopy ProofWord ProofArr ProofSave2 ProofImage2 ProofCluster ProofCluster2 ProofCluster3.
From Coq Require Import ZifyBool ZifyNat Floats.SpecFloat.
Ltac Zify.zify_post_hook ::= Z.div_mod_to_equations.
Open Scope Z_scope.

Lemma head_run pow2 rnd fuel e s src m q1 N1 d1 K th : isb s q1 N1 d1 -> 8 <= N1 -> sm_at s src = Some m ->
  word_at s (Some q1) 0 8 = Some K -> 0 < K <= 2147483647 ->
  hypercv_k_means pow2 rnd fuel src (Some q1) K th e s
  = (mat <- (if sm_chan m =? 1 then ret src else sm_rgb2gray src 0) ;;
     km_tail pow2 rnd fuel mat (Some q1) K (sm_rows m) (sm_cols m) th) e s.
Proof.
  intros I1 HN Hm HW HK. unfold hypercv_k_means. rewrite bind_assert by (destruct src; [reflexivity|discriminate]).
  rewrite bind_assert by lia. unfold vector_size. cbn [nonnull].
  rewrite (bind_ret _ _ _ _ _ _ (loadle_ok e s q1 N1 d1 8 I1 0 ltac:(lia) ltac:(lia))).
  rewrite (word_at_isb s q1 N1 d1 8 I1 0) in HW by lia. assert (HW2 : word d1 0 8 = K) by congruence. rewrite HW2.
  rewrite bind_assert by (unfold u64; rewrite Z.mod_small by lia; apply Z.eqb_refl).
  rewrite (bind_ret _ _ _ _ _ _ (sget_ok _ _ e _ Hm)). reflexivity.
Qed.

Lemma round_ok dat rows cols K c :
  0 < K -> 0 < rows -> 0 < cols -> rows * rows + cols * cols <= 2147483647 ->
  (forall k, 0 <= k < K -> 0 <= fst (c k) < cols /\ 0 <= snd (c k) < rows) ->
  kmeans_round rows cols (lit dat cols) K c (next K dat rows cols c)
  /\ (forall k, 0 <= k < K -> 0 <= fst (next K dat rows cols c k) < cols /\ 0 <= snd (next K dat rows cols c k) < rows).
Proof.
  intros HK Hr Hc Hd Hin. assert (O01 : 0%nat <> 1%nat) by lia. assert (O02 : 0%nat <> 2%nat) by lia. assert (O12 : 1%nat <> 2%nat) by lia.
  assert (O3 : 3%nat <> 0%nat /\ 3%nat <> 1%nat /\ 3%nat <> 2%nat) by lia. split.
  - apply (cnew_round 0 1 2 3 K dat O01 O02 O12 O3 rows cols c HK Hd Hin).
  - intros k _. apply (cnew_range 0 1 2 3 K dat O01 O02 O12 O3 rows cols c Hr Hc Hin).
Qed.

Lemma start_in rnd rows cols K : 0 < rows -> 0 < cols ->
  forall k, 0 <= k < K -> 0 <= fst (random_points rnd rows cols k) < cols /\ 0 <= snd (random_points rnd rows cols k) < rows.
Proof. intros Hr Hc k _. unfold random_points. cbn [fst snd]. split; apply Z.mod_pos_bound; lia. Qed.

Lemma rounds_ok dat rows cols K rnd :
  0 < K -> 0 < rows -> 0 < cols -> rows * rows + cols * cols <= 2147483647 ->
  kmeans_rounds rows cols (lit dat cols) K (random_points rnd rows cols) (citer K dat rows cols (random_points rnd rows cols)).
Proof.
  intros HK Hr Hc Hd. split; [reflexivity|].
  assert (X : forall m, forall k, 0 <= k < K -> 0 <= fst (citer K dat rows cols (random_points rnd rows cols) m k) < cols /\ 0 <= snd (citer K dat rows cols (random_points rnd rows cols) m k) < rows).
  { induction m as [|m IH]; [now apply start_in|]. intros k Hk. cbn [citer]. apply round_ok; auto. }
  intros m. cbn [citer]. apply round_ok; auto.
Qed.

Lemma kmeans_round_ext rows cols l l' K c c' :
  (forall i j, 0 <= i < rows -> 0 <= j < cols -> l i j = l' i j) -> kmeans_round rows cols l K c c' -> kmeans_round rows cols l' K c c'.
Proof.
  intros HE (lb & A & B). exists lb. split.
  - intros i j Hi Hj H. rewrite <- HE in H by auto. auto.
  - intros k Hk. rewrite B by exact Hk. f_equal. apply filter_ext_in. intros p Hp.
    apply pixels_in in Hp. rewrite HE by tauto. reflexivity.
Qed.

Lemma lit_ok s m q nd dat i j : sm_data m = Some q -> isb s q nd dat -> sm_chan m = 1 -> sm_rows m * sm_cols m <= nd ->
  0 <= i < sm_rows m -> 0 <= j < sm_cols m -> lit dat (sm_cols m) i j = lit_pixel s m i j.
Proof.
  intros Hd I Hch Hn Hi Hj. unfold lit, lit_pixel, pix, pixel_byte. rewrite Hd, Hch.
  assert (0 <= i * sm_cols m + j < sm_rows m * sm_cols m) by nia.
  rewrite (byte_at_isb s q nd dat _ I) by lia. replace (((i * sm_cols m + j) * 1 + 0) * 1 + 0) with (i * sm_cols m + j) by lia. reflexivity.
Qed.

(** One channel. *)
Theorem kmeans_run pow2 rnd th e s src m v1 K :
  heap_ok s -> image s src m 1 -> sm_chan m = 1 -> squares pow2 46340 ->
  (forall i, 0 <= rnd i <= 2147483647) -> 0 < K <= 2147483647 ->
  sm_rows m * sm_rows m + sm_cols m * sm_cols m <= 2147483647 ->
  sm_rows m * sm_cols m * (sm_cols m - 1) <= 2147483647 ->
  sm_rows m * sm_cols m * (sm_rows m - 1) <= 2147483647 ->
  word_at s v1 0 8 = Some K -> readable s v1 (16 + 8 * K) -> v1 <> sm_data m ->
  exists cs, kmeans_rounds (sm_rows m) (sm_cols m) (lit_pixel s m) K (random_points rnd (sm_rows m) (sm_cols m)) cs
  /\ forall fuel,
    (exists n s', (n < fuel)%nat /\ hypercv_k_means pow2 rnd fuel src v1 K th e s = Ret tt s'
       /\ first_settled K th cs n /\ centres_left s v1 K (cs (S n)) s' /\ no_leak s s')
    \/ (hypercv_k_means pow2 rnd fuel src v1 K th e s = Fuel
        /\ forall n, (n < fuel)%nat -> ~ settled K th (cs n) (cs (S n))).
Proof.
  intros Hs IM H1 Hsq Hrnd HK Hd Hx Hy HW (q1 & N1 & d1 & -> & I1 & HN) Hne.
  destruct IM as [Hm _ Hr Hc _ Hsz (qd & nd & dat & Hdat & Id & Hnd)]. rewrite Hdat in Hne, Id.
  set (rows := sm_rows m) in *. set (cols := sm_cols m) in *. rewrite H1 in Hnd, Hsz.
  assert (Hne' : qd <> q1) by congruence.
  exists (citer K dat rows cols (random_points rnd rows cols)). split.
  - destruct (rounds_ok dat rows cols K rnd ltac:(lia) Hr Hc Hd) as [A B]. split; [exact A|].
    intros n. eapply kmeans_round_ext; [|apply B]. intros i j Hi Hj. apply (lit_ok s m qd nd dat); auto. fold rows cols. lia.
  - intros fuel. rewrite (head_run pow2 rnd fuel e s src m q1 N1 d1 K th I1 ltac:(lia) Hm HW HK).
    rewrite H1. change (1 =? 1) with true. cbv iota. rewrite bind_ret_l. fold rows cols.
    apply (tail_run e s q1 N1 d1 src m qd nd dat); auto; lia.
Qed.

(** ** When it ends *)

Lemma first_nearest_one c i j k : first_nearest 1 c i j k -> k = 0.
Proof. intros (H & _). lia. Qed.

Lemma kmeans_one rows cols l c c1 c2 : kmeans_round rows cols l 1 c c1 -> kmeans_round rows cols l 1 c1 c2 -> c1 0 = c2 0.
Proof.
  intros (l1 & A1 & B1) (l2 & A2 & B2). rewrite B1, B2 by lia. f_equal. apply filter_ext_in. intros p Hp. apply pixels_in in Hp as [Hi Hj].
  destruct (l (fst p) (snd p)) eqn:E; [|reflexivity]. cbn [andb].
  now rewrite (first_nearest_one _ _ _ _ (A1 _ _ Hi Hj E)), (first_nearest_one _ _ _ _ (A2 _ _ Hi Hj E)).
Qed.

Lemma kmeans_black rows cols l K c c' k : (forall i j, 0 <= i < rows -> 0 <= j < cols -> l i j = false) ->
  kmeans_round rows cols l K c c' -> 0 <= k < K -> c' k = (0, 0).
Proof.
  intros HL (lb & _ & B) Hk. rewrite B by exact Hk.
  replace (filter _ (pixels rows cols)) with (@nil (Z * Z)); [reflexivity|].
  assert (X : forall p, In p (pixels rows cols) -> l (fst p) (snd p) = false) by (intros p Hp; apply pixels_in in Hp; apply HL; tauto).
  revert X. generalize (pixels rows cols). intros L. induction L as [|p L IH]; intros X; [reflexivity|].
  cbn [filter]. rewrite X by (left; reflexivity). cbn [andb]. apply IH. intros p' Hp'. apply X. now right.
Qed.

Lemma round_all rows cols l c c' : kmeans_round rows cols l 1 c c' ->
  c' 0 = centroid (filter (fun p => l (fst p) (snd p)) (pixels rows cols)).
Proof.
  intros (lb & A & B). rewrite B by lia. f_equal. apply filter_ext_in. intros p Hp. apply pixels_in in Hp as [Hi Hj].
  destruct (l (fst p) (snd p)) eqn:E; [|reflexivity]. now rewrite (first_nearest_one _ _ _ _ (A _ _ Hi Hj E)).
Qed.

Lemma centres_ext s v1 K c c' s' : (forall k, 0 <= k < K -> c k = c' k) -> centres_left s v1 K c s' -> centres_left s v1 K c' s'.
Proof. intros HE (P & R). split; [|exact R]. intros k Hk. rewrite <- HE by exact Hk. apply P, Hk. Qed.

Section End_.
  Variables (pow2 : sf -> sf) (rnd : nat -> Z) (th : Z) (e : env) (s : st) (src : ptr) (m : smat) (v1 : ptr) (K : Z).
  Hypotheses (Hs : heap_ok s) (IM : image s src m 1) (H1 : sm_chan m = 1) (Hsq : squares pow2 46340)
    (Hrnd : forall i, 0 <= rnd i <= 2147483647) (HK : 0 < K <= 2147483647)
    (Hd : sm_rows m * sm_rows m + sm_cols m * sm_cols m <= 2147483647)
    (Hx : sm_rows m * sm_cols m * (sm_cols m - 1) <= 2147483647)
    (Hy : sm_rows m * sm_cols m * (sm_rows m - 1) <= 2147483647)
    (HW : word_at s v1 0 8 = Some K) (Rv : readable s v1 (16 + 8 * K)) (Hne : v1 <> sm_data m).

  Lemma one_ends fuel : K = 1 -> 0 <= th -> (2 <= fuel)%nat ->
    exists s', hypercv_k_means pow2 rnd fuel src v1 K th e s = Ret tt s' /\ no_leak s s'
      /\ centres_left s v1 K (fun _ => centroid (filter (fun p => lit_pixel s m (fst p) (snd p)) (pixels (sm_rows m) (sm_cols m)))) s'.
  Proof.
    intros E1 Hth Hf. destruct (kmeans_run pow2 rnd th e s src m v1 K) as (cs & (_ & RD) & RUN); auto. rewrite E1 in RD.
    destruct (RUN fuel) as [(n & s' & Hn & R & (ST & NO) & CL & NL)|(R & NO)].
    - exists s'. split; [exact R|]. split; [exact NL|]. eapply centres_ext; [|exact CL]. intros k Hk.
      replace k with 0 by lia. now apply (round_all _ _ _ (cs n)).
    - exfalso. apply (NO 1%nat ltac:(lia)). intros k Hk. replace k with 0 by lia.
      rewrite (kmeans_one _ _ _ _ _ _ (RD O) (RD 1%nat)). lia.
  Qed.

  Lemma black_ends fuel : (forall i j, 0 <= i < sm_rows m -> 0 <= j < sm_cols m -> pix s m i j 0 = Some 0) -> 0 <= th -> (1 <= fuel)%nat ->
    exists s', hypercv_k_means pow2 rnd fuel src v1 K th e s = Ret tt s' /\ no_leak s s'
      /\ centres_left s v1 K (fun _ => (0, 0)) s'.
  Proof.
    intros HB Hth Hf. destruct (kmeans_run pow2 rnd th e s src m v1 K) as (cs & (C0 & RD) & RUN); auto.
    assert (LB : forall i j, 0 <= i < sm_rows m -> 0 <= j < sm_cols m -> lit_pixel s m i j = false) by (intros i j Hi Hj; unfold lit_pixel; now rewrite HB).
    destruct (RUN fuel) as [(n & s' & Hn & R & (ST & NO) & CL & NL)|(R & NO)].
    - exists s'. split; [exact R|]. split; [exact NL|]. eapply centres_ext; [|exact CL]. intros k Hk. eapply kmeans_black; eauto.
    - exfalso. apply (NO 0%nat ltac:(lia)). intros k Hk. rewrite (kmeans_black _ _ _ _ _ _ k LB (RD O) Hk). rewrite C0 by exact Hk.
      pose proof (start_in rnd (sm_rows m) (sm_cols m) K (im_rows _ _ _ _ IM) (im_cols _ _ _ _ IM) k Hk). cbn [fst snd]. lia.
  Qed.

  Lemma far_ends fuel : sm_rows m <= th + 1 -> sm_cols m <= th + 1 -> (1 <= fuel)%nat ->
    exists s' c, hypercv_k_means pow2 rnd fuel src v1 K th e s = Ret tt s' /\ no_leak s s'
      /\ kmeans_round (sm_rows m) (sm_cols m) (lit_pixel s m) K (random_points rnd (sm_rows m) (sm_cols m)) c /\ centres_left s v1 K c s'.
  Proof.
    intros T1 T2 Hf.
    assert (SD : forall c c', (forall k, 0 <= k < K -> 0 <= fst (c k) /\ 0 <= snd (c k)) ->
              kmeans_round (sm_rows m) (sm_cols m) (lit_pixel s m) K c c' -> settled K th c c').
    { intros c c' Hp (lb & _ & B) k Hk. specialize (Hp k Hk). rewrite B by exact Hk.
      match goal with |- context [centroid (filter ?f ?l)] => set (L := filter f l) end.
      assert (In0 : forall p, In p L -> 0 <= fst p < sm_rows m /\ 0 <= snd p < sm_cols m).
      { intros p Hq. apply filter_In in Hq as [Hq _]. now apply pixels_in in Hq. }
      pose proof (im_rows _ _ _ _ IM). pose proof (im_cols _ _ _ _ IM).
      destruct L as [|p L]; [cbn; lia|]. set (M := p :: L) in *. unfold centroid. subst M. cbn [fst snd]. set (M := p :: L) in *.
      assert (A : 0 <= total snd M <= (sm_cols m - 1) * Z.of_nat (List.length M)) by (apply total_bound; intros q Hq; apply In0 in Hq; lia).
      assert (A' : 0 <= total fst M <= (sm_rows m - 1) * Z.of_nat (List.length M)) by (apply total_bound; intros q Hq; apply In0 in Hq; lia).
      assert (0 < Z.of_nat (List.length M)) by (unfold M; cbn; lia).
      pose proof (quot_range _ _ (sm_cols m) H2 A). pose proof (quot_range _ _ (sm_rows m) H2 A'). lia. }
    destruct (kmeans_run pow2 rnd th e s src m v1 K) as (cs & (C0 & RD) & RUN); auto.
    assert (P0 : forall k, 0 <= k < K -> 0 <= fst (cs O k) /\ 0 <= snd (cs O k)).
    { intros k Hk. rewrite C0 by exact Hk. pose proof (start_in rnd (sm_rows m) (sm_cols m) K (im_rows _ _ _ _ IM) (im_cols _ _ _ _ IM) k Hk). lia. }
    pose proof (SD _ _ P0 (RD O)) as S0.
    destruct (RUN fuel) as [(n & s' & Hn & R & (ST & NO) & CL & NL)|(R & NO)].
    - exists s', (cs 1%nat). split; [exact R|]. split; [exact NL|].
      assert (n = O) as -> by (destruct n; [reflexivity|exfalso; apply (NO O); [lia|exact S0]]).
      split; [|exact CL]. destruct (RD O) as (lb & A & B). exists lb. split; [|exact B].
      intros i j Hi Hj HL. destruct (A i j Hi Hj HL) as (A1 & A2 & A3). split; [exact A1|]. split.
      + intros k' Hk'. specialize (A2 k' Hk'). now rewrite !C0 in A2 by lia.
      + intros k' Hk'. specialize (A3 k' Hk'). now rewrite !C0 in A3 by lia.
    - exfalso. now apply (NO 0%nat ltac:(lia)).
  Qed.

  Lemma black_forever fuel : (forall i j, 0 <= i < sm_rows m -> 0 <= j < sm_cols m -> pix s m i j 0 = Some 0) -> th < 0 ->
    (forall i, rnd i = 0) -> hypercv_k_means pow2 rnd fuel src v1 K th e s = Fuel.
  Proof.
    intros HB Hth R0. destruct (kmeans_run pow2 rnd th e s src m v1 K) as (cs & (C0 & RD) & RUN); auto.
    assert (LB : forall i j, 0 <= i < sm_rows m -> 0 <= j < sm_cols m -> lit_pixel s m i j = false) by (intros i j Hi Hj; unfold lit_pixel; now rewrite HB).
    assert (Z0 : forall n, cs n 0 = (0, 0)).
    { intros [|n]; [|eapply kmeans_black; eauto; lia]. rewrite C0 by lia. unfold random_points. rewrite !R0. now rewrite !Z.mod_0_l by (pose proof (im_rows _ _ _ _ IM); pose proof (im_cols _ _ _ _ IM); lia). }
    destruct (RUN fuel) as [(n & s' & Hn & R & (ST & NO) & CL & NL)|(R & NO)]; [|exact R].
    exfalso. specialize (ST 0 ltac:(lia)). rewrite !Z0 in ST. cbn [fst snd] in ST. lia.
  Qed.
End End_.

Lemma one_ends_all : forall pow2 rnd th e s src m v1 K,
  heap_ok s -> image s src m 1 -> sm_chan m = 1 -> squares pow2 46340 ->
  (forall i, 0 <= rnd i <= 2147483647) -> 0 < K <= 2147483647 ->
  sm_rows m * sm_rows m + sm_cols m * sm_cols m <= 2147483647 ->
  sm_rows m * sm_cols m * (sm_cols m - 1) <= 2147483647 ->
  sm_rows m * sm_cols m * (sm_rows m - 1) <= 2147483647 ->
  word_at s v1 0 8 = Some K -> readable s v1 (16 + 8 * K) -> v1 <> sm_data m ->
  forall fuel, K = 1 -> 0 <= th -> (2 <= fuel)%nat ->
  exists s', hypercv_k_means pow2 rnd fuel src v1 K th e s = Ret tt s' /\ no_leak s s'
    /\ centres_left s v1 K (fun _ => centroid (filter (fun p => lit_pixel s m (fst p) (snd p)) (pixels (sm_rows m) (sm_cols m)))) s'.
Proof. intros. eapply one_ends; eassumption. Qed.

Lemma black_ends_all : forall pow2 rnd th e s src m v1 K,
  heap_ok s -> image s src m 1 -> sm_chan m = 1 -> squares pow2 46340 ->
  (forall i, 0 <= rnd i <= 2147483647) -> 0 < K <= 2147483647 ->
  sm_rows m * sm_rows m + sm_cols m * sm_cols m <= 2147483647 ->
  sm_rows m * sm_cols m * (sm_cols m - 1) <= 2147483647 ->
  sm_rows m * sm_cols m * (sm_rows m - 1) <= 2147483647 ->
  word_at s v1 0 8 = Some K -> readable s v1 (16 + 8 * K) -> v1 <> sm_data m ->
  forall fuel, (forall i j, 0 <= i < sm_rows m -> 0 <= j < sm_cols m -> pix s m i j 0 = Some 0) -> 0 <= th -> (1 <= fuel)%nat ->
  exists s', hypercv_k_means pow2 rnd fuel src v1 K th e s = Ret tt s' /\ no_leak s s'
    /\ centres_left s v1 K (fun _ => (0, 0)) s'.
Proof. intros. eapply black_ends; eassumption. Qed.

Lemma far_ends_all : forall pow2 rnd th e s src m v1 K,
  heap_ok s -> image s src m 1 -> sm_chan m = 1 -> squares pow2 46340 ->
  (forall i, 0 <= rnd i <= 2147483647) -> 0 < K <= 2147483647 ->
  sm_rows m * sm_rows m + sm_cols m * sm_cols m <= 2147483647 ->
  sm_rows m * sm_cols m * (sm_cols m - 1) <= 2147483647 ->
  sm_rows m * sm_cols m * (sm_rows m - 1) <= 2147483647 ->
  word_at s v1 0 8 = Some K -> readable s v1 (16 + 8 * K) -> v1 <> sm_data m ->
  forall fuel, sm_rows m <= th + 1 -> sm_cols m <= th + 1 -> (1 <= fuel)%nat ->
  exists s' c, hypercv_k_means pow2 rnd fuel src v1 K th e s = Ret tt s' /\ no_leak s s'
    /\ kmeans_round (sm_rows m) (sm_cols m) (lit_pixel s m) K (random_points rnd (sm_rows m) (sm_cols m)) c /\ centres_left s v1 K c s'.
Proof. intros. eapply far_ends; eassumption. Qed.

Lemma black_forever_all : forall pow2 rnd th e s src m v1 K,
  heap_ok s -> image s src m 1 -> sm_chan m = 1 -> squares pow2 46340 ->
  (forall i, 0 <= rnd i <= 2147483647) -> 0 < K <= 2147483647 ->
  sm_rows m * sm_rows m + sm_cols m * sm_cols m <= 2147483647 ->
  sm_rows m * sm_cols m * (sm_cols m - 1) <= 2147483647 ->
  sm_rows m * sm_cols m * (sm_rows m - 1) <= 2147483647 ->
  word_at s v1 0 8 = Some K -> readable s v1 (16 + 8 * K) -> v1 <> sm_data m ->
  forall fuel, (forall i j, 0 <= i < sm_rows m -> 0 <= j < sm_cols m -> pix s m i j 0 = Some 0) -> th < 0 ->
  (forall i, rnd i = 0) -> hypercv_k_means pow2 rnd fuel src v1 K th e s = Fuel.
Proof. intros. eapply black_forever; eassumption. Qed.
