(** * Properties C66 and C73: k-means. *)
From Verif Require Import Base ModelFloat ModelCore ModelPixel ModelCluster SpecBase SpecNum SpecStat SpecPixel SpecCluster SpecCxx
  Fixtures Fixtures2 ProofEx10 ProofCluster4 ProofCluster5 ProofEx14.
From Coq Require Import List Lia.
Open Scope Z_scope.

(** C66.  One channel, images small enough for the coordinate sums: the rounds, when the loop stops and what it leaves behind. *)
Theorem C66_kmeans_partial : forall pow2 rnd th e s src m v1 K,
  heap_ok s -> image s src m 1 -> sm_chan m = 1 -> squares pow2 46340 ->
  (forall i, 0 <= rnd i <= 2147483647) -> 0 < K <= 2147483647 ->
  sm_rows m * sm_rows m + sm_cols m * sm_cols m <= 2147483647 ->
  sm_rows m * sm_cols m * (sm_cols m - 1) <= 2147483647 ->
  sm_rows m * sm_cols m * (sm_rows m - 1) <= 2147483647 ->
  word_at s v1 0 8 = Some K -> readable s v1 (16 + 8 * K) -> v1 <> sm_data m ->
  exists cs, kmeans_rounds (sm_rows m) (sm_cols m) (lit_pixel s m) K (random_points rnd (sm_rows m) (sm_cols m)) cs
  /\ forall fuel,
    (exists n s', (n < fuel)%nat /\ hypercv_k_means pow2 rnd fuel src v1 K th e s = Ret tt s'
       /\ first_settled K th cs n /\ centres_left s v1 K (cs (S n)) s' /\ no_leak s s')
    \/ (hypercv_k_means pow2 rnd fuel src v1 K th e s = Fuel
        /\ forall n, (n < fuel)%nat -> ~ settled K th (cs n) (cs (S n))).
Proof. exact kmeans_run. Qed.
Print Assumptions C66_kmeans_partial.

(** Three channels: the same on the grey image, which is never released. *)
Theorem C66_colour_refuted : forall pow2 rnd th e s src m v1 K,
  env_ok e -> heap_ok s -> image s src m 1 -> sm_chan m = 3 -> squares pow2 46340 ->
  (forall i, 0 <= rnd i <= 2147483647) -> 0 < K <= 2147483647 ->
  sm_rows m * sm_rows m + sm_cols m * sm_cols m <= 2147483647 ->
  sm_rows m * sm_cols m * (sm_cols m - 1) <= 2147483647 ->
  sm_rows m * sm_cols m * (sm_rows m - 1) <= 2147483647 ->
  word_at s v1 0 8 = Some K -> readable s v1 (16 + 8 * K) ->
  exists cs, kmeans_rounds (sm_rows m) (sm_cols m) (lit_colour s m) K (random_points rnd (sm_rows m) (sm_cols m)) cs
  /\ forall fuel,
    (exists n s', (n < fuel)%nat /\ hypercv_k_means pow2 rnd fuel src v1 K th e s = Ret tt s'
       /\ first_settled K th cs n /\ centres_left s v1 K (cs (S n)) s' /\ ~ no_leak s s')
    \/ (hypercv_k_means pow2 rnd fuel src v1 K th e s = Fuel
        /\ forall n, (n < fuel)%nat -> ~ settled K th (cs n) (cs (S n))).
Proof. exact colour_run. Qed.
Print Assumptions C66_colour_refuted.

(** Images whose squared diagonal is no int: undefined at the first lit pixel. *)
Theorem C66_wide_refuted : forall pow2 rnd th e s src m v1 K fuel,   heap_ok s -> image s src m 1 -> sm_chan m = 1 ->
  (forall i, 0 <= rnd i <= 2147483647) -> 0 < K <= 2147483647 ->
  2147483647 < sm_rows m * sm_rows m + sm_cols m * sm_cols m -> lit_pixel s m 0 0 = true ->
  word_at s v1 0 8 = Some K -> readable s v1 (16 + 8 * K) -> v1 <> sm_data m -> (0 < fuel)%nat ->
  hypercv_k_means pow2 rnd fuel src v1 K th e s = UB.
Proof. exact wide_ub. Qed.
Print Assumptions C66_wide_refuted.
(** One centre and every pixel lit: undefined as soon as the sum of the columns is no int (2000 by 2000 pixels). *)
Theorem C66_sums_refuted : forall pow2 rnd th e s src m v1 fuel,   heap_ok s -> image s src m 1 -> sm_chan m = 1 -> squares pow2 46340 ->
  (forall i, 0 <= rnd i <= 2147483647) ->
  sm_rows m * sm_rows m + sm_cols m * sm_cols m <= 2147483647 ->
  (forall i j, 0 <= i < sm_rows m -> 0 <= j < sm_cols m -> lit_pixel s m i j = true) ->
  2147483647 < sm_rows m * (sm_cols m * (sm_cols m - 1) / 2) ->
  word_at s v1 0 8 = Some 1 -> readable s v1 24 -> v1 <> sm_data m -> (0 < fuel)%nat ->
  hypercv_k_means pow2 rnd fuel src v1 1 th e s = UB.
Proof. exact sum_ub. Qed.
Print Assumptions C66_sums_refuted.
Example C66_hypotheses : heap_ok (km_st 4 5 1 2 km_two) /\ image (km_st 4 5 1 2 km_two) (Some 0%nat) (km_hdr 4 5 1) 1
  /\ squares sq 46340 /\ word_at (km_st 4 5 1 2 km_two) (Some 2%nat) 0 8 = Some 2
  /\ readable (km_st 4 5 1 2 km_two) (Some 2%nat) (16 + 8 * 2).
Proof.
  split; [apply km_heap|]. split; [apply km_image; cbn; lia|]. split; [exact sq_all|]. split; [reflexivity|].
  do 3 eexists. split; [reflexivity|]. split; [reflexivity|cbn; lia].
Qed.
Example C66_run : exists s', hypercv_k_means sq km_rnd 5 (Some 0%nat) (Some 2%nat) 2 0 ex_env (km_st 4 5 1 2 km_two) = Ret tt s'
  /\ points s' (Some 2%nat) 2 (fun k => if k =? 0 then (0, 0) else (3, 2)).
Proof. exact km_run. Qed.
Example C66_colour_hypotheses : image (km_st 2 2 3 1 (fun _ => 9)) (Some 0%nat) (km_hdr 2 2 3) 1 /\ sm_chan (km_hdr 2 2 3) = 3.
Proof. split; [apply km_image; cbn; lia|reflexivity]. Qed.
Example C66_wide_hypotheses : image (km_st 1 50000 1 1 (fun _ => 9)) (Some 0%nat) (km_hdr 1 50000 1) 1
  /\ 2147483647 < 1 * 1 + 50000 * 50000 /\ lit_pixel (km_st 1 50000 1 1 (fun _ => 9)) (km_hdr 1 50000 1) 0 0 = true.
Proof. split; [apply km_image; cbn; lia|]. split; [reflexivity|reflexivity]. Qed.
Example C66_sums_hypotheses : image (km_st 2000 2000 1 1 (fun _ => 9)) (Some 0%nat) (km_hdr 2000 2000 1) 1
  /\ 2000 * 2000 + 2000 * 2000 <= 2147483647 /\ 2147483647 < 2000 * (2000 * (2000 - 1) / 2).
Proof. split; [apply km_image; cbn; lia|]. split; [discriminate|reflexivity]. Qed.

(** C73.  One centre: at most two rounds, and the result is the mean position of the lit pixels. *)
Theorem C73_one_cluster : forall pow2 rnd th e s src m v1 K,
  heap_ok s -> image s src m 1 -> sm_chan m = 1 -> squares pow2 46340 ->
  (forall i, 0 <= rnd i <= 2147483647) -> 0 < K <= 2147483647 ->
  sm_rows m * sm_rows m + sm_cols m * sm_cols m <= 2147483647 ->
  sm_rows m * sm_cols m * (sm_cols m - 1) <= 2147483647 ->
  sm_rows m * sm_cols m * (sm_rows m - 1) <= 2147483647 ->
  word_at s v1 0 8 = Some K -> readable s v1 (16 + 8 * K) -> v1 <> sm_data m ->
  forall fuel, K = 1 -> 0 <= th -> (2 <= fuel)%nat ->
  exists s', hypercv_k_means pow2 rnd fuel src v1 K th e s = Ret tt s' /\ no_leak s s'
    /\ centres_left s v1 K (fun _ => centroid (filter (fun p => lit_pixel s m (fst p) (snd p)) (pixels (sm_rows m) (sm_cols m)))) s'.
Proof. exact one_ends_all. Qed.
Print Assumptions C73_one_cluster.

(** A black image: one round. *)
Theorem C73_black : forall pow2 rnd th e s src m v1 K,
  heap_ok s -> image s src m 1 -> sm_chan m = 1 -> squares pow2 46340 ->
  (forall i, 0 <= rnd i <= 2147483647) -> 0 < K <= 2147483647 ->
  sm_rows m * sm_rows m + sm_cols m * sm_cols m <= 2147483647 ->
  sm_rows m * sm_cols m * (sm_cols m - 1) <= 2147483647 ->
  sm_rows m * sm_cols m * (sm_rows m - 1) <= 2147483647 ->
  word_at s v1 0 8 = Some K -> readable s v1 (16 + 8 * K) -> v1 <> sm_data m ->
  forall fuel, (forall i j, 0 <= i < sm_rows m -> 0 <= j < sm_cols m -> pix s m i j 0 = Some 0) -> 0 <= th -> (1 <= fuel)%nat ->
  exists s', hypercv_k_means pow2 rnd fuel src v1 K th e s = Ret tt s' /\ no_leak s s'
    /\ centres_left s v1 K (fun _ => (0, 0)) s'.
Proof. exact black_ends_all. Qed.
Print Assumptions C73_black.

(** A threshold no smaller than the image: exactly one round. *)
Theorem C73_large_threshold : forall pow2 rnd th e s src m v1 K,
  heap_ok s -> image s src m 1 -> sm_chan m = 1 -> squares pow2 46340 ->
  (forall i, 0 <= rnd i <= 2147483647) -> 0 < K <= 2147483647 ->
  sm_rows m * sm_rows m + sm_cols m * sm_cols m <= 2147483647 ->
  sm_rows m * sm_cols m * (sm_cols m - 1) <= 2147483647 ->
  sm_rows m * sm_cols m * (sm_rows m - 1) <= 2147483647 ->
  word_at s v1 0 8 = Some K -> readable s v1 (16 + 8 * K) -> v1 <> sm_data m ->
  forall fuel, sm_rows m <= th + 1 -> sm_cols m <= th + 1 -> (1 <= fuel)%nat ->
  exists s' c, hypercv_k_means pow2 rnd fuel src v1 K th e s = Ret tt s' /\ no_leak s s'
    /\ kmeans_round (sm_rows m) (sm_cols m) (lit_pixel s m) K (random_points rnd (sm_rows m) (sm_cols m)) c /\ centres_left s v1 K c s'.
Proof. exact far_ends_all. Qed.
Print Assumptions C73_large_threshold.

(** A negative threshold on a black image, all random numbers 0: it never ends. *)
Theorem C73_negative_threshold_refuted : forall pow2 rnd th e s src m v1 K,
  heap_ok s -> image s src m 1 -> sm_chan m = 1 -> squares pow2 46340 ->
  (forall i, 0 <= rnd i <= 2147483647) -> 0 < K <= 2147483647 ->
  sm_rows m * sm_rows m + sm_cols m * sm_cols m <= 2147483647 ->
  sm_rows m * sm_cols m * (sm_cols m - 1) <= 2147483647 ->
  sm_rows m * sm_cols m * (sm_rows m - 1) <= 2147483647 ->
  word_at s v1 0 8 = Some K -> readable s v1 (16 + 8 * K) -> v1 <> sm_data m ->
  forall fuel, (forall i j, 0 <= i < sm_rows m -> 0 <= j < sm_cols m -> pix s m i j 0 = Some 0) -> th < 0 ->
  (forall i, rnd i = 0) -> hypercv_k_means pow2 rnd fuel src v1 K th e s = Fuel.
Proof. exact black_forever_all. Qed.
Print Assumptions C73_negative_threshold_refuted.

Example C73_hypotheses : image (km_st 2 3 1 1 (fun _ => 0)) (Some 0%nat) (km_hdr 2 3 1) 1
  /\ (forall i j, 0 <= i < 2 -> 0 <= j < 3 -> pix (km_st 2 3 1 1 (fun _ => 0)) (km_hdr 2 3 1) i j 0 = Some 0)
  /\ word_at (km_st 2 3 1 1 (fun _ => 0)) (Some 2%nat) 0 8 = Some 1.
Proof.
  split; [apply km_image; cbn; lia|]. split; [|reflexivity].
  intros i j Hi Hj. assert (i = 0 \/ i = 1) as [->| ->] by lia; (assert (j = 0 \/ j = 1 \/ j = 2) as [->|[->| ->]] by lia; reflexivity).
Qed.
