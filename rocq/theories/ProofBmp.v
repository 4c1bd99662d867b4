(** * Proofs: BMP files. *)
From Verif Require Import Base Logic ModelCore ModelPixel ModelFile SpecBase SpecCore SpecImage SpecImage2 SpecPixel SpecFile ProofCore ProofLayout ProofHM ProofCopy ProofCore2 ProofImage3 ProofImage4 ProofPixel ProofFlip ProofColor ProofCalib.
From Coq Require Import String ZifyBool ZifyNat.
Ltac Zify.zify_post_hook ::= Z.div_mod_to_equations.
Open Scope Z_scope.

(** ** The file system *)

Lemma lookup_same l p b : lookup_file ((p, b) :: l) p = Some b.
Proof. cbn. destruct (list_eq_dec Z.eq_dec p p); congruence. Qed.
Lemma lookup_other l p q b : p <> q -> lookup_file ((q, b) :: l) p = lookup_file l p.
Proof. intros H. cbn. destruct (list_eq_dec Z.eq_dec p q); congruence. Qed.

Definition with_file (s : st) (p : path) (b : list Z) : st := mkSt (objs s) ((p, b) :: files s).

Lemma fput_ok e s p old b : file_of s p = Some old -> fput p b e s = Ret tt (with_file s p (old ++ b)).
Proof. intros H. unfold fput. rewrite H. reflexivity. Qed.
Lemma file_with s p b : file_of (with_file s p b) p = Some b.
Proof. apply lookup_same. Qed.
Lemma file_with_other s p q b : q <> p -> file_of (with_file s p b) q = file_of s q.
Proof. intros H. apply lookup_other; auto. Qed.
Lemma isb_with s p b q n d : isb (with_file s p b) q n d <-> isb s q n d.
Proof. reflexivity. Qed.

Lemma fopen_w_ok can e s p : can p = true -> fopen_w can p e s = Ret true (with_file s p []).
Proof. intros H. unfold fopen_w. rewrite H. reflexivity. Qed.

Definition bytes_of (d : Z -> Z) (n : Z) : list Z := map (fun i => d i mod 256) (iota n).

Lemma iota_len n : List.length (iota n) = Z.to_nat n.
Proof. unfold iota. now rewrite map_length, seq_length. Qed.
Lemma iota_nth n i : 0 <= i < n -> nth_error (iota n) (Z.to_nat i) = Some i.
Proof.
  intros H. unfold iota. rewrite nth_error_map, (nth_error_nth' _ 0%nat) by (rewrite seq_length; lia).
  cbn. rewrite seq_nth by lia. f_equal. lia.
Qed.
Lemma bytes_of_len d n : 0 <= n -> Z.of_nat (List.length (bytes_of d n)) = n.
Proof. intros H. unfold bytes_of. rewrite map_length, iota_len. lia. Qed.
Lemma bytes_of_nth d n i : 0 <= i < n -> nth_error (bytes_of d n) (Z.to_nat i) = Some (d i mod 256).
Proof. intros H. unfold bytes_of. now rewrite nth_error_map, iota_nth. Qed.
Lemma bytes_of_ext d d' n : (forall i, 0 <= i < n -> d i mod 256 = d' i mod 256) -> bytes_of d n = bytes_of d' n.
Proof.
  intros H. unfold bytes_of. apply map_ext_in. intros i Hi. unfold iota in Hi.
  apply in_map_iff in Hi as (x & <- & Hx). apply in_seq in Hx. apply H. lia.
Qed.

Lemma fwrite_ok e s q sz d n p old : isb s q sz d -> 0 <= n <= sz -> file_of s p = Some old ->
  fwrite (Some q) n p e s = Ret tt (with_file s p (old ++ bytes_of d n)).
Proof.
  intros H Hn Hf. unfold fwrite. rewrite H. replace ((0 <=? n) && (n <=? sz)) with true by lia.
  now rewrite (fput_ok _ _ _ _ _ Hf).
Qed.

(** ** Exchanging bytes *)

(** Every cell of P takes the value of its partner. *)
Definition swapw (e : env) (s0 : st) (q : nat) (m : M unit) (P : Z -> Prop) (pi : Z -> Z) : Prop :=
  forall f, exists f',
    m e (putd s0 q f) = Ret tt (putd s0 q f')
    /\ (forall x, P x -> f' x mod 256 = f (pi x) mod 256)
    /\ (forall x, ~ P x -> f' x = f x).

Lemma swapw_for e s0 q lo hi body (P : Z -> Z -> Prop) pi :
  (forall i, lo <= i < hi -> swapw e s0 q (body i) (P i) pi) ->
  (forall i j x, lo <= i < hi -> lo <= j < hi -> P i x -> P j x -> i = j) ->
  (forall i x, lo <= i < hi -> P i x -> P i (pi x)) ->
  swapw e s0 q (for_ lo hi body) (fun x => exists i, lo <= i < hi /\ P i x) pi.
Proof.
  intros H D K. unfold for_. remember (Z.to_nat (hi - lo)) as n eqn:En.
  destruct (Z_le_gt_dec hi lo) as [Hle|Hgt].
  - replace n with 0%nat by lia. intros f. exists f. split; [reflexivity|].
    split; [intros p (i & Hi & _); lia|auto].
  - assert (Hn : hi = lo + Z.of_nat n) by lia. clear En Hgt. revert lo H D K Hn.
    induction n as [|n IH]; intros lo H D K Hn.
    + intros f. exists f. split; [reflexivity|].
      split; [intros p (i & Hi & _); lia|auto].
    + intros f. cbn [iter_]. destruct (H lo ltac:(lia) f) as (f1 & E1 & A1 & B1).
      destruct (IH (lo + 1)) with (f := f1) as (f2 & E2 & A2 & B2);
        [intros; apply H; lia | intros; eapply D; eauto; lia | intros; apply K; auto; lia | lia |].
      exists f2. split; [now rewrite (bind_ret _ _ _ _ _ _ E1)|]. split.
      * intros p (i & Hi & Hp). destruct (Z.eq_dec i lo) as [-> | Hne].
        -- rewrite B2; auto. intros (j & Hj & Hp'). assert (lo = j) by (apply (D lo j p); auto; lia). lia.
        -- rewrite A2 by (exists i; split; auto; lia). rewrite B1; auto.
           intros Hp'. apply Hne. apply (D i lo (pi p)); auto; lia.
      * intros p Hp. rewrite B2, B1; auto.
        -- intros Hp'. apply Hp. exists lo. split; auto; lia.
        -- intros (i & Hi & Hp'). apply Hp. exists i. split; auto; lia.
Qed.

(** The partner of a byte in the exchange of the rows of h rows of rl bytes. *)
Definition partner (rl h x : Z) : Z :=
  (h - 1 - x / rl) * rl + (x mod rl / 3) * 3 + (2 - x mod rl mod 3).

Lemma radix_rl rl r j k w : 0 <= j < w -> 0 <= k < 3 -> 3 * w <= rl ->
  (r * rl + j * 3 + k) / rl = r /\ (r * rl + j * 3 + k) mod rl = j * 3 + k.
Proof. intros. replace (r * rl + j * 3 + k) with (r * rl + (j * 3 + k)) by ring. apply radix2. lia. Qed.

Lemma partner_eq rl h r j k w : 0 <= j < w -> 0 <= k < 3 -> 3 * w <= rl ->
  partner rl h (r * rl + j * 3 + k) = (h - 1 - r) * rl + j * 3 + (2 - k).
Proof.
  intros Hj Hk Hw. unfold partner. destruct (radix_rl rl r j k w Hj Hk Hw) as [-> ->].
  destruct (radix2 j k 3 Hk) as [-> ->]. reflexivity.
Qed.

Lemma pos_inj rl w r j k r' j' k' : 0 <= j < w -> 0 <= k < 3 -> 0 <= j' < w -> 0 <= k' < 3 -> 3 * w <= rl ->
  r * rl + j * 3 + k = r' * rl + j' * 3 + k' -> r = r' /\ j = j' /\ k = k'.
Proof.
  intros Hj Hk Hj' Hk' Hw E. destruct (radix_rl rl r j k w Hj Hk Hw) as [A B].
  destruct (radix_rl rl r' j' k' w Hj' Hk' Hw) as [A' B']. rewrite E in A, B.
  split; [congruence|]. assert (X : j * 3 + k = j' * 3 + k') by congruence. lia.
Qed.

Lemma row_end rl h r j k w : 0 <= r < h -> 0 <= j < w -> 0 <= k < 3 -> 3 * w <= rl -> h * rl <= 2147483647 ->
  0 <= r * rl + j * 3 + k < h * rl /\ 0 <= r * rl /\ r * rl + j * 3 <= 2147483647 /\ r * rl <= 2147483647.
Proof.
  intros Hr Hj Hk Hw Hn. assert (0 <= r * rl) by (apply Z.mul_nonneg_nonneg; lia).
  assert ((r + 1) * rl <= h * rl) by (apply Z.mul_le_mono_nonneg_r; lia). lia.
Qed.

Lemma bmp_swap_step e s0 q n d rl h w i j k :
  isb s0 q n d -> h * rl <= n -> h * rl <= 2147483647 -> 3 * w <= rl -> 0 <= i < h / 2 -> 0 <= j < w -> 0 <= k < 3 ->
  swapw e s0 q (bmp_swap (Some q) rl h i j k)
    (fun x => x = i * rl + j * 3 + k \/ x = (h - 1 - i) * rl + j * 3 + (2 - k)) (partner rl h).
Proof.
  intros Hq Hn Hmax Hw Hi Hj Hk f.
  assert (Hi' : 0 <= i < h) by lia. assert (Hr : 0 <= h - 1 - i < h) by lia.
  destruct (row_end rl h i j k w Hi' Hj Hk Hw ltac:(lia)) as (A1 & A2 & A3 & A4).
  destruct (row_end rl h (h - 1 - i) j (2 - k) w Hr Hj ltac:(lia) Hw ltac:(lia)) as (B1 & B2 & B3 & B4).
  assert (h < 2147483647) by nia.
  set (a := i * rl + j * 3 + k) in *. set (b := (h - 1 - i) * rl + j * 3 + (2 - k)) in *.
  assert (Hab : a <> b). { intros E. destruct (pos_inj rl w i j k (h - 1 - i) j (2 - k)); auto; lia. }
  unfold bmp_swap.
  assert (Ea : (i * rl + j * 3 + k)%C = Some a). { unfold a. cev_with ltac:(lia). reflexivity. }
  assert (Eb : ((h - i - 1) * rl + j * 3 + 2 - k)%C = Some b).
  { unfold b. cev_with ltac:(replace (h - i - 1) with (h - 1 - i) by ring; lia). f_equal. ring. }
  runs (ev_ok _ _ e (putd s0 q f) Ea). runs (ev_ok _ _ e (putd s0 q f) Eb).
  assert (I0 : isb (putd s0 q f) q n f) by (eapply isb_putd_eq; eauto).
  runs (load8_ok e _ _ _ _ a I0 ltac:(lia)). runs (load8_ok e _ _ _ _ b I0 ltac:(lia)).
  runs (store8_ok e _ _ _ _ a (f b mod 256) I0 ltac:(lia)). rewrite putd_putd.
  set (f1 := fupd f a _).
  assert (I1 : isb (putd s0 q f1) q n f1) by (eapply isb_putd_eq; eauto).
  rewrite (store8_ok e _ _ _ _ b (f a mod 256) I1 ltac:(lia)). rewrite putd_putd.
  eexists. split; [reflexivity|]. unfold f1, fupd. split.
  - intros x [-> | ->].
    + replace (a =? b) with false by lia. rewrite Z.eqb_refl. rewrite !Z.mod_mod by lia.
      unfold a. rewrite (partner_eq rl h i j k w) by auto. reflexivity.
    + rewrite Z.eqb_refl. rewrite !Z.mod_mod by lia. unfold b.
      rewrite (partner_eq rl h (h - 1 - i) j (2 - k) w) by (auto; lia).
      replace (h - 1 - (h - 1 - i)) with i by ring. replace (2 - (2 - k)) with k by ring. reflexivity.
  - intros x Hx. replace (x =? b) with false by lia. now replace (x =? a) with false by lia.
Qed.

(** The exchange of all rows but the middle one. *)
Lemma bmp_swaps e s q n d rl h w :
  isb s q n d -> h * rl <= n -> h * rl <= 2147483647 -> 3 * w <= rl -> 0 <= h ->
  exists d',
    for_ 0 (Z.quot h 2) (fun i => for_ 0 w (fun j => for_ 0 3 (fun k => bmp_swap (Some q) rl h i j k))) e s
    = Ret tt (putd s q d')
    /\ (forall r j k, 0 <= r < h -> 0 <= j < w -> 0 <= k < 3 ->
          d' (r * rl + j * 3 + k) mod 256
          = if 2 * r + 1 =? h then d (r * rl + j * 3 + k) mod 256
            else d ((h - 1 - r) * rl + j * 3 + (2 - k)) mod 256)
    /\ (forall x, (forall r j k, 0 <= r < h -> 0 <= j < w -> 0 <= k < 3 -> x <> r * rl + j * 3 + k) -> d' x = d x).
Proof.
  intros Hq Hn Hmax Hw Hh. rewrite Z.quot_div_nonneg by lia.
  set (P3 := fun i j k x => x = i * rl + j * 3 + k \/ x = (h - 1 - i) * rl + j * 3 + (2 - k)).
  assert (W : swapw e s q (for_ 0 (h / 2) (fun i => for_ 0 w (fun j => for_ 0 3 (fun k => bmp_swap (Some q) rl h i j k))))
    (fun x => exists i, 0 <= i < h / 2 /\ exists j, 0 <= j < w /\ exists k, 0 <= k < 3 /\ P3 i j k x) (partner rl h)).
  { assert (X : forall i j k i' j' k' x, 0 <= i < h / 2 -> 0 <= j < w -> 0 <= k < 3 ->
      0 <= i' < h / 2 -> 0 <= j' < w -> 0 <= k' < 3 -> P3 i j k x -> P3 i' j' k' x -> i = i' /\ j = j' /\ k = k').
    { intros i j k i' j' k' x Hi Hj Hk Hi' Hj' Hk' [-> | ->] [E | E].
      - eapply pos_inj; eauto.
      - destruct (pos_inj rl w _ _ _ _ _ _ Hj Hk Hj' (ltac:(lia) : 0 <= 2 - k' < 3) Hw E) as (? & _ & _). lia.
      - destruct (pos_inj rl w _ _ _ _ _ _ Hj (ltac:(lia) : 0 <= 2 - k < 3) Hj' Hk' Hw E) as (? & _ & _). lia.
      - destruct (pos_inj rl w _ _ _ _ _ _ Hj (ltac:(lia) : 0 <= 2 - k < 3) Hj' (ltac:(lia) : 0 <= 2 - k' < 3) Hw E) as (? & ? & ?). lia. }
    assert (K : forall i j k x, 0 <= j < w -> 0 <= k < 3 -> P3 i j k x -> P3 i j k (partner rl h x)).
    { intros i j k x Hj Hk [-> | ->]; [right|left]; erewrite partner_eq; eauto; try lia. }
    apply swapw_for with (P := fun i x => exists j, 0 <= j < w /\ exists k, 0 <= k < 3 /\ P3 i j k x).
    - intros i Hi. apply swapw_for with (P := fun j x => exists k, 0 <= k < 3 /\ P3 i j k x).
      + intros j Hj. apply swapw_for with (P := fun k x => P3 i j k x).
        * intros k Hk. eapply bmp_swap_step; eauto.
        * intros k k' x Hk Hk' A B. destruct (X i j k i j k' x); tauto.
        * intros k x Hk A. now apply K.
      + intros j j' x Hj Hj' (k & Hk & A) (k' & Hk' & B). destruct (X i j k i j' k' x); tauto.
      + intros j x Hj (k & Hk & A). exists k. split; auto.
    - intros i i' x Hi Hi' (j & Hj & k & Hk & A) (j' & Hj' & k' & Hk' & B). destruct (X i j k i' j' k' x); tauto.
    - intros i x Hi (j & Hj & k & Hk & A). exists j. split; auto. exists k. split; auto. }
  destruct (W d) as (d' & E & A & B). rewrite (putd_id _ _ _ _ Hq) in E.
  exists d'. split; [exact E|]. split.
  - intros r j k Hr Hj Hk. destruct (Z.eqb_spec (2 * r + 1) h) as [Hm|Hm].
    + rewrite B; auto. intros (i & Hi & j' & Hj' & k' & Hk' & [X|X]).
      * destruct (pos_inj rl w _ _ _ _ _ _ Hj Hk Hj' Hk' Hw X) as (? & _ & _). lia.
      * destruct (pos_inj rl w _ _ _ _ _ _ Hj Hk Hj' (ltac:(lia) : 0 <= 2 - k' < 3) Hw X) as (? & _ & _). lia.
    + rewrite A; [now rewrite (partner_eq rl h r j k w) by auto|].
      destruct (Z_lt_le_dec r (h / 2)).
      * exists r. split; [lia|]. exists j. split; auto. exists k. split; auto. left. reflexivity.
      * exists (h - 1 - r). split; [lia|]. exists j. split; auto. exists (2 - k). split; [lia|].
        right. replace (h - 1 - (h - 1 - r)) with r by ring. lia.
  - intros x Hx. apply B. intros (i & Hi & j & Hj & k & Hk & [-> | ->]).
    + apply (Hx i j k); lia.
    + apply (Hx (h - 1 - i) j (2 - k)); lia.
Qed.

(** ** Little-endian words in a file *)

Lemma le_bytes_nth n : forall v t, (t < n)%nat -> nth_error (le_bytes n v) t = Some (v / 256 ^ Z.of_nat t mod 256).
Proof.
  induction n as [|n IH]; intros v t Ht; [lia|]. destruct t as [|t].
  - cbn. now rewrite Z.div_1_r.
  - cbn [le_bytes nth_error]. rewrite IH by lia. rewrite Z.div_div by (try lia; apply Z.pow_pos_nonneg; lia).
    replace (256 ^ Z.of_nat (S t)) with (256 * 256 ^ Z.of_nat t); [reflexivity|].
    rewrite Nat2Z.inj_succ, Z.pow_succ_r by lia. ring.
Qed.
Lemma le_bytes_len n : forall v, List.length (le_bytes n v) = n.
Proof. induction n as [|n IH]; intros v; [reflexivity|]. cbn. now rewrite IH. Qed.

Lemma file_word_mid a n v b i : i = Z.of_nat (List.length a) -> file_word (a ++ le_bytes n v ++ b) i n v.
Proof.
  intros -> t Ht. unfold file_byte. replace (Z.of_nat (List.length a) + t <? 0) with false by lia.
  rewrite nth_error_app2 by lia. rewrite nth_error_app1 by (rewrite le_bytes_len; lia).
  rewrite le_bytes_nth by lia. do 3 f_equal. f_equal. lia.
Qed.

Lemma skipn_cons {A} i : forall (f : list A) b, nth_error f i = Some b -> skipn i f = b :: skipn (S i) f.
Proof.
  induction i as [|i IH]; intros f b H; destruct f as [|x f]; try discriminate H.
  - cbn in H. injection H as ->. reflexivity.
  - cbn [nth_error] in H. cbn [skipn]. now rewrite (IH f b H).
Qed.

Lemma field_value f n : forall i v, (forall t, (t < n)%nat -> nth_error f (i + t) = Some (v / 256 ^ Z.of_nat t mod 256)) ->
  le_value (firstn n (skipn i f)) = v mod 256 ^ Z.of_nat n.
Proof.
  induction n as [|n IH]; intros i v H.
  - cbn. now rewrite Z.mod_1_r.
  - assert (H0 := H 0%nat ltac:(lia)). rewrite Nat.add_0_r in H0. cbn [Z.of_nat] in H0. rewrite Z.pow_0_r, Z.div_1_r in H0.
    rewrite (skipn_cons _ _ _ H0). cbn [firstn le_value]. rewrite (IH (S i) (v / 256)).
    + rewrite Nat2Z.inj_succ, Z.pow_succ_r by lia. rewrite Z.rem_mul_r by (try lia; apply Z.pow_pos_nonneg; lia). reflexivity.
    + intros t Ht. specialize (H (S t) ltac:(lia)). replace (S i + t)%nat with (i + S t)%nat by lia. rewrite H.
      rewrite Z.div_div by (try lia; apply Z.pow_pos_nonneg; lia).
      rewrite Nat2Z.inj_succ, Z.pow_succ_r by lia. reflexivity.
Qed.

Lemma word_field f i n v : 0 <= i -> file_word f i n v -> 0 <= v < 256 ^ Z.of_nat n -> field f (Z.to_nat i) n = v.
Proof.
  intros Hi H Hv. unfold field. rewrite (field_value f n (Z.to_nat i) v); [apply Z.mod_small; lia|].
  intros t Ht. specialize (H (Z.of_nat t) ltac:(lia)). unfold file_byte in H.
  replace (i + Z.of_nat t <? 0) with false in H by lia.
  replace (Z.to_nat (i + Z.of_nat t)) with (Z.to_nat i + t)%nat in H by lia. exact H.
Qed.

(** ** Sizes *)

Lemma stride_bounds C : 0 < C -> 3 * C <= bmp_stride C <= 3 * C + 3.
Proof. intros. unfold bmp_stride. lia. Qed.

Lemma stride_c C : 0 < C -> 24 * C <= 2147483647 ->
  ((C * 24 / 8 + 3) / 4 * 4)%C = Some (bmp_stride C).
Proof.
  intros H0 H1. unfold ci. rewrite cmul_ok by lia. unfold cdiv at 2. rewrite Z.quot_div_nonneg by lia.
  replace (C * 24 / 8) with (3 * C) by lia. change (8 =? 0) with false. cbv iota.
  unfold chk at 1, in_int, INT_MIN, INT_MAX. replace ((-2147483648 <=? 3 * C) && (3 * C <=? 2147483647)) with true by lia.
  rewrite cadd_ok by lia. unfold cdiv. rewrite Z.quot_div_nonneg by lia. change (4 =? 0) with false. cbv iota.
  unfold chk at 1, in_int, INT_MIN, INT_MAX.
  replace ((-2147483648 <=? (3 * C + 3) / 4) && ((3 * C + 3) / 4 <=? 2147483647)) with true by lia.
  rewrite cmul_ok by lia. reflexivity.
Qed.

Lemma packed_c C : 0 < C -> 24 * C <= 2147483647 -> (C * 24 / 8)%C = Some (3 * C).
Proof.
  intros H0 H1. unfold ci. rewrite cmul_ok by lia. unfold cdiv. rewrite Z.quot_div_nonneg by lia.
  replace (C * 24 / 8) with (3 * C) by lia. change (8 =? 0) with false. cbv iota.
  unfold chk, in_int, INT_MIN, INT_MAX. replace ((-2147483648 <=? 3 * C) && (3 * C <=? 2147483647)) with true by lia.
  reflexivity.
Qed.

Lemma malloc_new e s n : 0 <= n <= 2147483647 -> malloc n e s =
  Ret (Some (List.length (objs s)))
      (mkSt (objs s ++ [mkObj (e_addr e (List.length (objs s))) n (List.length (objs s)) true
                              (CBytes (e_junk e (List.length (objs s))))]) (files s)).
Proof.
  intros H. unfold malloc. change (2 ^ 62) with 4611686018427387904.
  now replace ((0 <=? n) && (n <? 4611686018427387904)) with true by lia.
Qed.

(** ** Reading *)

(** The picture a file gives: the rows upside down with the channels exchanged,
    except for the middle row of a file with an odd number of rows. *)
Definition bmp_read_value (f : list Z) (R C i j k : Z) : option Z :=
  if 2 * i + 1 =? R then file_byte f (54 + i * bmp_stride C + 3 * j + k)
  else bmp_pixel f R C i j (2 - k).

Lemma nth_skipn {A} (f : list A) a i x : nth_error f (a + i) = Some x -> nth_error (skipn a f) i = Some x.
Proof.
  revert f. induction a as [|a IH]; intros f H; [exact H|]. destruct f as [|y f]; [destruct i; discriminate H|].
  cbn [skipn]. apply IH. exact H.
Qed.

Lemma file_byte_some f i : 0 <= i < Z.of_nat (List.length f) -> file_byte f i = Some (nth (Z.to_nat i) f 0).
Proof.
  intros H. unfold file_byte. replace (i <? 0) with false by lia. apply nth_error_nth'. lia.
Qed.

Lemma smread_bmp_run e s path f R C : env_ok e -> heap_ok s -> file_of s path = Some f ->
  bmp_header f R C -> 0 < R -> 0 < C -> bmp_small R C ->
  (forall x, In x f -> 0 <= x < 256) ->
  exists p' s', smread_bmp (Some path) e s = Ret p' s'
    /\ new_picture s R C 3 (bmp_read_value f R C) s' p'.
Proof.
  intros He Hs Hf Hh HR HC (S1 & S2 & S3) Hbytes.
  destruct Hh as (Hlen & _ & _ & _ & _ & _ & HW & HH & _ & HB & _).
  assert (HS := stride_bounds C HC). set (W := bmp_stride C) in *.
  assert (P1 : 0 < W * R) by nia. assert (RB : R <= 2147483647) by nia.
  unfold smread_bmp. runs (eq_refl : fopen_r path e s = Ret (file_of s path) s). rewrite Hf.
  replace (List.length f <? 54)%nat with false by lia.
  rewrite (bind_ret _ _ e s tt s eq_refl).
  assert (E18 : field f 18 4 = C) by (apply (word_field f 18 4 C ltac:(lia) HW); change (256 ^ Z.of_nat 4) with 4294967296; lia).
  assert (E22 : field f 22 4 = R) by (apply (word_field f 22 4 R ltac:(lia) HH); change (256 ^ Z.of_nat 4) with 4294967296; lia).
  assert (E28 : field f 28 2 = 24) by (apply (word_field f 28 2 24 ltac:(lia) HB); change (256 ^ Z.of_nat 2) with 65536; lia).
  rewrite E18, E22, E28.
  assert (SG : forall z, 0 < z <= 2147483647 -> sgn 32 z = z).
  { intros z Hz. unfold sgn. change (2 ^ 32) with 4294967296. change (2 ^ (32 - 1)) with 2147483648.
    rewrite Z.mod_small by lia. now replace (z <? 2147483648) with true by lia. }
  rewrite !SG by lia. cbv zeta.
  runs (ev_ok _ _ e s (stride_c C HC ltac:(lia))). fold W. change (24 =? 8) with false. cbv iota.
  set (rest := skipn 54 f).
  rewrite (bind_ret _ _ e s rest s eq_refl).
  assert (En : (W * R)%C = Some (W * R)) by (cev_with ltac:(lia); reflexivity).
  runs (ev_ok _ _ e s En). set (n := W * R) in *.
  set (k := List.length (objs s)).
  runs (malloc_new e s n ltac:(lia)). fold k.
  set (buf := fun d => mkObj (e_addr e k) n k true (CBytes d)).
  set (s1 := fun d => mkSt (objs s ++ [buf d]) (files s)).
  change (mkSt (objs s ++ [mkObj (e_addr e k) n k true (CBytes (e_junk e k))]) (files s)) with (s1 (e_junk e k)).
  assert (I1 : forall d, isb (s1 d) k n d).
  { intros d. eapply obj_isb. unfold s1. cbn [objs]. unfold k. rewrite (nth_error_app_new0 (objs s)). reflexivity. }
  assert (PU : forall d d', putd (s1 d) k d' = s1 d').
  { intros d d'. unfold putd, s1, k; cbn [objs files]. rewrite (lupd_app_new0 (objs s)). reflexivity. }
  assert (Lrest : Z.of_nat (List.length rest) = n) by (unfold rest; rewrite skipn_length; lia).
  set (d0 := fun i => if (0 <=? i) && (i <? Z.min n (Z.of_nat (List.length rest))) then nth (Z.to_nat i) rest 0 else e_junk e k i).
  assert (Fr : fread (Some k) n rest e (s1 (e_junk e k)) = Ret (skipn (Z.to_nat n) rest) (s1 d0)).
  { unfold fread. rewrite I1. replace ((0 <=? n) && (n <=? n)) with true by lia. now rewrite PU. }
  runs Fr.
  assert (D0 : forall i, 0 <= i < n -> Some (d0 i mod 256) = file_byte f (54 + i)).
  { intros i Hi. unfold d0. replace ((0 <=? i) && (i <? Z.min n (Z.of_nat (List.length rest)))) with true by lia.
    rewrite file_byte_some by lia.
    assert (X : nth_error f (54 + Z.to_nat i) = Some (nth (54 + Z.to_nat i) f 0)) by (apply nth_error_nth'; lia).
    pose proof (nth_skipn f 54 (Z.to_nat i) _ X) as Y. fold rest in Y.
    rewrite (nth_error_nth _ _ 0 Y). replace (Z.to_nat (54 + i)) with (54 + Z.to_nat i)%nat by lia.
    f_equal. apply Z.mod_small. apply Hbytes. eapply nth_error_In; eauto. }
  destruct (bmp_swaps e (s1 d0) k n d0 W R C (I1 d0)) as (d1 & X1 & A1 & B1); [unfold n; lia|unfold n in *; lia|lia|lia|].
  runs X1. rewrite PU.
  assert (Hs1 : heap_ok (s1 d1)).
  { unfold s1. eapply heap_ok_app; eauto. repeat constructor; cbn; lia. }
  destruct (create_sm_run e (s1 d1) R C 1 1 3 He Hs1 eq_refl HR HC ltac:(lia) ltac:(lia)) as (dd & X2 & _ & _).
  runs X2. runs (sget_ok _ _ e _ (newsm_at e (s1 d1) R C 1 1 3 dd)). cbn [newsm_hdr sm_data].
  assert (Lk : List.length (objs (s1 d1)) = (k + 1)%nat) by (unfold s1; cbn [objs]; rewrite app_length; reflexivity).
  set (s2 := fun d => newsm e (s1 d1) R C 1 1 3 d).
  change (newsm e (s1 d1) R C 1 1 3 dd) with (s2 dd).
  runs (ev_ok _ _ e (s2 dd) (packed_c C HC ltac:(lia))). set (k2 := (List.length (objs (s1 d1)) + 1)%nat).
  assert (I2 : forall d, isb (s2 d) k2 (R * C * 1 * 3) d) by (intros d; apply newsm_data).
  assert (I3 : forall d, isb (s2 d) k n d1) by (intros d; apply newsm_old, I1).
  assert (Hne : k <> k2) by lia.
  set (spec := fun x => d1 (x / (3 * C) * W + x mod (3 * C)) mod 256).
  assert (Copy : exists d2, (if W =? 3 * C then memcpy (Some k2) 0 (Some k) 0 n
     else for_ 0 R (fun i => d <- ev (i * C * 3)%C ;; b <- ev (i * W)%C ;; w3 <- ev (C * 3)%C ;;
            memcpy (Some k2) d (Some k) b w3)) e (s2 dd) = Ret tt (s2 d2)
     /\ forall x, 0 <= x < R * C * 3 -> d2 x mod 256 = spec x).
  { destruct (Z.eqb_spec W (3 * C)) as [EW|EW].
    - assert (En3 : n = R * C * 3) by (unfold n; rewrite EW; ring).
      erewrite memcpy_ok; [|apply I2|apply I3|exact Hne|lia|lia|lia|lia|lia].
      eexists. split; [unfold s2; unfold k2; rewrite newsm_putd; reflexivity|].
      intros x Hx. cbv beta. replace ((0 <=? x) && (x <? 0 + n)) with true by lia.
      unfold spec. rewrite EW. do 2 f_equal. rewrite (Z.mul_comm (x / (3 * C))), <- Z.div_mod by lia. f_equal. lia.
    - destruct (wr_run e (s2 dd) k2 (R * C * 1 * 3) dd
        (for_ 0 R (fun i => d <- ev (i * C * 3)%C ;; b <- ev (i * W)%C ;; w3 <- ev (C * 3)%C ;;
            memcpy (Some k2) d (Some k) b w3))
        (fun x => exists i, 0 <= i < R /\ i * C * 3 <= x < i * C * 3 + C * 3) spec (I2 dd)) as (d2 & X3 & A3 & _).
      { apply wr_for. intros i Hi.
        assert (Q1 : 0 <= i * C) by nia. assert (Q2 : (i + 1) * C <= R * C) by nia.
        assert (Q3 : 0 <= i * W) by nia. assert (Q4 : (i + 1) * W <= R * W) by nia.
        eapply wr_bind; [apply rdv_ev; cev_with ltac:(lia); reflexivity|].
        eapply wr_bind; [apply rdv_ev; cev_with ltac:(unfold n in *; lia); reflexivity|].
        eapply wr_bind; [apply rdv_ev; cev_with ltac:(lia); reflexivity|].
        eapply wr_memcpy; [apply I2|apply I3|exact Hne|lia|lia|lia|lia|unfold n in *; lia|].
        intros x Hx. unfold spec.
        assert (x / (3 * C) = i /\ x mod (3 * C) = x - i * C * 3) as [-> ->].
        { replace x with (i * (3 * C) + (x - i * C * 3)) at 1 2 by ring. apply radix2. lia. }
        do 2 f_equal. ring. }
      exists d2. split; [rewrite X3; unfold s2, k2; rewrite newsm_putd; reflexivity|].
      intros x Hx. apply A3. exists (x / (3 * C)).
      pose proof (Z.div_mod x (3 * C) ltac:(lia)). pose proof (Z.mod_pos_bound x (3 * C) ltac:(lia)).
      assert (0 <= x / (3 * C) < R). { split; [apply Z.div_pos; lia|]. apply Z.div_lt_upper_bound; lia. }
      lia. }
  destruct Copy as (d2 & X3 & A3). runs X3.
  assert (Fn : nth_error (objs (s2 d2)) k = Some (buf d1)).
  { unfold s2, newsm; cbn [objs]. rewrite nth_error_app1 by (rewrite Lk; lia).
    unfold s1; cbn [objs]. unfold k. rewrite (nth_error_app_new0 (objs s)). reflexivity. }
  runs (free_ok e (s2 d2) k (buf d1) Fn eq_refl eq_refl).
  eexists _, _. split; [reflexivity|].
  set (s1' := mkSt (objs s ++ [set_dead (buf d1)]) (files s)).
  assert (Efin : mkSt (map (kill_root k) (objs (s2 d2))) (files (s2 d2)) = newsm e s1' R C 1 1 3 d2).
  { assert (Lk' : List.length (objs s1') = (k + 1)%nat) by (unfold s1'; cbn [objs]; rewrite app_length; reflexivity).
    unfold s2, newsm. rewrite Lk, Lk'. cbn [objs files]. unfold s1, s1'. cbn [objs files]. f_equal.
    rewrite !map_app. f_equal.
    - f_equal; [apply map_kill_old; auto|]. cbn [map]. unfold kill_root, buf at 1. cbn [o_root].
      rewrite Nat.eqb_refl. reflexivity.
    - cbn [map]. unfold kill_root. cbn [o_root]. replace (Nat.eqb (k + 1) k) with false by lia. reflexivity. }
  rewrite Efin.
  assert (Hs1' : heap_ok s1') by (unfold s1'; eapply heap_ok_app; eauto; repeat constructor; cbn; lia).
  assert (V : forall i j c, 0 <= i < R -> 0 <= j < C -> 0 <= c < 3 ->
     bmp_read_value f R C i j c = Some (d2 ((i * C + j) * 3 + c) mod 256)).
  { intros i j c Hi Hj Hc.
    assert (Hx : 0 <= (i * C + j) * 3 + c < R * C * 3) by (apply pix_index; auto).
    rewrite A3 by auto. unfold spec.
    assert (((i * C + j) * 3 + c) / (3 * C) = i /\ ((i * C + j) * 3 + c) mod (3 * C) = j * 3 + c) as [-> ->].
    { replace ((i * C + j) * 3 + c) with (i * (3 * C) + (j * 3 + c)) by ring. apply radix2. lia. }
    replace (i * W + (j * 3 + c)) with (i * W + j * 3 + c) by ring. rewrite A1 by auto.
    unfold bmp_read_value, bmp_pixel. fold W. destruct (2 * i + 1 =? R).
    - replace (54 + i * W + 3 * j + c) with (54 + (i * W + j * 3 + c)) by ring. symmetry. apply D0.
      destruct (row_end W R i j c C) as (? & _); auto; unfold n in *; lia.
    - replace (54 + (R - 1 - i) * W + 3 * j + (2 - c)) with (54 + ((R - 1 - i) * W + j * 3 + (2 - c))) by ring.
      symmetry. apply D0. destruct (row_end W R (R - 1 - i) j (2 - c) C) as (? & _); auto; unfold n in *; lia. }
  destruct (newsm_picture e s1' R C 3 d2 (bmp_read_value f R C) Hs1' HR HC ltac:(lia) ltac:(lia) V)
    as (m' & IM & E1 & E2 & E3 & E4 & E5 & F1 & F2 & OU & FF & HO).
  replace (List.length (objs (s1 d1))) with (List.length (objs s1')) by (rewrite Lk; unfold s1'; cbn [objs]; rewrite app_length; reflexivity).
  assert (Lk' : List.length (objs s1') = (k + 1)%nat) by (unfold s1'; cbn [objs]; rewrite app_length; reflexivity).
  exists m'. do 5 (split; [assumption|]). split; [assumption|].
  split. { destruct F1 as (z & Ez & Lz). exists z. split; auto. fold k. lia. }
  split. { destruct F2 as (z & Ez & Lz). exists z. split; auto. fold k. lia. }
  split. { intros z Hz. fold k in Hz. rewrite OU by lia. unfold s1'. cbn [objs]. rewrite nth_error_app1; auto. }
  split; [exact FF|exact HO].
Qed.

(** ** Writing *)

(** smwrite_bmp after the selection of the image. *)
Definition bmp_tail (bmpName : path) (m : smat) : M unit :=
  let imgBuf := sm_data m in
  let width := sm_cols m in
  let height := sm_rows m in
  lineByte <- ev ((width * 24 / 8 + 3) / 4 * 4)%C ;;
  total <- ev (lineByte * height)%C ;;
  fput bmpName (bmp_file_header (14 + 40 + 0 + total) (54 + 0)) ;;;
  fput bmpName (bmp_info_header width height 24 total) ;;;
  for_ 0 (Z.quot height 2) (fun i =>
    for_ 0 width (fun j =>
      for_ 0 3 (fun k =>
        rowlen <- ev (width * 3)%C ;;
        bmp_swap imgBuf rowlen height i j k))) ;;;
  packed <- ev (width * 24 / 8)%C ;;
  n <- ev (height * lineByte)%C ;;
  if lineByte >? packed then
    tmp <- malloc n ;;
    for_ 0 height (fun i =>
      w3 <- ev (width * 3)%C ;;
      memcpy tmp (i * lineByte) imgBuf (i * w3) w3) ;;;
    fwrite tmp n bmpName ;;;
    free tmp
  else fwrite imgBuf n bmpName.

Lemma smwrite_bmp_eq can name src : smwrite_bmp can (Some name) src =
  (assert (nonnull src) ;;;
   ms <- sget src ;;
   assert (sm_type ms =? 1) ;;;
   fp <- fopen_w can name ;;
   assert fp ;;;
   mat <- (if sm_chan ms =? 1 then sm_gray2rgb src else ret src) ;;
   m <- sget mat ;;
   bmp_tail name m).
Proof. reflexivity. Qed.

Lemma le_bytes_byte n : forall v x, In x (le_bytes n v) -> 0 <= x < 256.
Proof.
  induction n as [|n IH]; intros v x H; [destruct H|]. destruct H as [<-|H]; [lia|]. eapply IH; eauto.
Qed.
Lemma bytes_of_byte d n x : In x (bytes_of d n) -> 0 <= x < 256.
Proof. intros H. apply in_map_iff in H as (i & <- & _). lia. Qed.

Lemma bmp_headers R C body : 0 < R -> 0 < C -> bmp_stride C * R <= 2147483647 ->
  Z.of_nat (List.length body) = bmp_stride C * R ->
  let f := bmp_file_header (54 + bmp_stride C * R) 54 ++ bmp_info_header C R 24 (bmp_stride C * R) ++ body in
  bmp_header f R C /\ (forall i, 0 <= i -> file_byte f (54 + i) = file_byte body i).
Proof.
  intros HR HC Hm Hl. set (n := bmp_stride C * R) in *. cbv zeta.
  unfold bmp_file_header, bmp_info_header. rewrite <- !app_assoc.
  split.
  - unfold bmp_header. fold n.
    split. { rewrite !app_length, !le_bytes_len. lia. }
    Local Ltac at_ pre := match goal with |- file_word ?f ?i ?w ?v =>
      replace f with (pre ++ le_bytes w v ++ skipn (List.length (pre ++ le_bytes w v)) f) by reflexivity;
      apply file_word_mid; reflexivity end.
    split. { at_ (@nil Z). }
    set (h0 := le_bytes 2 19778). split. { at_ h0. }
    set (h01 := h0 ++ le_bytes 4 (54 + n)). split. { at_ h01. }
    set (h1 := h01 ++ le_bytes 2 0 ++ le_bytes 2 0).
    split. { at_ h1. }
    set (h2 := h1 ++ le_bytes 4 54). split. { at_ h2. }
    set (h3 := h2 ++ le_bytes 4 40). split. { at_ h3. }
    set (h4 := h3 ++ le_bytes 4 C). split. { at_ h4. }
    set (h5 := h4 ++ le_bytes 4 R). split. { at_ h5. }
    set (h6 := h5 ++ le_bytes 2 1). split. { at_ h6. }
    set (h7 := h6 ++ le_bytes 2 24). split. { at_ h7. }
    set (h8 := h7 ++ le_bytes 4 0). split. { at_ h8. }
    set (h9 := h8 ++ le_bytes 4 n ++ le_bytes 4 100 ++ le_bytes 4 100). split. { at_ h9. }
    set (h10 := h9 ++ le_bytes 4 0). at_ h10.
  - intros i Hi. unfold file_byte. replace (54 + i <? 0) with false by lia. replace (i <? 0) with false by lia.
    replace (Z.to_nat (54 + i)) with (54 + Z.to_nat i)%nat by lia. reflexivity.
Qed.

(** What writing does to the rows: exchanged with the channels reversed, except
    for a middle row. *)
Definition turned (v : Z -> Z -> Z -> option Z) (R i j k : Z) : option Z :=
  if 2 * i + 1 =? R then v i j k else v (R - 1 - i) j (2 - k).

Lemma bmp_tail_run e s p m name : heap_ok s -> image s p m 1 -> sm_chan m = 3 ->
  bmp_small (sm_rows m) (sm_cols m) -> file_of s name = Some [] ->
  exists s' f, bmp_tail name m e s = Ret tt s'
    /\ file_of s' name = Some f /\ other_files [name] s s'
    /\ bmp_header f (sm_rows m) (sm_cols m) /\ (forall x, In x f -> 0 <= x < 256)
    /\ (forall r j c, 0 <= r < sm_rows m -> 0 <= j < sm_cols m -> 0 <= c < 3 ->
          file_byte f (54 + r * bmp_stride (sm_cols m) + 3 * j + c) = turned (pix s m) (sm_rows m) r j c)
    /\ image s' p m 1
    /\ (forall i j k, in_image m i j k -> pix s' m i j k = turned (pix s m) (sm_rows m) i j k)
    /\ unchanged_except [sm_data m] s s'
    /\ (forall x, sm_rows m * sm_cols m * 3 <= x -> byte_at s' (sm_data m) x = byte_at s (sm_data m) x)
    /\ heap_ok s'.
Proof.
  intros Hs IM H3 (S1 & S2 & S3) Hf. destruct (image_pixels s p m IM) as (q & sz & d & PX).
  pose proof PX as [D Iq HR HC _ HN HM]. rewrite H3 in HN, HM.
  set (R := sm_rows m) in *. set (C := sm_cols m) in *.
  assert (HS := stride_bounds C HC). set (W := bmp_stride C) in *.
  assert (RB : R <= 2147483647) by nia. assert (P1 : 0 < W * R) by nia.
  unfold bmp_tail. fold R C. rewrite D. cbv zeta.
  runs (ev_ok _ _ e s (stride_c C HC ltac:(lia))). fold W.
  assert (En : (W * R)%C = Some (W * R)) by (cev_with ltac:(lia); reflexivity).
  assert (En' : (R * W)%C = Some (W * R)) by (cev_with ltac:(lia); f_equal; ring).
  runs (ev_ok _ _ e s En). set (n := W * R) in *.
  set (h1 := bmp_file_header _ _). set (h2 := bmp_info_header _ _ _ _).
  runs (fput_ok e s name [] h1 Hf). set (sa := with_file s name ([] ++ h1)).
  runs (fput_ok e sa name _ h2 (file_with s name ([] ++ h1))). set (sb := with_file sa name _).
  destruct (bmp_swaps e sb q sz d (3 * C) R C Iq ltac:(lia) ltac:(lia) ltac:(lia) ltac:(lia)) as (d1 & X1 & A1 & B1).
  assert (X1' : for_ 0 (Z.quot R 2) (fun i => for_ 0 C (fun j => for_ 0 3 (fun k =>
     rowlen <- ev (C * 3)%C ;; bmp_swap (Some q) rowlen R i j k))) e sb = Ret tt (putd sb q d1)).
  { rewrite <- X1. apply for_ext'. intros i s0. apply for_ext'. intros j s1. apply for_ext'. intros k s2.
    rewrite (bind_ret _ _ e s2 (3 * C) s2); [reflexivity|]. apply ev_ok. cev_with ltac:(lia). f_equal. ring. }
  runs X1'. set (sc := putd sb q d1).
  runs (ev_ok _ _ e sc (packed_c C HC ltac:(lia))). runs (ev_ok _ _ e sc En').
  assert (Fc : file_of sc name = Some (([] ++ h1) ++ h2)) by (apply (file_with sa name)).
  assert (Ic : isb sc q sz d1) by (eapply isb_putd_eq; exact Iq).
  assert (V : forall r j c, 0 <= r < R -> 0 <= j < C -> 0 <= c < 3 ->
      Some (d1 (r * (3 * C) + j * 3 + c) mod 256) = turned (pix s m) R r j c).
  { intros r j c Hr Hj Hc. rewrite A1 by auto. unfold turned.
    destruct (2 * r + 1 =? R).
    - rewrite (pix_val _ _ _ _ _ _ _ _ PX) by (unfold in_image; fold R C; lia). fold C. rewrite H3. do 3 f_equal. ring.
    - rewrite (pix_val _ _ _ _ _ _ _ _ PX) by (unfold in_image; fold R C; lia). fold C. rewrite H3. do 3 f_equal. ring. }
  (* the bytes written *)
  assert (FIN : exists s' g,
    (if W >? 3 * C then
       tmp <- malloc n ;;
       for_ 0 R (fun i => w3 <- ev (C * 3)%C ;; memcpy tmp (i * W) (Some q) (i * w3) w3) ;;;
       fwrite tmp n name ;;; free tmp
     else fwrite (Some q) n name) e sc = Ret tt s'
    /\ file_of s' name = Some ((([] ++ h1) ++ h2) ++ bytes_of g n)
    /\ other_files [name] s s'
    /\ (exists extra, objs s' = objs (putd s q d1) ++ extra
          /\ Forall (fun o => (o_root o < List.length (objs s'))%nat) extra)
    /\ forall r j c, 0 <= r < R -> 0 <= j < C -> 0 <= c < 3 ->
         g (r * W + j * 3 + c) mod 256 = d1 (r * (3 * C) + j * 3 + c) mod 256).
  { assert (OF : forall b, other_files [name] s (with_file sc name b)).
    { intros b z Hz. assert (z <> name) by (intros ->; apply Hz; left; reflexivity).
      rewrite file_with_other by auto. unfold sc. change (file_of (putd sb q d1) z) with (file_of sb z).
      unfold sb. rewrite file_with_other by auto. unfold sa. now rewrite file_with_other by auto. }
    destruct (W >? 3 * C) eqn:EW.
    - set (k := List.length (objs sc)).
      assert (Lk : k = List.length (objs s)) by (unfold k, sc, putd; cbn [objs]; apply lupd_length).
      runs (malloc_new e sc n ltac:(lia)). fold k.
      set (s1 := fun t => mkSt (objs sc ++ [mkObj (e_addr e k) n k true (CBytes t)]) (files sc)).
      change (mkSt (objs sc ++ [mkObj (e_addr e k) n k true (CBytes (e_junk e k))]) (files sc)) with (s1 (e_junk e k)).
      assert (I1 : forall t, isb (s1 t) k n t).
      { intros t. eapply obj_isb. unfold s1. cbn [objs]. unfold k. rewrite (nth_error_app_new0 (objs sc)). reflexivity. }
      assert (I2 : forall t, isb (s1 t) q sz d1) by (intros t; apply isb_app_old; exact Ic).
      assert (PU : forall t t', putd (s1 t) k t' = s1 t').
      { intros t t'. unfold putd, s1, k; cbn [objs files]. rewrite (lupd_app_new0 (objs sc)). reflexivity. }
      assert (Hne : q <> k) by (apply isb_lt in Ic; fold k in Ic; lia).
      set (spec := fun x => d1 (x / W * (3 * C) + x mod W) mod 256).
      destruct (wr_run e (s1 (e_junk e k)) k n (e_junk e k)
        (for_ 0 R (fun i => w3 <- ev (C * 3)%C ;; memcpy (Some k) (i * W) (Some q) (i * w3) w3))
        (fun x => exists i, 0 <= i < R /\ i * W <= x < i * W + C * 3) spec (I1 _)) as (t1 & X3 & A3 & _).
      { apply wr_for. intros i Hi. assert (Q1 : 0 <= i * W) by nia. assert (Q2 : (i + 1) * W <= R * W) by nia.
        assert (Q3 : 0 <= i * C) by nia. assert (Q4 : (i + 1) * C <= R * C) by nia.
        eapply wr_bind; [apply rdv_ev; cev_with ltac:(lia); reflexivity|].
        eapply wr_memcpy; [apply I1|apply I2|exact Hne|lia|lia|unfold n; lia|lia|lia|].
        intros x Hx. unfold spec.
        assert (x / W = i /\ x mod W = x - i * W) as [-> ->].
        { replace x with (i * W + (x - i * W)) at 1 2 by ring. apply radix2. lia. }
        do 2 f_equal. ring. }
      runs X3. rewrite PU.
      runs (fwrite_ok e (s1 t1) k n t1 n name _ (I1 t1) ltac:(lia) Fc).
      assert (Fn : nth_error (objs (with_file (s1 t1) name ((([] ++ h1) ++ h2) ++ bytes_of t1 n))) k
                   = Some (mkObj (e_addr e k) n k true (CBytes t1))).
      { unfold with_file, s1; cbn [objs]. unfold k. rewrite (nth_error_app_new0 (objs sc)). reflexivity. }
      rewrite (free_ok e _ k _ Fn eq_refl eq_refl).
      eexists _, t1. split; [reflexivity|]. split; [apply (file_with (s1 t1))|].
      split; [exact (OF _)|].
      assert (Hsc : heap_ok sc).
      { intros i o Hi. unfold sc in *. change (objs (putd sb q d1)) with (objs (putd s q d1)) in *.
        unfold putd in Hi |- *; cbn [objs] in *. rewrite lupd_length.
        destruct (Nat.eq_dec i q) as [->|Hiq].
        - rewrite lupd_nth_eq in Hi. destruct (nth_error (objs s) q) as [o'|] eqn:Eo; [|discriminate Hi].
          injection Hi as <-. cbn. eapply Hs; eauto.
        - rewrite lupd_nth_ne in Hi by auto. eapply Hs; eauto. }
      split.
      { exists [set_dead (mkObj (e_addr e k) n k true (CBytes t1))]. cbn [objs with_file]. unfold s1 at 1 2. cbn [objs].
        rewrite map_app. assert (Ek : map (kill_root k) (objs sc) = objs sc) by (apply map_kill_old; [exact Hsc|unfold k; lia]).
        rewrite Ek. split.
        - unfold sc, sb, sa, with_file, putd. cbn [objs files map]. f_equal. f_equal.
          unfold kill_root. cbn [o_root]. now rewrite Nat.eqb_refl.
        - constructor; [|constructor]. cbn. rewrite app_length. cbn. fold k. lia. }
      intros r j c Hr Hj Hc. rewrite A3.
      + unfold spec. destruct (radix_rl W r j c C Hj Hc ltac:(lia)) as [-> ->]. do 2 f_equal. ring.
      + exists r. split; [auto|]. lia.
    - assert (EW' : W = 3 * C) by lia.
      assert (En3 : n = R * C * 3) by (unfold n; rewrite EW'; ring).
      rewrite (fwrite_ok e sc q sz d1 n name _ Ic ltac:(lia) Fc).
      eexists _, d1. split; [reflexivity|]. split; [apply (file_with sc)|]. split; [apply OF|]. split.
      { exists []. rewrite app_nil_r. split; [reflexivity|constructor]. }
      intros. now rewrite EW'. }
  destruct FIN as (s' & g & X2 & F2 & OF & (extra & Eo & Hex) & G).
  exists s', ((([] ++ h1) ++ h2) ++ bytes_of g n). split; [exact X2|]. split; [exact F2|]. split; [exact OF|].
  cbn [app]. rewrite <- app_assoc.
  assert (Lb : Z.of_nat (List.length (bytes_of g n)) = bmp_stride C * R) by (rewrite bytes_of_len; unfold n, W; lia).
  destruct (bmp_headers R C (bytes_of g n) HR HC ltac:(unfold n, W in *; lia) Lb) as [BH BB].
  split; [exact BH|].
  split. { intros x Hx. rewrite !in_app_iff in Hx. destruct Hx as [Hx|[Hx|Hx]].
    - unfold h1, bmp_file_header in Hx. rewrite !in_app_iff in Hx. decompose [or] Hx; eapply le_bytes_byte; eauto.
    - unfold h2, bmp_info_header in Hx. rewrite !in_app_iff in Hx. decompose [or] Hx; eapply le_bytes_byte; eauto.
    - eapply bytes_of_byte; eauto. }
  split. { intros r j c Hr Hj Hc. fold W. rewrite <- V, <- G by auto.
    destruct (row_end W R r j c C Hr Hj Hc ltac:(lia) ltac:(unfold n in *; lia)) as (Q & _).
    replace (54 + r * W + 3 * j + c) with (54 + (r * W + j * 3 + c)) by ring.
    unfold h1, h2. change (14 + 40 + 0 + n) with (54 + n). change (54 + 0) with 54. unfold n, W. rewrite BB by (fold W; lia).
    unfold file_byte. fold W. replace (r * W + j * 3 + c <? 0) with false by lia. apply bytes_of_nth. unfold n. lia. }
  assert (OU : old_unchanged (putd s q d1) s').
  { intros i Hi. rewrite Eo. now rewrite nth_error_app1. }
  assert (WR : written s (Some q) (putd s q d1)) by (eapply written_putd; eauto).
  assert (IM' : image s' p m 1) by (eapply image_old; [exact OU|]; eapply written_image; eauto).
  split; [exact IM'|].
  assert (Is' : isb s' q sz d1).
  { assert (X : isb (putd s q d1) q sz d1) by (eapply isb_putd_eq; eauto).
    apply isb_obj in X as (a & r & X). eapply obj_isb. rewrite OU; [exact X|]. eapply nth_error_lt; eauto. }
  split. { intros i j k Hin. pose proof Hin as (Hi & Hj & Hk). rewrite H3 in Hk. fold R in Hi. fold C in Hj. fold R. rewrite <- V by auto.
    unfold pix, pixel_byte. rewrite D, Z.mul_1_r, Z.add_0_r, H3. fold C.
    pose proof (pix_index R C 3 i j k Hi Hj Hk).
    rewrite (byte_at_isb _ _ _ _ _ Is') by lia. do 3 f_equal. ring. }
  split. { intros i Hi Hni. rewrite Eo.
    assert (i <> q) by (intros ->; apply Hni; left; reflexivity).
    rewrite nth_error_app1 by (unfold putd; cbn [objs]; now rewrite lupd_length).
    now apply objs_putd_ne. }
  split. { intros x Hx. unfold byte_at. rewrite Iq, Is'. destruct (inb x sz); [|reflexivity].
    do 2 f_equal. rewrite B1; [reflexivity|]. intros r j c Hr Hj Hc E.
    assert (r * (3 * C) + j * 3 + c = (r * C + j) * 3 + c) by ring.
    pose proof (pix_index R C 3 r j c Hr Hj Hc). lia. }
  intros i o Hi. assert (Ls : List.length (objs s') = (List.length (objs s) + List.length extra)%nat).
  { rewrite Eo, app_length. unfold putd; cbn [objs]. now rewrite lupd_length. }
  rewrite Eo in Hi. destruct (Nat.lt_ge_cases i (List.length (objs (putd s q d1)))) as [Hlt|Hge].
  - rewrite nth_error_app1 in Hi by auto. unfold putd in Hi; cbn [objs] in Hi. rewrite Ls.
    destruct (Nat.eq_dec i q) as [->|Hiq].
    + rewrite lupd_nth_eq in Hi. destruct (nth_error (objs s) q) as [o'|] eqn:Eo'; [|discriminate Hi].
      injection Hi as <-. cbn. pose proof (Hs _ _ Eo'). lia.
    + rewrite lupd_nth_ne in Hi by auto. pose proof (Hs _ _ Hi). lia.
  - rewrite nth_error_app2 in Hi by auto. apply nth_error_In in Hi. rewrite Forall_forall in Hex. now apply Hex.
Qed.
