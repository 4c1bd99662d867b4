(** * Proofs: means. *)
From Verif Require Import Base ModelFloat ModelDouble ModelCore ModelImage ModelFile ModelFilter ModelSpectral SpecBase SpecImage SpecImage2 SpecPixel SpecNum
  SpecMatrix SpecFilter SpecStat SpecSpectral Logic ProofCore ProofCore2 ProofImage ProofImage2 ProofHM ProofWord ProofArr ProofGrid ProofFold ProofMatrix ProofFloat
  ProofFloat2 ProofDiv ProofGrad ProofFilter ProofStat.
From Verif Require Import ModelSpectral.
From Coq Require Import Floats.SpecFloat ZifyBool ZifyNat.
Ltac Zify.zify_post_hook ::= Z.div_mod_to_equations.
Open Scope Z_scope.

(** A word of an array of words. *)
Lemma load_word e s p off k w : word_at s p off (S k) = Some w -> loadle p off (S k) e s = Ret w s.
Proof.
  intros H. destruct (word_isb s p off k w H) as (q & N & d & -> & I & A & B).
  rewrite (loadle_ok e s q N d (S k) I off A B). rewrite (word_at_isb s q N d _ I) in H by lia. injection H as <-. reflexivity.
Qed.
Lemma load_float e s p i w : word_at s p (4 * i) 4 = Some w -> loadf p i e s = Ret (fl_of_bits w) s.
Proof. intros H. unfold loadf. now rewrite (bind_ret _ _ _ _ _ _ (load_word e s p _ 3 w H)). Qed.

Lemma mean_with_run es conv add div of_int t len W e s : 0 < es -> 0 <= len -> elements_of s t es len W ->
  mean_with es conv add div of_int t len e s
  = Ret (div (foldz len (fun a i => add a (conv (W i))) (of_int 0)) (of_int len)) s.
Proof.
  intros He Hl HW. unfold mean_with.
  assert (L : forS 0 len (fun i res => w <- loadle t (i * es) (Z.to_nat es) ;; ret (add res (conv w))) (of_int 0) e s
    = Ret (foldz len (fun a i => add a (conv (W i))) (of_int 0)) s).
  { apply forS_pure; auto. intros i y Hi. specialize (HW i Hi). destruct (Z.to_nat es) eqn:En; [lia|].
    rewrite (bind_ret _ _ _ _ _ _ (load_word e s t _ _ _ HW)). reflexivity. }
  rewrite (bind_ret _ _ _ _ _ _ L). reflexivity.
Qed.

Lemma word_range s p off : forall k w, word_at s p off k = Some w -> 0 <= w < 256 ^ Z.of_nat k.
Proof.
  intros k. revert off. induction k as [|k IH]; intros off w H.
  - injection H as <-. cbn. lia.
  - cbn [word_at] in H. destruct (byte_at s p off) as [b|] eqn:B; [|discriminate]. destruct (word_at s p (off + 1) k) as [r|] eqn:R; [|discriminate].
    injection H as <-. apply IH in R. assert (0 <= b < 256).
    { unfold byte_at in B. destruct (bytes_at s p) as [[[q n] d]|]; [|discriminate]. destruct (inb off n); [|discriminate]. injection B as <-. apply Z.mod_pos_bound. lia. }
    replace (256 ^ Z.of_nat (S k)) with (256 * 256 ^ Z.of_nat k) by (rewrite Nat2Z.inj_succ, Z.pow_succ_r by lia; reflexivity).
    set (P := 256 ^ Z.of_nat k) in *. clearbody P. destruct r; lia.
Qed.

Lemma sgn_kind_8 w : 0 <= w < 256 -> sgn 8 w = kind_value Char w.
Proof. intros H. unfold sgn, kind_value. change (2 ^ 8) with 256. change (2 ^ (8 - 1)) with 128. rewrite Z.mod_small by lia. destruct (w <? 128) eqn:E; destruct (128 <=? w) eqn:F; lia. Qed.
Lemma sgn_kind_16 w : 0 <= w < 65536 -> sgn 16 w = kind_value Short w.
Proof. intros H. unfold sgn, kind_value. change (2 ^ 16) with 65536. change (2 ^ (16 - 1)) with 32768. rewrite Z.mod_small by lia. destruct (w <? 32768) eqn:E; destruct (32768 <=? w) eqn:F; lia. Qed.
Lemma sgn_kind_32 w : 0 <= w < 4294967296 -> sgn 32 w = kind_value Int w.
Proof. intros H. unfold sgn, kind_value. change (2 ^ 32) with 4294967296. change (2 ^ (32 - 1)) with 2147483648. rewrite Z.mod_small by lia. destruct (w <? 2147483648) eqn:E; destruct (2147483648 <=? w) eqn:F; lia. Qed.

Theorem mean_kinds : forall k f e s t len W, In (k, f) [(UChar, mean_uchar); (Char, mean_char); (UShort, mean_ushort); (Short, mean_short);
    (UInt, mean_uint); (Int, mean_int)] -> 0 <= len -> elements_of s t (kind_size k) len W ->
  f t len e s = Ret (float_average len (fun i => fl_of_Z (kind_value k (W i)))) s.
Proof.
  intros k f e s t len W H Hl HW. unfold float_average, float_sum.
  assert (R : forall i, 0 <= i < len -> 0 <= W i < 256 ^ Z.of_nat (Z.to_nat (kind_size k))) by (intros i Hi; eapply word_range; now apply HW).
  assert (G : forall c, (forall i, 0 <= i < len -> c (W i) = fl_of_Z (kind_value k (W i))) ->
     mean_with (kind_size k) c fl_add fl_div fl_of_Z t len e s = Ret (fl_div (foldz len (fun a i => fl_add a (fl_of_Z (kind_value k (W i)))) (fl_of_Z 0)) (fl_of_Z len)) s).
  { intros c Hc. rewrite (mean_with_run _ _ _ _ _ _ _ W) by (auto; destruct k; cbn; lia). do 2 f_equal. apply foldz_ext. intros x i Hi. now rewrite Hc. }
  cbn [In] in H. repeat (destruct H as [H|H]; [injection H as <- <-|]); try contradiction; apply G; intros i Hi; specialize (R i Hi); cbn [kind_size] in R;
    try reflexivity; f_equal; [apply sgn_kind_8|apply sgn_kind_16|apply sgn_kind_32]; exact R.
Qed.
Theorem mean_float_exact : forall e s t len W, 0 <= len -> elements_of s t 4 len W ->
  mean_float t len e s = Ret (float_average len (fun i => fl_of_bits (W i))) s.
Proof. intros. unfold mean_float. rewrite (mean_with_run _ _ _ _ _ _ _ W); auto. lia. Qed.
Theorem mean_double_exact : forall e s t len W, 0 <= len -> elements_of s t 8 len W ->
  mean_double t len e s = Ret (db_div (double_sum len (fun i => db_of_bits (W i))) (db_of_Z len)) s.
Proof. intros. unfold mean_double. rewrite (mean_with_run _ _ _ _ _ _ _ W); auto. lia. Qed.

(** ** Whole numbers *)
Lemma sum_abs n z : 0 <= n -> Z.abs (sumz n z) <= sumz n (fun i => Z.abs (z i)).
Proof. intros H. pattern n. apply natlike_ind; [reflexivity| |exact H]. intros k Hk IH. unfold Z.succ. rewrite !sumz_S by lia. lia. Qed.
Lemma sum_prefix n m z : 0 <= n <= m -> (forall i, 0 <= i < m -> 0 <= z i) -> sumz n z <= sumz m z.
Proof.
  intros H Hz. replace m with (n + (m - n)) in * by lia. assert (K : 0 <= m - n) by lia. revert Hz. pattern (m - n). apply natlike_ind; [intros; rewrite Z.add_0_r; lia| |exact K].
  intros k Hk IH Hz. replace (n + Z.succ k) with (n + k + 1) in * by lia. rewrite sumz_S by lia. specialize (IH ltac:(intros; apply Hz; lia)). pose proof (Hz (n + k) ltac:(lia)). lia.
Qed.
Lemma sum_whole prec emax v z n : 1 < prec -> prec < emax -> -1074 <= 3 - emax - prec -> emax <= 1024 -> 0 <= n ->
  (forall i, 0 <= i < n -> isint prec emax (v i) (z i)) -> sumz n (fun i => Z.abs (z i)) <= 2 ^ prec ->
  isint prec emax (foldz n (fun a i => SFadd prec emax a (v i)) (binary_normalize prec emax 0 0 false)) (sumz n z).
Proof.
  intros P1 P2 P3 P4 Hn Hv Hs.
  assert (G : forall m, 0 <= m -> m <= n -> isint prec emax (foldz m (fun a i => SFadd prec emax a (v i)) (binary_normalize prec emax 0 0 false)) (sumz m z)).
  { intros m Hm. pattern m. apply natlike_ind; [|clear m Hm; intros m Hm IH Hmn|exact Hm].
    - intros _. rewrite foldz_0. change (sumz 0 z) with 0. apply of_Z_int; try lia.
    - unfold Z.succ in *. rewrite foldz_S, sumz_S by lia. apply add_int; try lia; [apply IH; lia|apply Hv; lia|].
      rewrite <- sumz_S by lia. pose proof (sum_abs (m + 1) z ltac:(lia)). pose proof (sum_prefix (m + 1) n (fun i => Z.abs (z i)) ltac:(lia) ltac:(intros; lia)). lia. }
  apply G; lia.
Qed.
Lemma float_sum_whole n v z : 0 <= n -> (forall i, 0 <= i < n -> is_int (v i) (z i)) -> sumz n (fun i => Z.abs (z i)) <= 16777216 -> is_int (float_sum n v) (sumz n z).
Proof. intros Hn Hv Hs. apply (sum_whole 24 128); auto; try lia. Qed.
Lemma whole_eq x y z : is_int x z -> is_int y z -> z <> 0 -> x = y.
Proof. intros [V N] [V' N'] Hz. apply (num_canonical _ _ _ V V' N N'). pose proof sf_one_pos. nia. Qed.
Lemma average_whole n v z : 0 < n <= 16777216 -> (forall i, 0 <= i < n -> is_int (v i) (z i)) -> sumz n (fun i => Z.abs (z i)) <= 16777216 ->
  forall mu, sumz n z = mu * n -> is_int (float_average n v) mu.
Proof.
  intros Hn Hv Hs mu Hm. unfold float_average. pose proof (float_sum_whole n v z ltac:(lia) Hv Hs) as F. pose proof (sum_abs n z ltac:(lia)) as B.
  apply (div_int 24 128 ltac:(lia) ltac:(lia) ltac:(lia) ltac:(lia) _ _ (sumz n z) n mu); auto; [apply fint_Z; lia|lia|].
  change (2 ^ 24) with 16777216. rewrite Hm in B. clear - B Hs Hn. nia.
Qed.

(** Integer elements: at most 2^24 in total (their absolute values). *)
Lemma member_le n z i : 0 <= i < n -> (forall i, 0 <= i < n -> 0 <= z i) -> z i <= sumz n z.
Proof.
  intros Hi Hz. pose proof (sum_prefix (i + 1) n z ltac:(lia) Hz) as P. rewrite sumz_S in P by lia.
  assert (0 <= sumz i z) by (apply sumz_nonneg'; [lia|intros; apply Hz; lia]). lia.
Qed.
Theorem mean_whole : forall k f e s t len W, In (k, f) [(UChar, mean_uchar); (Char, mean_char); (UShort, mean_ushort); (Short, mean_short);
    (UInt, mean_uint); (Int, mean_int)] -> 0 < len <= 16777216 -> elements_of s t (kind_size k) len W ->
  sumz len (fun i => Z.abs (kind_value k (W i))) <= 16777216 ->
  exists total, f t len e s = Ret (fl_div total (fl_of_Z len)) s /\ is_int total (sumz len (fun i => kind_value k (W i)))
    /\ forall mu, sumz len (fun i => kind_value k (W i)) = mu * len -> is_int (fl_div total (fl_of_Z len)) mu.
Proof.
  intros k f e s t len W H Hl HW Hs. pose proof (mean_kinds k f e s t len W H ltac:(lia) HW) as E. unfold float_average in E.
  assert (Hv : forall i, 0 <= i < len -> is_int (fl_of_Z (kind_value k (W i))) (kind_value k (W i))).
  { intros i Hi. apply fint_Z. pose proof (member_le len (fun i => Z.abs (kind_value k (W i))) i Hi ltac:(intros; lia)) as B. cbv beta in B. lia. }
  eexists. split; [exact E|]. split; [apply float_sum_whole; auto; lia|].
  intros mu Hm. apply (average_whole len _ (fun i => kind_value k (W i))); auto.
Qed.

(** A megapixel sensor frame of ones: 2^25 ones have mean one half. *)
Theorem mean_stalls : forall e s t, elements_of s t 1 33554432 (fun _ => 1) ->
  exists x, mean_uchar t 33554432 e s = Ret x s /\ sf_num x = Some (sf_one / 2).
Proof.
  intros e s t HW. pose proof (mean_kinds UChar mean_uchar e s t 33554432 (fun _ => 1) ltac:(cbn; auto) ltac:(lia) HW) as E.
  eexists. split; [exact E|]. unfold float_average, float_sum. cbn [kind_value].
  rewrite (ones_stall 33554432 ltac:(lia)). vm_compute. reflexivity.
Qed.
