(** * Proofs about hypercv_atof. *)
From Verif Require Import Base Logic ModelFloat SpecBase SpecNum SpecAtof ModelAtof ProofCore ProofFloat ProofFloat2 ProofGrad.
From Coq Require Import Floats.SpecFloat ZifyBool ZifyNat.
Ltac Zify.zify_post_hook ::= Z.div_mod_to_equations.
Open Scope Z_scope.

Lemma load8_byte p i e s c : byte_at s p i = Some c -> load8 p i e s = Ret c s.
Proof.
  unfold byte_at, load8. destruct (bytes_at s p) as [[[q n] d]|]; [|discriminate]. destruct (inb i n); [|discriminate]. congruence.
Qed.
Lemma text_cons s p off c l : text_at s p off (c :: l) -> byte_at s p off = Some c /\ text_at s p (off + 1) l.
Proof.
  intro H. split.
  - rewrite <- (Z.add_0_r off). apply (H 0%nat c). reflexivity.
  - intros i x Hx. replace (off + 1 + Z.of_nat i) with (off + Z.of_nat (S i)) by lia. apply (H (S i) x). exact Hx.
Qed.
Lemma text_app s p : forall l off r, text_at s p off (l ++ r) -> text_at s p (off + Z.of_nat (length l)) r.
Proof.
  induction l as [|c l IH]; intros off r H; [cbn; rewrite Z.add_0_r; exact H|].
  apply text_cons in H as [_ H]. apply IH in H. cbn [length]. replace (off + Z.of_nat (S (length l))) with (off + 1 + Z.of_nat (length l)) by lia. exact H.
Qed.
Lemma byte_size s p i c : byte_at s p i = Some c -> exists q n d, bytes_at s p = Some (q, n, d) /\ 0 <= i < n.
Proof.
  unfold byte_at. destruct (bytes_at s p) as [[[q n] d]|]; [|discriminate]. destruct (inb i n) eqn:E; [|discriminate]. intros _.
  exists q, n, d. split; [reflexivity|]. unfold inb in E. lia.
Qed.
Lemma string_size s p l : c_string s p l -> exists q n d, bytes_at s p = Some (q, n, d) /\ Z.of_nat (length l) < n.
Proof.
  intro H. unfold c_string in H. apply text_app in H. apply text_cons in H as [H _]. apply byte_size in H as (q & n & d & A & B).
  exists q, n, d. split; [exact A|]. lia.
Qed.

Lemma skip_run p e s : forall n fuel i c r, text_at s p i (repeat 32 n ++ c :: r) -> c <> 32 -> (n < fuel)%nat ->
  skip_blanks fuel p i e s = Ret (i + Z.of_nat n) s.
Proof.
  induction n as [|n IH]; intros [|fuel] i c r H N L; try lia.
  - cbn [repeat app] in H. apply text_cons in H as [H _]. cbn [skip_blanks]. rewrite (bind_ret _ _ e s c s) by (apply load8_byte; exact H).
    replace (c =? 32) with false by lia. unfold ret. f_equal. lia.
  - cbn [repeat app] in H. apply text_cons in H as [H T]. cbn [skip_blanks]. rewrite (bind_ret _ _ e s 32 s) by (apply load8_byte; exact H).
    cbn [Z.eqb Pos.eqb]. rewrite (IH fuel (i + 1) c r T N) by lia. f_equal. lia.
Qed.

Lemma sign_run p e s i g c r : text_at s p i (sign_text g ++ c :: r) -> c <> 45 -> c <> 43 ->
  read_sign p i e s = Ret (sign_of g, i + Z.of_nat (length (sign_text g))) s.
Proof.
  intros H N1 N2. unfold read_sign. destruct g as [[|]|]; cbn [sign_text app length sign_of] in *; apply text_cons in H as [H _];
    erewrite bind_ret by (apply load8_byte; exact H).
  - reflexivity.
  - reflexivity.
  - replace (c =? 45) with false by lia. replace (c =? 43) with false by lia. unfold ret. f_equal. f_equal. lia.
Qed.

Lemma digits_cons d l : digits (d :: l) -> 0 <= d <= 9 /\ digits l.
Proof. intro H. split; [apply H; left; reflexivity|]. intros x Hx. apply H. right. exact Hx. Qed.

Definition ints (ip : sf) (l : list Z) : sf := fold_left (fun ip d => int_step ip (d + 48)) l ip.

Lemma part1_digits p e s : forall l fuel i ip r, digits l -> text_at s p i (digit_text l ++ r) ->
  part1 (length l + fuel) p i ip e s = part1 fuel p (i + Z.of_nat (length l)) (ints ip l) e s.
Proof.
  induction l as [|d l IH]; intros fuel i ip r D H; [cbn; rewrite Z.add_0_r; reflexivity|].
  apply digits_cons in D as [D DL]. cbn [digit_text map app] in H. apply text_cons in H as [H T]. cbn [length Nat.add part1].
  rewrite (bind_ret _ _ e s (d + 48) s) by (apply load8_byte; exact H).
  replace (d + 48 =? 0) with false by lia. unfold isdigit. replace (48 <=? d + 48) with true by lia. replace (d + 48 <=? 57) with true by lia. cbn [andb].
  rewrite (IH fuel (i + 1) _ r DL T). cbn [ints fold_left]. f_equal. lia.
Qed.

Definition dec_from (v : Z) (l : list Z) : Z := fold_left (fun v d => 10 * v + d) l v.
Lemma dec_from_ge : forall l v, digits l -> 0 <= v -> v <= dec_from v l.
Proof.
  induction l as [|d l IH]; intros v D Hv; [cbn; lia|]. apply digits_cons in D as [D DL]. cbn [dec_from fold_left].
  specialize (IH (10 * v + d) DL ltac:(lia)). unfold dec_from in IH. lia.
Qed.
Lemma dec_nonneg l : digits l -> 0 <= dec_value l.
Proof. intro D. apply (dec_from_ge l 0 D). lia. Qed.

Notation fint24 := (isint 24 128).
Lemma int_step_int ip v d : fint24 ip v -> 0 <= d <= 9 -> 0 <= v -> 10 * v + d <= 16777168 -> fint24 (int_step ip (d + 48)) (10 * v + d).
Proof.
  intros I D V B. unfold int_step, fl_sub, fl_add, fl_mul. replace (10 * v + d) with (10 * v + (d + 48) - 48) by lia.
  apply sub_int; try lia; [|apply of_Z_int; try lia; change (2 ^ 24) with 16777216; lia].
  apply add_int; try lia; [|apply of_Z_int; try lia; change (2 ^ 24) with 16777216; lia].
  apply mul_int; try lia; [apply of_Z_int; try lia; change (2 ^ 24) with 16777216; lia|exact I].
Qed.
Lemma ints_int : forall l ip v, digits l -> fint24 ip v -> 0 <= v -> dec_from v l <= 16777168 -> fint24 (ints ip l) (dec_from v l).
Proof.
  induction l as [|d l IH]; intros ip v D I V B; [exact I|]. apply digits_cons in D as [D DL]. cbn [ints fold_left dec_from].
  pose proof (dec_from_ge l (10 * v + d) DL ltac:(lia)) as G. cbn [dec_from fold_left] in B. fold (dec_from (10 * v + d) l) in *.
  apply (IH _ _ DL); [|lia|exact B]. apply int_step_int; try lia. exact I.
Qed.

Lemma part2_exp p e s pw ip dp dd : forall l fuel i ex r, digits l -> text_at s p i (digit_text l ++ r) -> 0 <= ex -> dec_from ex l <= 2147483599 ->
  part2 pw (length l + fuel) p i ip dp dd ex false true e s = part2 pw fuel p (i + Z.of_nat (length l)) ip dp dd (dec_from ex l) false true e s.
Proof.
  induction l as [|d l IH]; intros fuel i ex r D H V B; [cbn; rewrite Z.add_0_r; reflexivity|].
  apply digits_cons in D as [D DL]. cbn [digit_text map app] in H. apply text_cons in H as [H T]. cbn [length Nat.add part2].
  rewrite (bind_ret _ _ e s (d + 48) s) by (apply load8_byte; exact H).
  replace (d + 48 =? 0) with false by lia. unfold isdigit. replace (48 <=? d + 48) with true by lia. replace (d + 48 <=? 57) with true by lia. cbn [andb].
  pose proof (dec_from_ge l (10 * ex + d) DL ltac:(lia)) as G. cbn [dec_from fold_left] in B. fold (dec_from (10 * ex + d) l) in B.
  rewrite (bind_ret _ _ e s (10 * ex + d) s).
  2: { apply ev_ok. unfold csub, cadd, cmul, cop, ci, chk, in_int, INT_MIN, INT_MAX.
       replace ((-2147483648 <=? 10 * ex) && (10 * ex <=? 2147483647)) with true by lia.
       replace ((-2147483648 <=? 10 * ex + (d + 48)) && (10 * ex + (d + 48) <=? 2147483647)) with true by lia.
       replace ((-2147483648 <=? 10 * ex + (d + 48) - 48) && (10 * ex + (d + 48) - 48 <=? 2147483647)) with true by lia. f_equal. lia. }
  rewrite (IH fuel (i + 1) _ r DL T) by lia. cbn [dec_from fold_left]. f_equal. lia.
Qed.

(** ** Rounding an integral double to float *)
Lemma fl_of_db_denotes x z : isint 53 1024 x z -> Z.abs z <= 9007199254740992 -> denotes (fl_of_db x) z.
Proof.
  intros [V N] B. assert (S1 : sf_one = 2 ^ 1074) by exact sf_one_eq.
  pose proof (normalize_rounded 24 128 ltac:(lia) ltac:(lia) ltac:(lia) z 0 false 1074 ltac:(unfold emin; lia) ltac:(lia)) as R2.
  assert (F : fl_ok (fl_of_Z z)) by (eapply rounded_ok; exact R2).
  unfold denotes. destruct x as [b| | |b m e]; try discriminate N.
  - cbn in N. pose proof sf_one_pos. assert (z = 0) by (injection N as N; nia). subst z. split; reflexivity.
  - pose proof (db_emin _ _ _ V) as He.
    pose proof (normalize_rounded 24 128 ltac:(lia) ltac:(lia) ltac:(lia) (cond_Zopp b (Zpos m)) e b 1074 ltac:(unfold emin; lia) ltac:(lia)) as R1.
    cbn [sf_num] in N. injection N as N. rewrite N in R1. replace (z * 2 ^ (0 + 1074)) with (z * sf_one) in R2 by (rewrite S1; reflexivity).
    split; [eapply rounded_ok; exact R1|]. unfold fl_of_db, renorm, fl_of_Z. unfold rounded in R1, R2.
    destruct (_ <? _).
    + destruct R1 as [_ ->], R2 as [_ ->]. reflexivity.
    + rewrite R1, R2. destruct (_ <? _); reflexivity.
Qed.

Definition finish (pw : Z -> sf) (fuel : nat) (p : ptr) (sg : Z) (r : sf + (Z * sf * bool * bool)) : M sf :=
  match r with
  | inl ip => ret ip
  | inr (i, ip, dot, hasE) =>
      r <- part2 pw fuel p i ip (fl_of_Z 0) 1 0 dot hasE ;;
      match r with
      | (i, ip, dp, ex, hasE) =>
          ex <- (if hasE && dot then part3 fuel p i ex else ret ex) ;;
          ret (fl_of_db (db_mul (db_of_Z sg) (db_add (db_mul (db_of_fl ip) (pw ex)) (db_of_fl dp))))
      end
  end.

Lemma first_digit g l : digits l -> l <> [] -> exists x y, sign_text g ++ digit_text l = x :: y /\ x <> 32.
Proof.
  intros D N. destruct g as [[|]|]; cbn [sign_text app]; [eexists _, _; split; [reflexivity|lia]|eexists _, _; split; [reflexivity|lia]|].
  destruct l as [|d l]; [contradiction|]. apply digits_cons in D as [D _]. cbn. eexists _, _. split; [reflexivity|lia].
Qed.

Lemma atof_head pw p e s n g l r : digits l -> l <> [] -> c_string s p (head_text n g l ++ r) ->
  exists f1 f2 pos, (length r < f1)%nat /\ (length r < f2)%nat /\ text_at s p pos (r ++ [0])
    /\ hypercv_atof pw p e s = (x <- part1 f1 p pos (ints (fl_of_Z 0) l) ;; finish pw f2 p (sign_of g) x) e s.
Proof.
  intros D N H. destruct (string_size _ _ _ H) as (q & sz & d & B & L). unfold c_string, head_text in H.
  rewrite <- !app_assoc in H.
  assert (LD : length (digit_text l) = length l) by apply map_length.
  set (F := S (Z.to_nat sz)) in *.
  exists (F - length l)%nat, F, (0 + Z.of_nat n + Z.of_nat (length (sign_text g)) + Z.of_nat (length l)).
  unfold head_text in L. rewrite !app_length, repeat_length, LD in L.
  split; [lia|]. split; [lia|].
  destruct (first_digit g l D N) as (x & y & E & X).
  assert (H1 : text_at s p 0 (repeat 32 n ++ x :: (y ++ r ++ [0]))).
  { replace (x :: (y ++ r ++ [0])) with ((x :: y) ++ r ++ [0]) by reflexivity. rewrite <- E, <- app_assoc. exact H. }
  pose proof (text_app _ _ _ _ _ H) as H2. rewrite repeat_length in H2.
  pose proof (text_app _ _ _ _ _ H2) as H3. pose proof (text_app _ _ _ _ _ H3) as H4. rewrite LD in H4.
  split; [exact H4|].
  unfold hypercv_atof. rewrite B. fold F. cbv zeta.
  rewrite (bind_ret _ _ e s (0 + Z.of_nat n) s) by (apply (skip_run p e s n F 0 x _ H1 X); lia).
  assert (SG : read_sign p (0 + Z.of_nat n) e s = Ret (sign_of g, 0 + Z.of_nat n + Z.of_nat (length (sign_text g))) s).
  { destruct l as [|d0 l0]; [contradiction|]. cbn [digit_text map app] in H2. apply digits_cons in D as [D _].
    apply (sign_run p e s _ g (d0 + 48) _ H2); lia. }
  rewrite (bind_ret _ _ e s _ s SG). cbn [fst snd].
  assert (P1 : part1 F p (0 + Z.of_nat n + Z.of_nat (length (sign_text g))) (fl_of_Z 0) e s
    = part1 (F - length l) p (0 + Z.of_nat n + Z.of_nat (length (sign_text g)) + Z.of_nat (length l)) (ints (fl_of_Z 0) l) e s).
  { replace F with (length l + (F - length l))%nat at 1 by lia. apply (part1_digits p e s l (F - length l) _ _ _ D H3). }
  unfold bind. rewrite P1. reflexivity.
Qed.

Lemma final_int pw (sg v k : Z) ip : (sg = 1 \/ sg = -1) -> isint 24 128 ip v -> pow_exact pw k -> 0 <= v -> 0 <= k -> v * 10 ^ k <= 9007199254740992 ->
  denotes (fl_of_db (db_mul (db_of_Z sg) (db_add (db_mul (db_of_fl ip) (pw k)) (db_of_fl (fl_of_Z 0))))) (sg * (v * 10 ^ k)).
Proof.
  intros S [Vi Ni] PW V K B. assert (P10 : 0 < 10 ^ k) by (apply Z.pow_pos_nonneg; lia).
  assert (VB : 0 <= v * 10 ^ k) by (apply Z.mul_nonneg_nonneg; lia).
  set (w := v * 10 ^ k) in *.
  assert (I1 : isint 53 1024 (db_of_fl ip) v) by (unfold isint; destruct (db_of_fl_ok ip Vi) as [A ->]; split; assumption).
  apply fl_of_db_denotes; [|destruct S; subst sg; lia].
  assert (I2 : isint 53 1024 (db_mul (db_of_fl ip) (pw k)) w).
  { apply mul_int; try lia; [exact I1|exact PW]. }
  assert (I3 : isint 53 1024 (db_add (db_mul (db_of_fl ip) (pw k)) (db_of_fl (fl_of_Z 0))) w).
  { replace w with (w + 0) by lia. apply add_int; try lia; [exact I2|split; reflexivity]. }
  apply mul_int; try lia; [|exact I3].
  apply of_Z_int; try lia.
Qed.

(** Integers with an optional exponent. *)
Lemma atof_integer : forall pw e s p n g l x,
  digits l -> l <> [] -> digits (exp_digits x) -> c_string s p (head_text n g l ++ exp_text x) ->
  dec_value l <= 16777168 -> dec_value (exp_digits x) <= 2147483599 ->
  dec_value l * 10 ^ dec_value (exp_digits x) <= 9007199254740992 -> pow_exact pw (dec_value (exp_digits x)) ->
  exists v, hypercv_atof pw p e s = Ret v s /\ denotes v (sign_of g * (dec_value l * 10 ^ dec_value (exp_digits x))).
Proof.
  intros pw e s p n g l x D N DX H B BX BP PW. destruct (atof_head pw p e s n g l _ D N H) as (f1 & f2 & pos & F1 & F2 & T & ->).
  assert (SG : sign_of g = 1 \/ sign_of g = -1) by (destruct g as [[|]|]; cbn; lia).
  pose proof (dec_nonneg l D) as VN. pose proof (dec_nonneg _ DX) as KN.
  assert (I : isint 24 128 (ints (fl_of_Z 0) l) (dec_value l)).
  { apply (ints_int l (fl_of_Z 0) 0 D); [split; reflexivity|lia|exact B]. }
  destruct f1 as [|f1]; [lia|]. destruct f2 as [|f2]; [lia|].
  destruct x as [[b es]|]; cbn [exp_text exp_digits app] in *.
  - apply text_cons in T as [T1 T2]. cbn [part1].
    assert (P1 : (c <- load8 p pos ;;
       (if c =? 0 then ret (inr (pos, ints (fl_of_Z 0) l, false, false))
        else if isdigit c then part1 f1 p (pos + 1) (int_step (ints (fl_of_Z 0) l) c)
        else if c =? 46 then ret (inr (pos + 1, ints (fl_of_Z 0) l, true, false))
        else if is_e c then ret (inr (pos + 1, ints (fl_of_Z 0) l, false, true))
        else ret (inl (ints (fl_of_Z 0) l)))) e s = Ret (inr (pos + 1, ints (fl_of_Z 0) l, false, true)) s).
    { rewrite (bind_ret _ _ e s _ s (load8_byte _ _ e _ _ T1)). destruct b; reflexivity. }
    rewrite (bind_ret _ _ e s _ s P1). cbn [finish].
    assert (LE : length (digit_text es) = length es) by apply map_length. cbn [length] in F2. rewrite LE in F2.
    assert (P2 : part2 pw (S f2) p (pos + 1) (ints (fl_of_Z 0) l) (fl_of_Z 0) 1 0 false true e s
      = Ret (pos + 1 + Z.of_nat (length es), ints (fl_of_Z 0) l, fl_of_Z 0, dec_value es, true) s).
    { replace (S f2) with (length es + (S f2 - length es))%nat by lia.
      rewrite (part2_exp p e s pw _ _ _ es _ (pos + 1) 0 [0] DX T2 ltac:(lia) BX). fold (dec_value es).
      apply text_app in T2. rewrite LE in T2. apply text_cons in T2 as [T2 _].
      destruct (S f2 - length es)%nat as [|f3] eqn:E3; [lia|]. cbn [part2]. rewrite (bind_ret _ _ e s _ s (load8_byte _ _ e _ _ T2)). reflexivity. }
    rewrite (bind_ret _ _ e s _ s P2). cbn [andb]. rewrite (bind_ret _ _ e s (dec_value es) s eq_refl).
    eexists. split; [reflexivity|]. apply final_int; auto.
  - apply text_cons in T as [T1 _]. cbn [part1].
    assert (P1 : (c <- load8 p pos ;;
       (if c =? 0 then ret (inr (pos, ints (fl_of_Z 0) l, false, false))
        else if isdigit c then part1 f1 p (pos + 1) (int_step (ints (fl_of_Z 0) l) c)
        else if c =? 46 then ret (inr (pos + 1, ints (fl_of_Z 0) l, true, false))
        else if is_e c then ret (inr (pos + 1, ints (fl_of_Z 0) l, false, true))
        else ret (inl (ints (fl_of_Z 0) l)))) e s = Ret (inr (pos, ints (fl_of_Z 0) l, false, false)) s).
    { rewrite (bind_ret _ _ e s _ s (load8_byte _ _ e _ _ T1)). reflexivity. }
    rewrite (bind_ret _ _ e s _ s P1). cbn [finish part2].
    assert (P2 : part2 pw (S f2) p pos (ints (fl_of_Z 0) l) (fl_of_Z 0) 1 0 false false e s = Ret (pos, ints (fl_of_Z 0) l, fl_of_Z 0, 0, false) s).
    { cbn [part2]. rewrite (bind_ret _ _ e s _ s (load8_byte _ _ e _ _ T1)). reflexivity. }
    cbn [part2] in P2. rewrite (bind_ret _ _ e s _ s P2). cbn [andb]. rewrite (bind_ret _ _ e s 0 s eq_refl).
    eexists. split; [reflexivity|]. change (dec_value []) with 0 in *. apply final_int; auto.
Qed.
