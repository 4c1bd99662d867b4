(** * More on floats: validity of results, doubles in memory, small integers. *)
From Verif Require Import Base ModelFloat ModelDouble SpecNum ProofFloat.
From Coq Require Import Floats.SpecFloat ZifyBool ZifyNat.
Ltac Zify.zify_post_hook ::= Z.div_mod_to_equations.
Open Scope Z_scope.

Section Valid.
  Variables prec emax : Z.
  Hypotheses (Hprec : 1 < prec) (Hemax : prec < emax) (Hemin : -1074 <= 3 - emax - prec).
  Notation ok x := (valid_binary prec emax x = true).

  Lemma rounded_ok k A x : rounded prec emax k A x -> ok x.
  Proof. unfold rounded. destruct (_ <? _); [tauto|intros ->; reflexivity]. Qed.

  Lemma add_ok x y : ok x -> ok y -> ok (SFadd prec emax x y).
  Proof.
    intros Vx Vy. destruct (sf_num x) as [a|] eqn:Na; [destruct (sf_num y) as [b|] eqn:Nb|].
    - eapply rounded_ok. apply SFadd_num; eauto.
    - destruct x as [sx|sx| |sx mx ex]; try discriminate Na; destruct y as [sy|sy| |sy my ey]; try discriminate Nb; reflexivity.
    - destruct x as [sx|sx| |sx mx ex]; try discriminate Na; destruct y as [sy|sy| |sy my ey]; try reflexivity.
      cbn [SFadd]. destruct (Bool.eqb sx sy); reflexivity.
  Qed.

  Lemma mul_ok x y : ok x -> ok y -> ok (SFmul prec emax x y).
  Proof.
    intros Vx Vy. destruct (sf_num x) as [a|] eqn:Na; [destruct (sf_num y) as [b|] eqn:Nb|].
    - eapply rounded_ok. apply SFmul_num; eauto.
    - destruct x as [sx|sx| |sx mx ex]; try discriminate Na; destruct y as [sy|sy| |sy my ey]; try discriminate Nb; reflexivity.
    - destruct x as [sx|sx| |sx mx ex]; try discriminate Na; destruct y as [sy|sy| |sy my ey]; reflexivity.
  Qed.

  Lemma opp_ok x : ok x -> ok (SFopp x).
  Proof. destruct x; auto. Qed.

  (** Exact results: integers of at most prec bits. *)
  Definition isint (x : sf) (z : Z) : Prop := ok x /\ sf_num x = Some (z * sf_one).

  Lemma int_exact k A x w : 0 <= k + emin prec emax -> A = w * 2 ^ k -> Z.abs w <= 2 ^ prec ->
    rounded prec emax k A x -> isint x w.
  Proof.
    intros Hk EA Hw R. unfold isint. rewrite sf_one_eq. change 1074 with (0 + 1074) at 1.
    apply (rounded_exact prec emax k A w 0 x); auto.
    - unfold emin; lia.
    - apply Z.le_lt_trans with (2 ^ prec * 2 ^ (0 + 1074)).
      + apply Z.mul_le_mono_nonneg_r; auto. apply Z.pow_nonneg; lia.
      + rewrite <- pow_split by lia. apply pow_lt. lia.
  Qed.

  Lemma add_int x y a b : isint x a -> isint y b -> Z.abs (a + b) <= 2 ^ prec -> isint (SFadd prec emax x y) (a + b).
  Proof.
    intros [V N] [V' N'] H. eapply (int_exact 1074); [unfold emin; lia| |exact H|apply SFadd_num; eauto].
    rewrite sf_one_eq. generalize (2 ^ 1074). clear. intros; ring.
  Qed.
  Lemma sub_int x y a b : isint x a -> isint y b -> Z.abs (a - b) <= 2 ^ prec -> isint (SFsub prec emax x y) (a - b).
  Proof.
    intros [V N] [V' N'] H. eapply (int_exact 1074); [unfold emin; lia| |exact H|apply SFsub_num; eauto].
    rewrite sf_one_eq. generalize (2 ^ 1074). clear. intros; ring.
  Qed.
  Lemma mul_int x y a b : isint x a -> isint y b -> Z.abs (a * b) <= 2 ^ prec -> isint (SFmul prec emax x y) (a * b).
  Proof.
    intros [V N] [V' N'] H. eapply (int_exact 2148); [unfold emin; lia| |exact H|apply SFmul_num; eauto].
    rewrite sf_one_eq. change 2148 with (1074 + 1074). rewrite pow_split by lia. generalize (2 ^ 1074). clear. intros; ring.
  Qed.
  Lemma of_Z_int z : Z.abs z <= 2 ^ prec -> isint (binary_normalize prec emax z 0 false) z.
  Proof. intros H. apply of_Z_ok; auto. Qed.
  Lemma isint_unique x a b : isint x a -> isint x b -> a = b.
  Proof. intros [_ N] [_ N']. rewrite N in N'. pose proof sf_one_pos. assert (a * sf_one = b * sf_one) by congruence. nia. Qed.
End Valid.

Lemma fl_add_ok x y : fl_ok x -> fl_ok y -> fl_ok (fl_add x y).
Proof. apply add_ok; lia. Qed.
Lemma fl_mul_ok x y : fl_ok x -> fl_ok y -> fl_ok (fl_mul x y).
Proof. apply mul_ok; lia. Qed.
Lemma db_add_ok x y : db_ok x -> db_ok y -> db_ok (db_add x y).
Proof. apply add_ok; lia. Qed.
Lemma db_mul_ok x y : db_ok x -> db_ok y -> db_ok (db_mul x y).
Proof. apply mul_ok; lia. Qed.
Lemma fl_sub_ok x y : fl_ok x -> fl_ok y -> fl_ok (fl_sub x y).
Proof.
  intros Vx Vy. destruct (sf_num x) as [a|] eqn:Na; [destruct (sf_num y) as [b|] eqn:Nb|].
  - eapply rounded_ok. apply (SFsub_num 24 128); eauto; lia.
  - destruct x as [sx|sx| |sx mx ex]; try discriminate Na; destruct y as [sy|sy| |sy my ey]; try discriminate Nb; reflexivity.
  - destruct x as [sx|sx| |sx mx ex]; try discriminate Na; destruct y as [sy|sy| |sy my ey]; try reflexivity.
    cbn. destruct (Bool.eqb sx (negb sy)); reflexivity.
Qed.

(** ** Bit patterns of doubles *)
Lemma db_of_bits_ok b : 0 <= b < 18446744073709551616 -> db_ok (db_of_bits b).
Proof.
  intros Hb. unfold db_of_bits. change (2 ^ 63) with 9223372036854775808. change (2 ^ 52) with 4503599627370496. change (2 ^ 11) with 2048.
  set (ex := b / 4503599627370496 mod 2048). assert (He : 0 <= ex < 2048) by (unfold ex; lia).
  set (m := b mod 4503599627370496). assert (Hm : 0 <= m < 4503599627370496) by (unfold m; lia).
  clearbody ex m. unfold db_ok.
  destruct (Z.eqb_spec ex 2047) as [E|E].
  - destruct (m =? 0); reflexivity.
  - destruct (Z.eqb_spec ex 0) as [E0|E0].
    + destruct m as [|p|p] eqn:Em; try reflexivity.
      cbn [valid_binary]. unfold bounded, canonical_mantissa.
      pose proof (digits_le (Zpos p) 52 ltac:(lia) ltac:(change (2 ^ 52) with 4503599627370496; lia)) as D.
      cbn [Zdigits2] in D. change (fexp 53 1024 (Zpos (digits2_pos p) + -1074)) with (Z.max (Zpos (digits2_pos p) + -1074 - 53) (-1074)).
      rewrite Z.max_r by lia. reflexivity.
    + destruct (m + 4503599627370496) as [|p|p] eqn:Em; try lia.
      cbn [valid_binary]. unfold bounded, canonical_mantissa.
      assert (D : Zdigits2 (Zpos p) = 53).
      { apply digits_unique; [lia|]. change (2 ^ (53 - 1)) with 4503599627370496. change (2 ^ 53) with 9007199254740992. lia. }
      cbn [Zdigits2] in D. rewrite D.
      change (fexp 53 1024 (53 + (ex - 1075))) with (Z.max (53 + (ex - 1075) - 53) (-1074)).
      rewrite Z.max_l by lia. replace (53 + (ex - 1075) - 53) with (ex - 1075) by lia.
      apply andb_true_intro. split; [apply Zeq_is_eq_bool; reflexivity | apply Z.leb_le; lia].
Qed.

Lemma bits_of_db_range x : db_ok x -> 0 <= bits_of_db x < 18446744073709551616.
Proof.
  intros V. destruct x as [s|s| |s m e];
    [destruct s; vm_compute; split; congruence|destruct s; vm_compute; split; congruence|vm_compute; split; congruence|].
  apply (valid_finite 53 1024) in V as [V C]. unfold emin in V. unfold bits_of_db. change (2 ^ 52) with 4503599627370496.
  destruct (digits_bounds (Zpos m) ltac:(lia)) as [D B].
  assert (D53 : Zdigits2 (Zpos m) <= 53) by (unfold fexp in C; lia).
  pose proof (pow_le _ 53 (conj (Z.lt_le_incl _ _ D) D53)) as P. change (2 ^ 53) with 9007199254740992 in P.
  assert (S : dsbit s = 0 \/ dsbit s = 9223372036854775808) by (destruct s; [right|left]; reflexivity).
  destruct (Z.ltb_spec (Zpos m) 4503599627370496); lia.
Qed.

Lemma db_bits_db x : db_ok x -> db_of_bits (bits_of_db x) = x.
Proof.
  intros V. destruct x as [s|s| |s m e]; [destruct s; reflexivity|destruct s; reflexivity|reflexivity|].
  apply (valid_finite 53 1024) in V as [V C]. unfold emin in V. unfold bits_of_db. change (2 ^ 52) with 4503599627370496.
  destruct (digits_bounds (Zpos m) ltac:(lia)) as [D B].
  set (d := Zdigits2 (Zpos m)) in *.
  assert (D53 : d <= 53) by (unfold fexp in C; lia).
  pose proof (pow_le _ 53 (conj (Z.lt_le_incl _ _ D) D53)) as P. change (2 ^ 53) with 9007199254740992 in P.
  assert (Sb : dsbit s = (if s then 1 else 0) * 9223372036854775808) by (destruct s; reflexivity).
  assert (So : Z.odd (if s then 1 else 0) = s) by (destruct s; reflexivity).
  assert (S01 : 0 <= (if s then 1 else 0) <= 1) by (destruct s; lia).
  set (z := if s then 1 else 0) in *. clearbody z.
  unfold db_of_bits. change (2 ^ 63) with 9223372036854775808. change (2 ^ 52) with 4503599627370496. change (2 ^ 11) with 2048.
  destruct (Z.ltb_spec (Zpos m) 4503599627370496) as [H|H].
  - assert (Ee : e = -1074).
    { assert (d < 53). { destruct (Z.eq_dec d 53) as [E|]; [|lia]. rewrite E in B. change (2 ^ (53 - 1)) with 4503599627370496 in B. lia. }
      unfold fexp, emin in C. lia. }
    replace ((dsbit s + Zpos m) / 9223372036854775808) with z by lia. rewrite So.
    replace ((dsbit s + Zpos m) / 4503599627370496 mod 2048) with 0 by lia. cbn [Z.eqb].
    replace ((dsbit s + Zpos m) mod 4503599627370496) with (Zpos m) by lia. now rewrite Ee.
  - set (w := dsbit s + (e + 1075) * 4503599627370496 + (Zpos m - 4503599627370496)).
    replace (w / 9223372036854775808) with z by (unfold w; lia). rewrite So.
    assert (Ew : w / 4503599627370496 mod 2048 = e + 1075) by (unfold w; lia). rewrite Ew.
    replace (w mod 4503599627370496) with (Zpos m - 4503599627370496) by (unfold w; lia).
    replace (e + 1075 =? 2047) with false by lia. replace (e + 1075 =? 0) with false by lia.
    replace (Zpos m - 4503599627370496 + 4503599627370496) with (Zpos m) by lia.
    f_equal. lia.
Qed.
