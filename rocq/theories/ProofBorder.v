(** * Proofs: border extrapolation and padding. *)
From Verif Require Import Base Logic ModelCore ModelBorder SpecBase SpecCore SpecImage SpecImage2 SpecPixel ProofCore ProofLayout ProofHM ProofCopy ProofCore2 ProofImage3 ProofImage4.
From Coq Require Import String ZifyBool ZifyNat.
Ltac Zify.zify_post_hook ::= Z.div_mod_to_equations.
Open Scope Z_scope.

(** ** Arithmetic of the reflections *)

(** Both reflections at once: delta = 0 or 1, period 2 len - 2 delta. *)
Definition refl (len delta p : Z) : Z :=
  let P := 2 * len - 2 * delta in
  let q := p mod P in if q <? len then q else P - 1 + delta - q.

Lemma refl_range len delta p : 2 <= len -> 0 <= delta <= 1 -> 0 <= refl len delta p < len.
Proof.
  intros Hl Hd. unfold refl. pose proof (Z.mod_pos_bound p (2 * len - 2 * delta) ltac:(lia)).
  set (q := p mod _) in *. destruct (q <? len) eqn:E; lia.
Qed.

Lemma refl_inside len delta p : 2 <= len -> 0 <= delta <= 1 -> 0 <= p < len -> refl len delta p = p.
Proof.
  intros Hl Hd Hp. unfold refl. rewrite Z.mod_small by lia. now replace (p <? len) with true by lia.
Qed.

Lemma refl_period len delta p k : 2 <= len -> 0 <= delta <= 1 ->
  refl len delta (p + k * (2 * len - 2 * delta)) = refl len delta p.
Proof. intros. unfold refl. now rewrite Z.mod_add by lia. Qed.

Lemma refl_sym len delta p : 2 <= len -> 0 <= delta <= 1 ->
  refl len delta (delta - 1 - p) = refl len delta p.
Proof.
  intros Hl Hd. unfold refl. set (P := 2 * len - 2 * delta).
  pose proof (Z.mod_pos_bound p P ltac:(lia)) as B.
  pose proof (Z.div_mod p P ltac:(lia)) as D. set (q := p mod P) in *. set (k := p / P) in *.
  destruct (Z_lt_ge_dec q delta) as [Hq|Hq].
  - assert (q = 0 /\ delta = 1) as [Eq Ed] by lia.
    replace (delta - 1 - p) with (0 + (- k) * P) by lia.
    rewrite Z.mod_add, Z.mod_0_l by lia. rewrite Eq. reflexivity.
  - replace (delta - 1 - p) with ((P + delta - 1 - q) + (- k - 1) * P) by lia.
    rewrite Z.mod_add by lia. rewrite (Z.mod_small (P + delta - 1 - q)) by lia.
    destruct (P + delta - 1 - q <? len) eqn:E1, (q <? len) eqn:E2; lia.
Qed.

Lemma u32_nonneg z : 0 <= z <= 2147483647 -> u32 z = z.
Proof. intros. unfold u32. apply Z.mod_small. lia. Qed.
Lemma u32_neg z : -2147483648 <= z < 0 -> u32 z = z + 4294967296.
Proof. intros. unfold u32. lia. Qed.

Lemma in_range_test z len : -2147483648 <= z <= 2147483647 -> 0 <= len <= 2147483647 ->
  (u32 z <? u32 len) = inb z len.
Proof.
  intros Hz Hl. rewrite (u32_nonneg len) by auto. unfold inb.
  destruct (Z_lt_ge_dec z 0); [rewrite u32_neg by lia|rewrite u32_nonneg by lia]; lia.
Qed.

Lemma reflect_step_ok index len delta : 2 <= len <= 2147483647 -> 0 <= delta <= 1 ->
  -2147483647 <= index <= 2147483647 -> ~ 0 <= index < len ->
  reflect_step index len delta =
    Some (if index <? 0 then delta - 1 - index else 2 * len - 1 - delta - index).
Proof.
  intros Hl Hd Hi Hn. unfold reflect_step. destruct (index <? 0) eqn:E.
  - unfold ci. rewrite (csub_ok 0 index) by lia. rewrite (csub_ok (0 - index)) by lia. rewrite cadd_ok by lia. f_equal. lia.
  - unfold ci. rewrite (csub_ok len 1), (csub_ok index len) by lia. rewrite (csub_ok (len - 1)) by lia. rewrite csub_ok by lia. f_equal. lia.
Qed.

(** Distance to termination. *)
Definition mu (index : Z) : Z := if index <? 0 then - index + 1 else index.

Lemma reflect_loop_ok e s len delta : 2 <= len <= 2147483647 -> 0 <= delta <= 1 ->
  forall fuel index, -2147483647 <= index <= 2147483647 -> ~ 0 <= index < len ->
  mu index < Z.of_nat fuel ->
  reflect_loop fuel index len delta e s = Ret (refl len delta index) s.
Proof.
  intros Hl Hd. induction fuel as [|fuel IH]; intros index Hi Hn Hmu.
  { unfold mu in Hmu. destruct (index <? 0) eqn:?; lia. }
  cbn [reflect_loop]. erewrite bind_ret; [|apply ev_ok; apply reflect_step_ok; auto].
  set (index' := if index <? 0 then _ else _).
  assert (Hi' : -2147483647 <= index' <= 2147483647) by (unfold index'; destruct (index <? 0) eqn:?; lia).
  assert (R : refl len delta index' = refl len delta index).
  { unfold index'. destruct (index <? 0) eqn:?.
    - now apply refl_sym.
    - replace (2 * len - 1 - delta - index) with ((delta - 1 - index) + 1 * (2 * len - 2 * delta)) by lia.
      rewrite refl_period by lia. now apply refl_sym. }
  rewrite Z.geb_leb, Z.leb_antisym, in_range_test by lia.
  destruct (inb index' len) eqn:E.
  - cbn. unfold ret. f_equal. rewrite <- R. symmetry. apply refl_inside; auto; try lia. unfold inb in E. lia.
  - cbn [negb]. rewrite IH; auto; [now rewrite R|unfold inb in E; lia|].
    unfold mu in *. unfold index' in *. destruct (index <? 0) eqn:E1; unfold inb in E;
      destruct (delta - 1 - index <? 0) eqn:E2, (2 * len - 1 - delta - index <? 0) eqn:E3; lia.
Qed.

Lemma source_range x len p : 1 <= len -> 0 <= source_index x len p < len.
Proof.
  intros Hl. destruct x; unfold source_index; cbv zeta.
  - lia.
  - pose proof (Z.mod_pos_bound p (2 * len) ltac:(lia)). set (q := p mod _) in *.
    destruct (q <? len) eqn:?; lia.
  - destruct (len =? 1) eqn:?; [lia|].
    pose proof (Z.mod_pos_bound p (2 * len - 2) ltac:(lia)). set (q := p mod _) in *.
    destruct (q <? len) eqn:?; lia.
  - apply Z.mod_pos_bound; lia.
Qed.

Lemma refl_source len p : 2 <= len ->
  refl len 0 p = source_index Reflect len p /\ refl len 1 p = source_index Reflect101 len p.
Proof.
  intros Hl. unfold refl, source_index.
  replace (2 * len - 2 * 0) with (2 * len) by lia. replace (2 * len - 2 * 1) with (2 * len - 2) by lia.
  replace (len =? 1) with false by lia. cbv zeta.
  split; match goal with |- (if ?c then _ else _) = _ => destruct c; lia end.
Qed.

Lemma source_inside x len p : 0 <= p < len -> source_index x len p = p.
Proof.
  intros H. destruct x; unfold source_index; cbv zeta.
  - lia.
  - rewrite Z.mod_small by lia. now replace (p <? len) with true by lia.
  - destruct (len =? 1) eqn:?; [lia|]. rewrite Z.mod_small by lia. now replace (p <? len) with true by lia.
  - apply Z.mod_small; lia.
Qed.

Lemma border_ok e s x len p : 1 <= len <= 2147483647 -> computable x len p ->
  hypercv_border_Interpolate p len (mode_of x) e s = Ret (source_index x len p) s.
Proof.
  intros Hl Hp. unfold hypercv_border_Interpolate, border_Interpolate_fuel.
  rewrite bind_assert by lia. rewrite bind_assert by (destruct x; reflexivity). cbv zeta.
  unfold computable, INT_MIN, INT_MAX in Hp.
  assert (Hpi : -2147483648 <= p <= 2147483647) by (destruct x; lia).
  rewrite in_range_test by lia.
  destruct (inb p len) eqn:E.
  { unfold ret. f_equal. symmetry. apply source_inside. unfold inb in E. lia. }
  assert (Hn : ~ 0 <= p < len) by (unfold inb in E; lia).
  destruct x; cbn [mode_of].
  - change (1 =? BORDER_REPLICATE) with true. cbv iota. destruct (p <? 0) eqn:?.
    + unfold ret. f_equal. unfold source_index. lia.
    + erewrite ev_ok; [|apply csub_ok; lia]. f_equal. unfold source_index. lia.
  - change (2 =? BORDER_REPLICATE) with false. change (2 =? BORDER_REFLECT) with true. cbn [orb]. cbv iota.
    change (2 =? BORDER_REFLECT_101) with false. cbv iota.
    destruct (len =? 1) eqn:El.
    + unfold ret. f_equal. assert (len = 1) as -> by lia. pose proof (source_range Reflect 1 p). lia.
    + rewrite reflect_loop_ok; try lia; [now rewrite (proj1 (refl_source len p ltac:(lia)))|].
      unfold mu. destruct (p <? 0) eqn:?; lia.
  - change (4 =? BORDER_REPLICATE) with false. change (4 =? BORDER_REFLECT_101) with true.
    rewrite orb_true_r. cbv iota. destruct (len =? 1) eqn:El.
    + unfold ret. f_equal. assert (len = 1) as -> by lia. pose proof (source_range Reflect101 1 p). lia.
    + rewrite reflect_loop_ok; try lia; [now rewrite (proj2 (refl_source len p ltac:(lia)))|].
      unfold mu. destruct (p <? 0) eqn:?; lia.
  - change (3 =? BORDER_REPLICATE) with false. change (3 =? BORDER_REFLECT) with false.
    change (3 =? BORDER_REFLECT_101) with false. change (3 =? BORDER_WRAP) with true. cbn [orb]. cbv iota.
    destruct (p <? 0) eqn:Ep.
    + set (t := Z.quot (p - len + 1) len).
      assert (Ht : t = p / len).
      { unfold t. replace (p - len + 1) with (- (len - 1 - p)) by lia. rewrite Z.quot_opp_l by lia.
        rewrite Z.quot_div_nonneg by lia.
        pose proof (Z.div_mod p len ltac:(lia)). pose proof (Z.mod_pos_bound p len ltac:(lia)).
        replace ((len - 1 - p) / len) with (- (p / len)); [lia|].
        apply (Z.div_unique _ _ _ (len - 1 - p mod len)); lia. }
      pose proof (Z.div_mod p len ltac:(lia)) as D. pose proof (Z.mod_pos_bound p len ltac:(lia)) as B.
      rewrite (bind_ret _ _ e s (p mod len) s).
      * replace (p mod len >=? len) with false by lia. reflexivity.
      * apply ev_ok. unfold ci. rewrite (csub_ok p len) by lia. rewrite (cadd_ok (p - len)) by lia.
        rewrite cdiv_ok; [|lia|fold t; rewrite Ht; nia]. fold t. rewrite Ht.
        rewrite cmul_ok by nia. rewrite csub_ok by nia. f_equal. lia.
    + rewrite bind_ret_l. replace (p >=? len) with true by lia.
      apply ev_ok. unfold crem, ci. replace (len =? 0) with false by lia.
      rewrite chk_ok by (rewrite Z.quot_div_nonneg by lia; nia). f_equal. apply Z.rem_mod_nonneg; lia.
Qed.

Lemma border_const e s p len : 0 <= len <= 2147483647 -> -2147483648 <= p <= 2147483647 ->
  hypercv_border_Interpolate p len 0 e s = Ret (if inb p len then p else 1) s.
Proof.
  intros Hl Hp. unfold hypercv_border_Interpolate, border_Interpolate_fuel.
  rewrite bind_assert by lia. rewrite bind_assert by reflexivity. cbv zeta.
  rewrite in_range_test by lia. destruct (inb p len); reflexivity.
Qed.

(** ** The excluded positions *)

Lemma reflect_min e s len ty : 2 <= len <= 2147483647 -> ty = 2 \/ ty = 4 ->
  forall fuel, (0 < fuel)%nat -> border_Interpolate_fuel fuel INT_MIN len ty e s = UB.
Proof.
  intros Hl Hty fuel Hf. unfold border_Interpolate_fuel. rewrite bind_assert by lia.
  rewrite bind_assert by (destruct Hty as [-> | ->]; reflexivity). cbv zeta.
  rewrite in_range_test by (unfold INT_MIN; lia). change (inb INT_MIN len) with false. cbv iota.
  destruct fuel as [|fuel]; [lia|].
  replace (ty =? BORDER_REPLICATE) with false by (unfold BORDER_REPLICATE; lia).
  replace ((ty =? BORDER_REFLECT) || (ty =? BORDER_REFLECT_101)) with true by (unfold BORDER_REFLECT, BORDER_REFLECT_101; lia).
  cbv iota. replace (len =? 1) with false by lia. reflexivity.
Qed.

Lemma wrap_low e s p len : 1 <= len <= 2147483647 -> INT_MIN <= p < INT_MIN + len ->
  forall fuel, border_Interpolate_fuel fuel p len 3 e s = UB.
Proof.
  intros Hl Hp fuel. unfold INT_MIN in Hp. unfold border_Interpolate_fuel. rewrite bind_assert by lia.
  rewrite bind_assert by reflexivity. cbv zeta.
  rewrite in_range_test by lia. rewrite inb_false by lia. cbn [orb].
  change (3 =? BORDER_REPLICATE) with false. change (3 =? BORDER_REFLECT) with false.
  change (3 =? BORDER_REFLECT_101) with false. change (3 =? BORDER_WRAP) with true. cbn [orb]. cbv iota.
  replace (p <? 0) with true by lia. apply bind_ub. unfold ev.
  destruct (_ : cint) as [z|] eqn:E; auto. exfalso.
  unfold ci in E. apply cop_some in E as (? & y & _ & E & _). apply cop_some in E as (w & ? & E & _ & _).
  unfold cdiv in E. destruct (cadd _ _) eqn:E1; [|discriminate].
  apply cop_some in E1 as (v & ? & E1 & _ & _). unfold csub, cop, chk in E1.
  replace (in_int (p - len)) with false in E1; [discriminate|].
  unfold in_int, INT_MIN, INT_MAX. lia.
Qed.

(** Length 0: the reflecting loop never ends (until an overflow or not at all). *)
Lemma reflect_zero e s : forall fuel, reflect_loop fuel 0 0 0 e s = Fuel.
Proof.
  assert (H : forall fuel, reflect_loop fuel 0 0 0 e s = Fuel /\ reflect_loop fuel (-1) 0 0 e s = Fuel).
  { induction fuel as [|fuel [IH1 IH2]]; [split; reflexivity|].
    split; cbn [reflect_loop];
      (erewrite bind_ret; [|apply ev_ok; vm_compute; reflexivity]);
      cbv beta; match goal with |- (if ?c then _ else _) _ _ = _ => change c with true end; auto. }
  intros fuel. apply H.
Qed.
