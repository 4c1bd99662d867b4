(** * Proofs: the dynamic array behaves like a list (C36). *)
From Verif Require Import Base Logic ModelCore SpecBase SpecNum SpecVector ModelVector ProofCore ProofHM ProofWord ProofArr.
From Coq Require Import ZifyBool ZifyNat.
Ltac Zify.zify_post_hook ::= Z.div_mod_to_equations.
Open Scope Z_scope.

Section Vector.
  Variables (sz : Z).
  Hypothesis Hsz : 0 < sz.

  Definition own (s : st) (q : nat) (n : Z) : Prop :=
    exists a d, nth_error (objs s) q = Some (mkObj a n q true (CBytes d)).
  Definition hdr2 (len c : Z) : Z -> Z := fun i => if i =? 0 then len else c.

  Definition vrep (s : st) (q : nat) (l : list Z) (c : Z) : Prop :=
    Z.of_nat (length l) <= c /\ 1 <= c /\ 16 + c * sz < 2 ^ 62 /\ own s q (16 + c * sz)
    /\ arr s q 0 8 2 (hdr2 (Z.of_nat (length l)) c)
    /\ exists g, arr s q 16 sz c g /\ forall i, 0 <= i < Z.of_nat (length l) -> g i = nth (Z.to_nat i) l 0.

  Lemma own_isb s q n : own s q n -> exists d, isb s q n d.
  Proof. intros (a & d & H). exists d. eapply obj_isb; eauto. Qed.

  Lemma inside_own s q lo hi s' n : inside s q lo hi s' -> own s q n -> own s' q n.
  Proof.
    intros (N & d & d' & H & -> & _) (a & d0 & H0). exists a, d'. unfold putd; cbn [objs].
    rewrite lupd_nth_eq, H0. reflexivity.
  Qed.

  Lemma inside_kept s q lo hi s' n : inside s q lo hi s' -> own s q n -> others_kept (Some q) s s'.
  Proof.
    intros (N & d & d' & H & -> & _) (a & d0 & H0). split; [reflexivity|].
    split; [unfold putd; cbn [objs]; now rewrite lupd_length|].
    intros k o Ho Hr. rewrite objs_putd_ne; auto. intros ->. rewrite H0 in Ho. injection Ho as <-. apply Hr. reflexivity.
  Qed.

  Lemma kept_refl v s : others_kept v s s.
  Proof. split; auto. Qed.
  Lemma kept_trans v v1 s s1 s2 : heap_ok s -> v1 = v \/ fresh_in s v1 ->
    others_kept v s s1 -> others_kept v1 s1 s2 -> others_kept v s s2.
  Proof.
    intros Hs Hv (F1 & L1 & K1) (F2 & L2 & K2). split; [congruence|]. split; [lia|].
    intros k o Ho Hr. apply K2; [apply K1; auto|]. destruct Hv as [->|(k1 & -> & Hk1)]; auto.
    intros [= ->]. pose proof (Hs _ _ Ho). lia.
  Qed.
  Lemma fresh_trans v v1 s s1 v2 : (List.length (objs s) <= List.length (objs s1))%nat ->
    v1 = v \/ fresh_in s v1 -> v2 = v1 \/ fresh_in s1 v2 -> v2 = v \/ fresh_in s v2.
  Proof.
    intros HL [->|H1] [->|(k & -> & Hk)]; auto; right; exists k; split; auto; lia.
  Qed.

  (** ** Reading the counters *)
  Lemma size_ok e s q l c : vrep s q l c -> vector_size (Some q) e s = Ret (Z.of_nat (length l)) s.
  Proof.
    intros (_ & _ & _ & _ & H & _). unfold vector_size. cbn [nonnull].
    exact (arr_load e s q 0 8 2 _ 0 0 8 H ltac:(lia) ltac:(lia) ltac:(lia)).
  Qed.
  Lemma cap_ok e s q l c : vrep s q l c -> vector_capacity (Some q) e s = Ret c s.
  Proof.
    intros (_ & _ & _ & _ & H & _). unfold vector_capacity. cbn [nonnull].
    exact (arr_load e s q 0 8 2 _ 1 8 8 H ltac:(lia) ltac:(lia) ltac:(lia)).
  Qed.

  (** ** Writing a counter *)
  Lemma hdr_store e s q i off v h n g c : own s q n -> 0 <= c ->
    arr s q 0 8 2 h -> arr s q 16 sz c g -> 0 <= i < 2 -> off = i * 8 -> 0 <= v < 2 ^ 64 ->
    exists s', storele (Some q) off 8 v e s = Ret tt s' /\ own s' q n /\ arr s' q 0 8 2 (fupd h i v)
      /\ arr s' q 16 sz c g /\ others_kept (Some q) s s' /\ (heap_ok s -> heap_ok s').
  Proof.
    intros Ho Hc A1 A2 Hi -> Hv.
    destruct (arr_store e s q 0 8 2 h i (i * 8) 8 v A1 Hi ltac:(lia) ltac:(lia)) as (s' & E & B & I).
    rewrite Z.mod_small in B by (change (256 ^ 8) with (2 ^ 64); lia).
    exists s'. split; [exact E|]. split; [eapply inside_own; eauto|]. split; [exact B|].
    split; [eapply arr_inside; eauto; lia|]. split; [eapply inside_kept; eauto|]. eapply inside_heap_ok; eauto.
  Qed.

  Lemma arr_hdr_ext s q h h' : h 0 = h' 0 -> h 1 = h' 1 -> arr s q 0 8 2 h -> arr s q 0 8 2 h'.
  Proof. intros H0 H1. apply arr_ext. intros i Hi. assert (i = 0 \/ i = 1) as [->| ->] by lia; auto. Qed.

  (** ** Growing *)
  Lemma u64_id z : 0 <= z < 2 ^ 64 -> u64 z = z.
  Proof. intros. unfold u64. apply Z.mod_small. change (2 ^ 64) with 18446744073709551616 in *. lia. Qed.

  Lemma grow_null e s count : env_ok e -> heap_ok s -> 1 <= count -> 16 + count * sz < 2 ^ 62 ->
    exists s', vector_grow sz None count e s = Ret (Some (length (objs s))) s'
      /\ vrep s' (length (objs s)) [] count /\ others_kept None s s' /\ heap_ok s'.
  Proof.
    intros He Hs Hc Hb. set (k := length (objs s)).
    unfold vector_grow. cbn [nonnull negb].
    assert (P : 0 < count * sz) by nia. change (2 ^ 62) with 4611686018427387904 in Hb.
    rewrite (u64_id (count * sz)) by (change (2 ^ 64) with 18446744073709551616; lia).
    rewrite u64_id by (change (2 ^ 64) with 18446744073709551616; lia).
    set (N := count * sz + 16).
    set (s1 := mkSt (objs s ++ [mkObj (e_addr e k) N k true (CBytes (e_junk e k))]) (files s)).
    assert (E1 : malloc N e s = Ret (Some k) s1).
    { unfold malloc. replace ((0 <=? N) && (N <? 2 ^ 62)) with true; [reflexivity|].
      change (2 ^ 62) with 4611686018427387904. lia. }
    runs E1. rewrite bind_assert by reflexivity.
    assert (O1 : own s1 k N).
    { eexists _, _. unfold s1; cbn [objs]. unfold k. rewrite nth_error_app2, Nat.sub_diag by lia. reflexivity. }
    destruct (own_isb _ _ _ O1) as (d & Hd).
    assert (Hs1 : heap_ok s1).
    { unfold s1. eapply heap_ok_app; eauto. fold k. repeat constructor; cbn; lia. }
    pose proof (arr_of s1 k N d 0 8 2 Hd ltac:(lia) ltac:(lia) ltac:(lia)) as A1.
    pose proof (arr_of s1 k N d 16 sz count Hd ltac:(lia) ltac:(lia) ltac:(lia)) as A2.
    unfold vector_set_capacity, vector_set_size. cbn [nonnull].
    destruct (hdr_store e s1 k 1 8 count _ N _ count O1 ltac:(lia) A1 A2 ltac:(lia) ltac:(lia))
      as (s2 & E2 & O2 & B1 & B2 & K2 & H2); [change (2 ^ 64) with 18446744073709551616; nia|].
    runs E2.
    destruct (hdr_store e s2 k 0 0 0 _ N _ count O2 ltac:(lia) B1 B2 ltac:(lia) ltac:(lia))
      as (s3 & E3 & O3 & C1 & C2 & K3 & H3); [change (2 ^ 64) with 18446744073709551616; lia|].
    runs E3. exists s3. split; [reflexivity|].
    split; [|split; [|auto]].
    - split; [cbn; lia|]. split; [lia|]. split; [change (2 ^ 62) with 4611686018427387904; lia|].
      split; [replace (16 + count * sz) with N by (unfold N; lia); exact O3|].
      split; [eapply arr_hdr_ext; [..|exact C1]; reflexivity|].
      eexists. split; [exact C2|]. cbn [length]. intros; lia.
    - apply (kept_trans None (Some k) s s1 s3); auto.
      + right. exists k. split; auto.
      + split; [reflexivity|]. unfold s1; cbn [objs files]. rewrite app_length. split; [lia|].
        intros j o Ho _. rewrite nth_error_app1; auto. eapply nth_error_lt; eauto.
      + apply (kept_trans (Some k) (Some k) s1 s2 s3); auto.
  Qed.

  Lemma map_kill_nth s q k o : nth_error (objs s) k = Some o -> o_root o <> q ->
    nth_error (map (kill_root q) (objs s)) k = Some o.
  Proof.
    intros H Hr. rewrite nth_error_map, H. cbn. unfold kill_root.
    destruct (Nat.eqb_spec (o_root o) q); [congruence|reflexivity].
  Qed.

  Lemma grow_some e s q l c count : env_ok e -> heap_ok s -> vrep s q l c -> c <= count -> 16 + count * sz < 2 ^ 62 ->
    exists s', vector_grow sz (Some q) count e s = Ret (Some (length (objs s))) s'
      /\ vrep s' (length (objs s)) l count /\ others_kept (Some q) s s' /\ heap_ok s'.
  Proof.
    intros He Hs (R1 & R2 & R3 & R4 & R5 & g & R6 & R7) Hc Hb. set (k := length (objs s)).
    unfold vector_grow. cbn [nonnull negb].
    assert (P : c * sz <= count * sz) by nia. assert (P0 : 0 < c * sz) by nia.
    change (2 ^ 62) with 4611686018427387904 in *.
    rewrite (u64_id (count * sz)) by (change (2 ^ 64) with 18446744073709551616; lia).
    rewrite u64_id by (change (2 ^ 64) with 18446744073709551616; lia).
    set (N := count * sz + 16).
    destruct R4 as (a & d & Hq).
    set (s1 := mkSt (map (kill_root q) (objs s) ++ [mkObj (e_addr e k) N k true
                 (CBytes (fun i => if i <? Z.min N (16 + c * sz) then d i else e_junk e k i))]) (files s)).
    assert (E1 : realloc (Some q) N e s = Ret (Some k) s1).
    { unfold realloc. rewrite Hq. cbn [o_cont o_live o_root o_size]. rewrite Nat.eqb_refl. cbn [andb].
      replace ((0 <=? N) && (N <? 2 ^ 62)) with true; [reflexivity|].
      change (2 ^ 62) with 4611686018427387904. lia. }
    runs E1. rewrite bind_assert by reflexivity.
    assert (ELen : length (map (kill_root q) (objs s)) = k) by (unfold k; apply map_length).
    assert (O1 : own s1 k N).
    { eexists _, _. unfold s1; cbn [objs]. rewrite nth_error_app2 by lia. rewrite ELen, Nat.sub_diag. reflexivity. }
    assert (Hd : isb s1 k N (fun i => if i <? Z.min N (16 + c * sz) then d i else e_junk e k i)).
    { eapply obj_isb. unfold s1; cbn [objs]. rewrite nth_error_app2 by lia. rewrite ELen, Nat.sub_diag. reflexivity. }
    assert (Hs1 : heap_ok s1).
    { intros j o Ho. unfold s1 in *; cbn [objs] in *. rewrite app_length, ELen. cbn [length].
      destruct (Nat.lt_ge_cases j k) as [Hj|Hj].
      - rewrite nth_error_app1 in Ho by lia. rewrite nth_error_map in Ho.
        destruct (nth_error (objs s) j) as [o'|] eqn:Ej; [|discriminate]. cbn in Ho. injection Ho as <-.
        pose proof (Hs _ _ Ej). unfold kill_root. destruct (Nat.eqb (o_root o') q); cbn; fold k in H; lia.
      - rewrite nth_error_app2 in Ho by lia. rewrite ELen in Ho.
        destruct (j - k)%nat as [|j']; [|destruct j'; discriminate]. cbn in Ho. injection Ho as <-. cbn. lia. }
    assert (Hd0 : isb s q (16 + c * sz) d) by (eapply obj_isb; eauto).
    assert (A1 : arr s1 k 0 8 2 (hdr2 (Z.of_nat (length l)) c)).
    { destruct R5 as (N0 & d0 & I0 & B1 & B2 & B3 & B4). unfold isb in I0, Hd0. rewrite Hd0 in I0. injection I0 as <- <-.
      eexists _, _. split; [exact Hd|]. split; [lia|]. split; [lia|]. split; [lia|].
      intros i Hi. rewrite <- B4 by auto. apply word_ext. intros t Ht. cbv beta.
      replace (0 + i * 8 + t <? Z.min N (16 + c * sz)) with true by lia. reflexivity. }
    assert (A2 : exists g', arr s1 k 16 sz count g' /\ forall i, 0 <= i < c -> g' i = g i).
    { pose proof (arr_of s1 k N _ 16 sz count Hd ltac:(lia) ltac:(lia) ltac:(lia)) as A. eexists. split; [exact A|].
      destruct R6 as (N0 & d0 & I0 & B1 & B2 & B3 & B4). unfold isb in I0, Hd0. rewrite Hd0 in I0. injection I0 as <- <-.
      intros i Hi. rewrite <- B4 by auto. apply word_ext. intros t Ht. cbv beta.
      replace (16 + i * sz + t <? Z.min N (16 + c * sz)) with true; [reflexivity|]. nia. }
    destruct A2 as (g' & A2 & G2).
    unfold vector_set_capacity, vector_set_size. cbn [nonnull].
    destruct (hdr_store e s1 k 1 8 count _ N _ count O1 ltac:(lia) A1 A2 ltac:(lia) ltac:(lia))
      as (s2 & E2 & O2 & B1 & B2 & K2 & H2); [change (2 ^ 64) with 18446744073709551616; nia|].
    runs E2. exists s2. split; [reflexivity|].
    split; [|split; [|auto]].
    - split; [lia|]. split; [lia|]. split; [change (2 ^ 62) with 4611686018427387904; lia|].
      split; [replace (16 + count * sz) with N by (unfold N; lia); exact O2|].
      split; [eapply arr_hdr_ext; [..|exact B1]; reflexivity|].
      exists g'. split; [exact B2|]. intros i Hi. rewrite G2 by lia. apply R7. auto.
    - apply (kept_trans (Some q) (Some k) s s1 s2); auto.
      + right. exists k. split; [reflexivity|unfold k; lia].
      + split; [reflexivity|]. unfold s1; cbn [objs files]. rewrite app_length, ELen. split; [lia|].
        intros j o Ho Hr. rewrite nth_error_app1 by (rewrite ELen; eapply nth_error_lt; eauto).
        apply map_kill_nth; auto.
  Qed.

  Lemma grow_fail e s v c count : 2 ^ 62 <= 16 + count * sz -> 0 <= count -> count * sz + 16 < 2 ^ 64 ->
    (forall q, v = Some q -> own s q c) -> vector_grow sz v count e s = Exit.
  Proof.
    intros Hb Hc Hu Ho. unfold vector_grow.
    rewrite (u64_id (count * sz)) by nia. rewrite u64_id by nia.
    destruct v as [q|]; cbn [nonnull negb].
    - destruct (Ho q eq_refl) as (a & d & Hq).
      assert (E : realloc (Some q) (count * sz + 16) e s = Ret None s).
      { unfold realloc. rewrite Hq. cbn [o_cont o_live o_root o_size]. rewrite Nat.eqb_refl. cbn [andb].
        replace ((0 <=? count * sz + 16) && (count * sz + 16 <? 2 ^ 62)) with false by lia. reflexivity. }
      runs E. now rewrite bind_assert_false.
    - assert (E : malloc (count * sz + 16) e s = Ret None s).
      { unfold malloc. replace ((0 <=? count * sz + 16) && (count * sz + 16 <? 2 ^ 62)) with false by lia. reflexivity. }
      runs E. now rewrite bind_assert_false.
  Qed.

  (** ** Operations on a non-NULL vector *)

  Definition done (v : ptr) (s : st) (v' : ptr) (s' : st) : Prop :=
    others_kept v s s' /\ heap_ok s' /\ (v' = v \/ fresh_in s v').

  (** Appending with room. *)
  Lemma append_ok e s q l c x : heap_ok s -> vrep s q l c -> Z.of_nat (length l) < c -> 0 <= x < 256 ^ sz ->
    exists s', (n' <- vector_size (Some q) ;;
                vector_set sz (Some q) n' x ;;;
                n'' <- vector_size (Some q) ;;
                vector_set_size (Some q) (u64 (n'' + 1)) ;;;
                ret (Some q)) e s = Ret (Some q) s'
      /\ vrep s' q (l ++ [x]) c /\ others_kept (Some q) s s' /\ heap_ok s'.
  Proof.
    intros Hs V Hl Hx. pose proof V as (R1 & R2 & R3 & R4 & R5 & g & R6 & R7).
    runs (size_ok e s q l c V). unfold vector_set.
    destruct (arr_store e s q 16 sz c g (Z.of_nat (length l)) (16 + Z.of_nat (length l) * sz) (Z.to_nat sz) x R6)
      as (s1 & E1 & A1 & I1); [lia|lia|lia|].
    rewrite Z.mod_small in A1 by auto. runs E1.
    assert (V1 : vrep s1 q l c).
    { split; [lia|]. split; [lia|]. split; [exact R3|]. split; [eapply inside_own; eauto|].
      split; [eapply arr_inside; eauto; nia|]. eexists. split; [exact A1|].
      intros i Hi. unfold fupd. destruct (Z.eqb_spec i (Z.of_nat (length l))); [lia|]. auto. }
    runs (size_ok e s1 q l c V1). unfold vector_set_size. cbn [nonnull].
    assert (Hc2 : c < 2 ^ 62) by nia. change (2 ^ 62) with 4611686018427387904 in Hc2, R3.
    rewrite u64_id by (change (2 ^ 64) with 18446744073709551616; lia).
    destruct V1 as (_ & _ & _ & O1 & H1 & _).
    destruct (hdr_store e s1 q 0 0 (Z.of_nat (length l) + 1) _ (16 + c * sz) _ c O1 ltac:(lia) H1 A1 ltac:(lia) ltac:(lia))
      as (s2 & E2 & O2 & B1 & B2 & K2 & Hs2); [change (2 ^ 64) with 18446744073709551616; lia|].
    runs E2. exists s2. split; [reflexivity|]. split; [|split].
    - rewrite <- (f_equal Z.of_nat (eq_sym (app_length l [x]))) || idtac.
      unfold vrep. rewrite app_length. cbn [length].
      split; [lia|]. split; [lia|]. split; [change (2 ^ 62) with 4611686018427387904; lia|]. split; [exact O2|].
      split; [eapply arr_hdr_ext; [..|exact B1]; cbn; lia|].
      eexists. split; [exact B2|]. intros i Hi. unfold fupd.
      destruct (Z.eqb_spec i (Z.of_nat (length l))) as [->|Hne].
      + rewrite Nat2Z.id. rewrite app_nth2, Nat.sub_diag by lia. reflexivity.
      + rewrite app_nth1 by lia. apply R7. lia.
    - apply (kept_trans (Some q) (Some q) s s1 s2); auto. eapply inside_kept; eauto.
    - apply Hs2. eapply inside_heap_ok; eauto.
  Qed.

  Lemma pop_ok e s q l c : heap_ok s -> vrep s q l c -> l <> [] ->
    exists s', vector_pop_back (Some q) e s = Ret tt s'
      /\ vrep s' q (removelast l) c /\ others_kept (Some q) s s' /\ heap_ok s'.
  Proof.
    intros Hs V Hl. pose proof V as (R1 & R2 & R3 & R4 & R5 & g & R6 & R7).
    assert (Hc2 : c < 2 ^ 62) by nia. change (2 ^ 62) with 4611686018427387904 in Hc2, R3.
    destruct (exists_last Hl) as (l0 & x & ->). rewrite app_length in *. cbn [length] in *.
    rewrite removelast_last.
    unfold vector_pop_back. runs (size_ok e s q _ c V). unfold vector_set_size. cbn [nonnull].
    rewrite app_length. cbn [length].
    rewrite u64_id by (change (2 ^ 64) with 18446744073709551616; lia).
    destruct (hdr_store e s q 0 0 (Z.of_nat (length l0 + 1) - 1) _ (16 + c * sz) _ c R4 ltac:(lia) R5 R6 ltac:(lia) ltac:(lia))
      as (s2 & E2 & O2 & B1 & B2 & K2 & Hs2); [change (2 ^ 64) with 18446744073709551616; lia|].
    exists s2. split; [exact E2|]. split; [|auto].
    split; [lia|]. split; [lia|]. split; [change (2 ^ 62) with 4611686018427387904; lia|]. split; [exact O2|].
    split; [eapply arr_hdr_ext; [..|exact B1]; cbn; lia|].
    exists g. split; [exact B2|]. intros i Hi. rewrite R7 by lia. now rewrite app_nth1 by lia.
  Qed.

  Lemma remove_nth_length i l : (i < length l)%nat -> length (remove_nth i l) = (length l - 1)%nat.
  Proof.
    revert i. induction l as [|x l IH]; intros i Hi; [cbn in Hi; lia|]. destruct i as [|i]; [cbn; lia|].
    cbn [remove_nth length] in *. rewrite IH by lia. lia.
  Qed.
  Lemma remove_nth_out i l : (length l <= i)%nat -> remove_nth i l = l.
  Proof.
    revert i. induction l as [|x l IH]; intros i Hi; [now destruct i|]. destruct i as [|i]; [cbn in Hi; lia|].
    cbn [remove_nth length] in *. now rewrite IH by lia.
  Qed.
  Lemma nth_remove i l k : nth k (remove_nth i l) 0 = if (k <? i)%nat then nth k l 0 else nth (S k) l 0.
  Proof.
    revert i k. induction l as [|x l IH]; intros i k.
    - replace (remove_nth i []) with (@nil Z) by (destruct i; reflexivity).
      destruct (k <? i)%nat; destruct k; reflexivity.
    - destruct i as [|i]; [reflexivity|]. cbn [remove_nth]. destruct k as [|k]; [reflexivity|].
      cbn [nth]. rewrite IH. reflexivity.
  Qed.

  Lemma erase_ok e s q l c i : heap_ok s -> vrep s q l c -> 0 <= i ->
    exists s', vector_erase sz (Some q) i e s = Ret tt s'
      /\ vrep s' q (remove_nth (Z.to_nat i) l) c /\ others_kept (Some q) s s' /\ heap_ok s'.
  Proof.
    intros Hs V Hi. pose proof V as (R1 & R2 & R3 & R4 & R5 & g & R6 & R7).
    assert (Hc2 : c < 2 ^ 62) by nia. change (2 ^ 62) with 4611686018427387904 in Hc2, R3.
    unfold vector_erase. cbn [nonnull]. runs (size_ok e s q _ c V).
    destruct (Z.ltb_spec i (Z.of_nat (length l))) as [Hlt|Hge].
    2:{ exists s. split; [reflexivity|]. rewrite remove_nth_out by lia. split; [exact V|]. split; [apply kept_refl|auto]. }
    set (n := Z.of_nat (length l)) in *.
    rewrite u64_id by (change (2 ^ 64) with 18446744073709551616; lia).
    unfold vector_set_size. cbn [nonnull].
    destruct (hdr_store e s q 0 0 (n - 1) _ (16 + c * sz) _ c R4 ltac:(lia) R5 R6 ltac:(lia) ltac:(lia))
      as (s1 & E1 & O1 & B1 & B2 & K1 & Hs1); [change (2 ^ 64) with 18446744073709551616; lia|].
    runs E1. specialize (Hs1 Hs).
    destruct (for_inv e i (n - 1) (fun x => v <- vector_get sz (Some q) (x + 1) ;; vector_set sz (Some q) x v)
      (fun x s2 => exists g2, arr s2 q 16 sz c g2 /\ (forall k, 0 <= k < i -> g2 k = g k)
          /\ (forall k, i <= k < x -> g2 k = g (k + 1)) /\ (forall k, x <= k < c -> g2 k = g k)
          /\ inside s1 q 16 (16 + c * sz) s2) s1)
      as (s2 & E2 & g2 & A2 & G1 & G2 & G3 & I2).
    - lia.
    - exists g. split; [exact B2|]. split; [auto|]. split; [intros; lia|]. split; [auto|].
      destruct (own_isb _ _ _ O1) as (d & Hd). eapply inside_refl; eauto.
    - intros x s2 Hx (g2 & A2 & G1 & G2 & G3 & I2). unfold vector_get, vector_set.
      rewrite (bind_ret _ _ _ _ _ _ (arr_load e s2 q 16 sz c g2 (x + 1) (16 + (x + 1) * sz) (Z.to_nat sz) A2
                 ltac:(lia) ltac:(lia) ltac:(lia))).
      pose proof (arr_range _ _ _ _ _ _ (x + 1) A2 ltac:(lia)) as Rg.
      destruct (arr_store e s2 q 16 sz c g2 x (16 + x * sz) (Z.to_nat sz) (g2 (x + 1)) A2 ltac:(lia) ltac:(lia) ltac:(lia))
        as (s3 & E3 & A3 & I3).
      rewrite Z.mod_small in A3 by auto. exists s3. split; [exact E3|]. exists (fupd g2 x (g2 (x + 1))).
      split; [exact A3|]. unfold fupd. split; [|split; [|split]].
      + intros k Hk. destruct (Z.eqb_spec k x); [lia|]. auto.
      + intros k Hk. destruct (Z.eqb_spec k x) as [->|]; [apply G3; lia|]. apply G2. lia.
      + intros k Hk. destruct (Z.eqb_spec k x); [lia|]. apply G3. lia.
      + eapply inside_trans; [exact I2|]. refine (inside_weaken _ _ _ _ _ _ _ _ _ I3); nia.
    - exists s2. split; [exact E2|]. split; [|split].
      + unfold vrep. rewrite remove_nth_length by lia.
        split; [lia|]. split; [lia|]. split; [change (2 ^ 62) with 4611686018427387904; lia|].
        split; [eapply inside_own; eauto|]. split.
        { eapply arr_inside; [exact I2| |lia]. eapply arr_hdr_ext; [..|exact B1]; cbn; lia. }
        exists g2. split; [exact A2|]. intros k Hk. rewrite nth_remove.
        destruct (Nat.ltb_spec (Z.to_nat k) (Z.to_nat i)).
        * rewrite G1 by lia. apply R7. lia.
        * rewrite G2 by lia. rewrite R7 by lia. f_equal. lia.
      + apply (kept_trans (Some q) (Some q) s s1 s2); auto. eapply inside_kept; eauto.
      + eapply inside_heap_ok; eauto.
  Qed.

  (** ** The representation *)
  Lemma holds_rep s q l c : vholds sz s (Some q) (l, c) -> vrep s q l c.
  Proof.
    intros (H1 & (a & d & H2) & H3 & H3' & H4 & H5 & H6).
    assert (Hd : isb s q (16 + c * sz) d) by (eapply obj_isb; eauto).
    assert (P : 0 < c * sz) by nia.
    split; [exact H1|]. split; [exact H3|]. split; [exact H3'|]. split; [exists a, d; auto|]. split.
    - exists (16 + c * sz), d. split; [exact Hd|]. split; [lia|]. split; [lia|]. split; [lia|].
      rewrite (word_at_isb s q _ d 8 Hd) in H4 by lia. rewrite (word_at_isb s q _ d 8 Hd) in H5 by lia.
      injection H4 as H4. injection H5 as H5. change (Z.to_nat 8) with 8%nat.
      intros i Hi. assert (i = 0 \/ i = 1) as [->| ->] by lia; cbn [hdr2 Z.eqb]; [exact H4|exact H5].
    - eexists. split; [apply (arr_of s q (16 + c * sz) d 16 sz c Hd); lia|].
      intros i Hi. specialize (H6 (Z.to_nat i) (nth (Z.to_nat i) l 0)).
      rewrite (word_at_isb s q _ d _ Hd) in H6 by nia. rewrite Z2Nat.id in H6 by lia.
      assert (E : nth_error l (Z.to_nat i) = Some (nth (Z.to_nat i) l 0)) by (apply nth_error_nth'; lia).
      specialize (H6 E). now injection H6.
  Qed.

  Lemma rep_holds s q l c : vrep s q l c -> vholds sz s (Some q) (l, c).
  Proof.
    intros (R1 & R2 & R3 & R4 & R5 & g & R6 & R7). split; [exact R1|]. split; [exact R4|]. split; [exact R2|].
    split; [exact R3|].
    split; [|split].
    - exact (arr_word s q 0 8 2 _ 0 R5 ltac:(lia)).
    - exact (arr_word s q 0 8 2 _ 1 R5 ltac:(lia)).
    - intros i w E. assert (i < length l)%nat by (apply nth_error_Some; congruence).
      rewrite (arr_word s q 16 sz c g (Z.of_nat i) R6) by lia. rewrite R7 by lia. rewrite Nat2Z.id.
      f_equal. apply nth_error_nth with (d := 0) in E. exact E.
  Qed.

  (** The size a push may ask malloc for. *)
  Definition push_size (x : vstate) : Z :=
    16 + snd (vstep (Push 0) x) * sz.

  Lemma op_ok e s v x o : env_ok e -> heap_ok s -> vholds sz s v x -> vallowed sz o (fst x) ->
    (forall w, o = Push w -> push_size x < 2 ^ 62) ->
    exists v' r s', vector_op sz o v e s = Ret (v', r) s'
      /\ match r with Some z => [z] | None => [] end = vanswer o x
      /\ vholds sz s' v' (vstep o x) /\ done v s v' s'.
  Proof.
    intros He Hs Hv Ha Hp. destruct x as [l c]. cbn [fst] in Ha.
    destruct v as [q|].
    - pose proof (holds_rep _ _ _ _ Hv) as V. pose proof V as (R1 & R2 & R3 & R4 & R5 & g & R6 & R7).
      assert (Hc2 : c < 2 ^ 62) by nia.
      assert (F : forall s' l', vrep s' q l' c -> others_kept (Some q) s s' -> heap_ok s' ->
                vholds sz s' (Some q) (l', c) /\ done (Some q) s (Some q) s').
      { intros s' l' A B C. split; [apply rep_holds; auto|]. split; [auto|]. auto. }
      destruct o as [w| |i|i| |]; cbn [vector_op vstep vanswer vallowed] in *.
      + unfold vector_push_back. rewrite bind_assoc. runs (cap_ok e s q l c V). rewrite bind_assoc. runs (size_ok e s q l c V).
        destruct (Z.leb_spec c (Z.of_nat (length l))) as [Hfull|Hroom].
        * specialize (Hp w eq_refl). unfold push_size in Hp. cbn [vstep snd] in Hp.
          replace (Z.of_nat (length l) <? c) with false in * by lia. replace (c =? 0) with false in * by lia.
          rewrite u64_id by (change (2 ^ 62) with 4611686018427387904 in *; change (2 ^ 64) with 18446744073709551616; lia).
          destruct (grow_some e s q l c (c * 2) He Hs V ltac:(lia)) as (s1 & E1 & V1 & K1 & H1).
          { replace (c * 2) with (2 * c) by lia. exact Hp. }
          rewrite bind_assoc. runs E1. set (k := length (objs s)) in *.
          destruct (append_ok e s1 k l (c * 2) w H1 V1 ltac:(lia) Ha) as (s2 & E2 & V2 & K2 & H2).
          runs E2. exists (Some k), None, s2. split; [reflexivity|]. split; [reflexivity|].
          replace (2 * c) with (c * 2) by lia. split; [apply rep_holds; exact V2|].
          assert (Fr : fresh_in s (Some k)) by (exists k; split; auto).
          split; [eapply kept_trans; eauto|]. split; [exact H2|]. right. exact Fr.
        * replace (Z.of_nat (length l) <? c) with true by lia.
          destruct (append_ok e s q l c w Hs V ltac:(lia) Ha) as (s2 & E2 & V2 & K2 & H2).
          rewrite bind_assoc, bind_ret_l. runs E2. exists (Some q), None, s2. split; [reflexivity|]. split; [reflexivity|].
          apply F; auto.
      + destruct (pop_ok e s q l c Hs V Ha) as (s2 & E2 & V2 & K2 & H2).
        runs E2. exists (Some q), None, s2. split; [reflexivity|]. split; [reflexivity|]. apply F; auto.
      + destruct (erase_ok e s q l c i Hs V Ha) as (s2 & E2 & V2 & K2 & H2).
        runs E2. exists (Some q), None, s2. split; [reflexivity|]. split; [reflexivity|]. apply F; auto.
      + assert (E : vector_get sz (Some q) i e s = Ret (nth (Z.to_nat i) l 0) s).
        { unfold vector_get. rewrite (arr_load e s q 16 sz c g i (16 + i * sz) (Z.to_nat sz) R6) by lia.
          now rewrite R7. }
        runs E. exists (Some q), (Some (nth (Z.to_nat i) l 0)), s. split; [reflexivity|]. split; [reflexivity|].
        apply F; auto. apply kept_refl.
      + runs (size_ok e s q l c V). eexists (Some q), (Some _), s. split; [reflexivity|]. split; [reflexivity|].
        apply F; auto. apply kept_refl.
      + runs (cap_ok e s q l c V). eexists (Some q), (Some _), s. split; [reflexivity|]. split; [reflexivity|].
        apply F; auto. apply kept_refl.
    - destruct Hv as (H1 & -> & ->).
      assert (F : vholds sz s None ([], 0) /\ done None s None s).
      { split; [split; [cbn; lia|auto]|]. split; [apply kept_refl|auto]. }
      destruct o as [w| |i|i| |]; cbn [vector_op vstep vanswer vallowed] in *.
      + unfold vector_push_back. rewrite bind_assoc.
        change (vector_capacity None) with (@ret Z 0). rewrite bind_ret_l. rewrite bind_assoc.
        change (vector_size None) with (@ret Z 0). rewrite bind_ret_l.
        specialize (Hp w eq_refl). unfold push_size in Hp. cbn [vstep snd length] in Hp. cbn [length].
        change (Z.of_nat 0 <? 0) with false in *. change (0 =? 0) with true in *. change (0 <=? 0) with true.
        change (u64 (0 + 1)) with 1.
        destruct (grow_null e s 1 He Hs ltac:(lia) Hp) as (s1 & E1 & V1 & K1 & Hs1).
        rewrite bind_assoc. runs E1. set (k := length (objs s)) in *.
        destruct (append_ok e s1 k [] 1 w Hs1 V1 ltac:(cbn; lia) Ha) as (s2 & E2 & V2 & K2 & H2).
        runs E2. exists (Some k), None, s2. split; [reflexivity|]. split; [reflexivity|].
        split; [apply rep_holds; exact V2|].
        assert (Fr : fresh_in s (Some k)) by (exists k; split; auto).
        split; [eapply kept_trans; eauto|]. split; [exact H2|]. right. exact Fr.
      + congruence.
      + exists None, None, s. split; [reflexivity|]. split; [reflexivity|].
        replace (remove_nth (Z.to_nat i) []) with (@nil Z) by (destruct (Z.to_nat i); reflexivity). exact F.
      + cbn [length] in Ha. lia.
      + exists None, (Some 0), s. split; [reflexivity|]. split; [reflexivity|]. exact F.
      + exists None, (Some 0), s. split; [reflexivity|]. split; [reflexivity|]. exact F.
  Qed.

  (** A push that asks for too much aborts. *)
  Lemma push_exit e s v x w : vholds sz s v x -> 2 ^ 62 <= push_size x -> sz < 2 ^ 62 ->
    vector_op sz (Push w) v e s = Exit.
  Proof.
    intros Hv Hp Hz. destruct x as [l c]. cbn [vector_op]. apply bind_exit. unfold vector_push_back.
    unfold push_size in Hp. cbn [vstep snd] in Hp.
    destruct v as [q|].
    - pose proof (holds_rep _ _ _ _ Hv) as V. pose proof V as (R1 & R2 & R3 & R4 & _).
      runs (cap_ok e s q l c V). runs (size_ok e s q l c V).
      destruct (Z.leb_spec c (Z.of_nat (length l))) as [Hfull|Hroom].
      + replace (Z.of_nat (length l) <? c) with false in * by lia. replace (c =? 0) with false in * by lia.
        assert (c < 2 ^ 62) by nia. change (2 ^ 62) with 4611686018427387904 in *.
        rewrite u64_id by (change (2 ^ 64) with 18446744073709551616; lia).
        apply bind_exit. apply (grow_fail e s (Some q) (16 + c * sz)).
        * change (2 ^ 62) with 4611686018427387904. lia.
        * lia.
        * change (2 ^ 64) with 18446744073709551616. lia.
        * intros q' [= <-]. exact R4.
      + replace (Z.of_nat (length l) <? c) with true in * by lia. lia.
    - destruct Hv as (_ & -> & ->). cbn [length] in Hp. change (Z.of_nat 0 <? 0) with false in Hp. change (0 =? 0) with true in Hp.
      change (vector_capacity None) with (@ret Z 0). rewrite bind_ret_l.
      change (vector_size None) with (@ret Z 0). rewrite bind_ret_l. change (0 <=? 0) with true. change (0 =? 0) with true.
      change (u64 (0 + 1)) with 1. apply bind_exit. apply (grow_fail e s None 0).
      + exact Hp.
      + lia.
      + change (2 ^ 64) with 18446744073709551616. change (2 ^ 62) with 4611686018427387904 in *. lia.
      + discriminate.
  Qed.

  (** Sequences. *)
  Notation too_big := (asks_too_much sz).
  Lemma push_size_any w x : 16 + snd (vstep (Push w) x) * sz = push_size x.
  Proof. destruct x. reflexivity. Qed.

  Lemma ops_ok e : env_ok e -> sz < 2 ^ 62 -> forall os s v x, heap_ok s -> vholds sz s v x -> vallowed_all sz os x ->
    (exists v' s', vector_ops sz os v e s = Ret (v', vanswers os x) s'
       /\ vholds sz s' v' (vsteps os x) /\ done v s v' s')
    \/ (vector_ops sz os v e s = Exit /\ too_big os x).
  Proof.
    intros He Hz os. induction os as [|o os IH]; intros s v x Hs Hv Ha.
    - left. exists v, s. split; [reflexivity|]. split; [exact Hv|]. split; [apply kept_refl|auto].
    - cbn [vallowed_all vector_ops vanswers vsteps] in *. destruct Ha as [Ha Hr].
      assert (D : (forall w, o = Push w -> push_size x < 2 ^ 62) \/ exists w, o = Push w /\ 2 ^ 62 <= push_size x).
      { destruct o; try (left; discriminate). destruct (Z.lt_ge_cases (push_size x) (2 ^ 62)); [left; auto|right; eauto]. }
      destruct D as [D|(w & -> & D)].
      + destruct (op_ok e s v x o He Hs Hv Ha D) as (v1 & r & s1 & E1 & A1 & V1 & K1 & H1 & F1).
        runs E1. cbn [fst snd].
        destruct (IH s1 v1 (vstep o x) H1 V1 Hr) as [(v2 & s2 & E2 & V2 & K2 & H2 & F2)|[E2 T2]].
        * runs E2. cbn [fst snd]. left. exists v2, s2. split.
          { rewrite <- A1. destruct r; reflexivity. }
          split; [exact V2|]. split; [eapply kept_trans; eauto|]. split; [exact H2|].
          eapply fresh_trans; [apply K1|exact F1|exact F2].
        * right. split; [apply bind_exit; exact E2|]. destruct T2 as (pre & w & post & -> & T).
          exists (o :: pre), w, post. split; [reflexivity|exact T].
      + right. split; [apply bind_exit; apply push_exit with (x := x); auto|].
        exists [], w, os. split; [reflexivity|]. cbn [vsteps]. rewrite push_size_any. exact D.
  Qed.

  (** The block never holds more than the elements pushed so far need, doubled. *)
  Lemma cap_bound os x : snd (vsteps os x) <= Z.max (snd x) (2 * (Z.of_nat (length (fst x)) + Z.of_nat (length os))).
  Proof.
    assert (A : forall os x, Z.of_nat (length (fst (vsteps os x))) <= Z.of_nat (length (fst x)) + Z.of_nat (length os)
      /\ snd (vsteps os x) <= Z.max (snd x) (2 * (Z.of_nat (length (fst x)) + Z.of_nat (length os)))).
    { clear. induction os as [|o os IH]; intros [l c]; cbn [vsteps fst snd length]; [lia|].
      specialize (IH (vstep o (l, c))).
      assert (B : Z.of_nat (length (fst (vstep o (l, c)))) <= Z.of_nat (length l) + 1
        /\ snd (vstep o (l, c)) <= Z.max c (2 * (Z.of_nat (length l) + 1))).
      { destruct o; cbn [vstep fst snd]; try lia.
        - rewrite app_length. cbn [length]. destruct (Z.ltb_spec (Z.of_nat (length l)) c); [lia|].
          destruct (Z.eqb_spec c 0); lia.
        - destruct l as [|a l]; [cbn; lia|]. pose proof (app_removelast_last 0 (l := a :: l) ltac:(discriminate)) as E.
          apply (f_equal (@length Z)) in E. rewrite app_length in E. cbn [length] in *. lia.
        - destruct (Nat.lt_ge_cases (Z.to_nat i) (length l)).
          + rewrite remove_nth_length by auto. lia.
          + rewrite remove_nth_out by auto. lia. }
      lia. }
    apply A.
  Qed.

  Lemma ops_small e : env_ok e -> sz < 2 ^ 62 -> forall os s, heap_ok s -> vallowed_all sz os ([], 0) ->
    16 + 2 * Z.of_nat (length os) * sz < 2 ^ 62 ->
    exists v' s', vector_ops sz os None e s = Ret (v', vanswers os ([], 0)) s'
       /\ vholds sz s' v' (vsteps os ([], 0)) /\ done None s v' s'.
  Proof.
    intros He Hz os s Hs Ha Hb.
    destruct (ops_ok e He Hz os s None ([], 0) Hs) as [H|[_ (pre & w & post & -> & T)]]; auto.
    { split; [cbn; lia|auto]. }
    exfalso. rewrite app_length in Hb. cbn [length] in Hb.
    pose proof (cap_bound (pre ++ [Push w]) ([], 0)) as B. rewrite app_length in B. cbn [fst snd length] in B.
    assert (E : vsteps (pre ++ [Push w]) ([], 0) = vstep (Push w) (vsteps pre ([], 0))).
    { clear. generalize (@nil Z, 0). induction pre as [|o pre IH]; intros x; [reflexivity|]. cbn [app vsteps]. apply IH. }
    rewrite E in B. nia.
  Qed.

  (** ** Release; popping an empty vector *)
  Lemma free_ok e s v x : heap_ok s -> vholds sz s v x ->
    exists s', vector_free v e s = Ret None s' /\ others_kept v s s' /\ heap_ok s'
      /\ (forall q, v = Some q -> forall i, byte_at s' v i = None).
  Proof.
    intros Hs Hv. destruct x as [l c]. destruct v as [q|].
    - pose proof (holds_rep _ _ _ _ Hv) as (_ & _ & _ & (a & d & Hq) & _).
      unfold vector_free. cbn [nonnull].
      assert (E : free (Some q) e s = Ret tt (mkSt (map (kill_root q) (objs s)) (files s))).
      { unfold free. rewrite Hq. cbn [o_live o_root]. now rewrite Nat.eqb_refl. }
      runs E. eexists. split; [reflexivity|]. split; [|split].
      + split; [reflexivity|]. cbn [objs]. rewrite map_length. split; [lia|].
        intros k o Ho Hr. apply map_kill_nth; auto.
      + intros k o Ho. cbn [objs] in *. rewrite map_length. rewrite nth_error_map in Ho.
        destruct (nth_error (objs s) k) as [o'|] eqn:Ek; [|discriminate]. cbn in Ho. injection Ho as <-.
        pose proof (Hs _ _ Ek). unfold kill_root. destruct (Nat.eqb (o_root o') q); cbn; lia.
      + intros q' [= <-] i. unfold byte_at, bytes_at. cbn [objs]. rewrite nth_error_map, Hq. cbn.
        unfold kill_root. cbn [o_root]. now rewrite Nat.eqb_refl.
    - exists s. split; [reflexivity|]. split; [apply kept_refl|]. split; [auto|]. discriminate.
  Qed.

  Lemma pop_empty e s q c : vholds sz s (Some q) ([], c) ->
    exists s', vector_pop_back (Some q) e s = Ret tt s' /\ vector_size (Some q) e s' = Ret 18446744073709551615 s'.
  Proof.
    intros Hv. pose proof (holds_rep _ _ _ _ Hv) as V. pose proof V as (R1 & R2 & R3 & R4 & R5 & g & R6 & R7).
    unfold vector_pop_back. runs (size_ok e s q _ c V). unfold vector_set_size. cbn [nonnull length].
    change (u64 (Z.of_nat 0 - 1)) with 18446744073709551615.
    destruct (hdr_store e s q 0 0 18446744073709551615 _ (16 + c * sz) _ c R4 ltac:(lia) R5 R6 ltac:(lia) ltac:(lia))
      as (s2 & E2 & O2 & B1 & B2 & K2 & Hs2); [change (2 ^ 64) with 18446744073709551616; lia|].
    exists s2. split; [exact E2|]. unfold vector_size. cbn [nonnull].
    exact (arr_load e s2 q 0 8 2 _ 0 0 8 B1 ltac:(lia) ltac:(lia) ltac:(lia)).
  Qed.
End Vector.
