(** * Proofs about the core module (creation, copying, deletion). *)
From Verif Require Import Base Logic ModelCore SpecBase.
From Coq Require Import String ZifyBool ZifyNat.
Ltac Zify.zify_post_hook ::= Z.div_mod_to_equations.
Open Scope Z_scope.

(** ** Small facts *)

Lemma type_size_elemsize ty es : type_size ty = Some es -> get_elemsize ty = es.
Proof.
  unfold type_size.
  destruct (Z.eqb_spec ty 1) as [->|?]; [intros [= <-]; reflexivity|].
  destruct ((ty =? 2) || (ty =? 12)) eqn:E2.
  { intros [= <-]. assert (ty = 2 \/ ty = 12) as [-> | ->] by lia; reflexivity. }
  destruct ((ty =? 3) || (ty =? 4) || (ty =? 13)) eqn:E3.
  { intros [= <-]. assert (ty = 3 \/ ty = 4 \/ ty = 13) as [-> | [-> | ->]] by lia; reflexivity. }
  destruct ((ty =? 5) || (ty =? 14) || (ty =? 15)) eqn:E4; [|discriminate].
  intros [= <-]. assert (ty = 5 \/ ty = 14 \/ ty = 15) as [-> | [-> | ->]] by lia; reflexivity.
Qed.

Lemma elemsize_none ty : type_size ty = None -> get_elemsize ty = -1.
Proof.
  unfold type_size. intros H.
  destruct (Z.eqb_spec ty 1); [discriminate|].
  destruct ((ty =? 2) || (ty =? 12)) eqn:E2; [discriminate|].
  destruct ((ty =? 3) || (ty =? 4) || (ty =? 13)) eqn:E3; [discriminate|].
  destruct ((ty =? 5) || (ty =? 14) || (ty =? 15)) eqn:E4; [discriminate|].
  destruct ty as [|p|p]; [reflexivity| |reflexivity].
  do 5 (destruct p as [p|p|]; try reflexivity; try lia).
Qed.

Lemma type_size_range ty es : type_size ty = Some es -> es = 1 \/ es = 2 \/ es = 4 \/ es = 8.
Proof.
  unfold type_size. repeat destruct (_ : bool); intros [= <-]; auto.
Qed.

Lemma align64_spec a : a <= align64 a <= a + 63 /\ align64 a mod 64 = 0.
Proof. unfold align64. lia. Qed.

Lemma forallb_number {A} (P : nat * A -> bool) l i :
  (forall j x, nth_error l j = Some x -> P ((i + j)%nat, x) = true) ->
  forallb P (number i l) = true.
Proof.
  revert i. induction l as [|y l IH]; intros i H; [reflexivity|].
  cbn. rewrite andb_true_iff. split.
  - rewrite <- (H O y eq_refl). f_equal. f_equal. lia.
  - apply IH. intros j x Hj. rewrite <- (H (S j) x Hj). f_equal. f_equal. lia.
Qed.

Lemma nth_error_app_new {A} (l r : list A) j :
  nth_error (l ++ r) (List.length l + j) = nth_error r j.
Proof. rewrite nth_error_app2 by lia. f_equal. lia. Qed.

Lemma nth_error_app_new0 {A} (l r : list A) :
  nth_error (l ++ r) (List.length l) = nth_error r 0.
Proof. rewrite nth_error_app2 by lia. f_equal. lia. Qed.

Lemma lupd_app_new {A} (l r : list A) f j :
  lupd (List.length l + j) f (l ++ r) = l ++ lupd j f r.
Proof. rewrite lupd_app_r by lia. do 2 f_equal. lia. Qed.

Lemma lupd_app_new0 {A} (l r : list A) f :
  lupd (List.length l) f (l ++ r) = l ++ lupd 0 f r.
Proof. rewrite lupd_app_r by lia. do 2 f_equal. lia. Qed.

Lemma le_bytes_zero n v : 0 <= v < 256 ^ Z.of_nat n -> In 0 (le_bytes (S n) v).
Proof.
  revert v. induction n as [|n IH]; intros v H.
  - cbn. left. cbn in H. replace v with 0 by lia. reflexivity.
  - cbn [le_bytes]. right. apply IH.
    replace (Z.of_nat (S n)) with (Z.of_nat n + 1) in H by lia.
    rewrite Z.pow_add_r in H by lia. change (256 ^ 1) with 256 in H.
    split; [apply Z.div_pos; lia|]. apply Z.div_lt_upper_bound; lia.
Qed.

Lemma pad_bytes_zero junk a : 0 <= a < 2 ^ 56 -> In 0 (pad_bytes junk a).
Proof.
  intros. unfold pad_bytes. apply in_or_app. right.
  apply (le_bytes_zero 7). change (256 ^ Z.of_nat 7) with (2 ^ 56). auto.
Qed.

Lemma heap_ok_app s k new fs :
  heap_ok s -> k = List.length (objs s) ->
  Forall (fun o => o_root o < k + List.length new)%nat new ->
  heap_ok (mkSt (objs s ++ new) fs).
Proof.
  intros H -> Hn i o Hi. cbn in *. rewrite app_length.
  destruct (Nat.lt_ge_cases i (List.length (objs s))).
  - rewrite nth_error_app1 in Hi by auto. specialize (H _ _ Hi). lia.
  - rewrite nth_error_app2 in Hi by auto. apply nth_error_In in Hi.
    rewrite Forall_forall in Hn. apply Hn in Hi. lia.
Qed.

Lemma heap_ok_putd s q d : heap_ok s -> heap_ok (putd s q d).
Proof.
  intros H i o Hi. unfold putd in *; cbn in *. rewrite lupd_length.
  destruct (Nat.eq_dec q i) as [->|].
  - rewrite lupd_nth_eq in Hi. destruct (nth_error (objs s) i) eqn:E; try discriminate.
    cbn in Hi. injection Hi as <-. cbn. eauto.
  - rewrite lupd_nth_ne in Hi; eauto.
Qed.

Lemma heap_ok_putc s q c : heap_ok s -> heap_ok (putc s q c).
Proof.
  intros H i o Hi. unfold putc in *; cbn in *. rewrite lupd_length.
  destruct (Nat.eq_dec q i) as [->|].
  - rewrite lupd_nth_eq in Hi. destruct (nth_error (objs s) i) eqn:E; try discriminate.
    cbn in Hi. injection Hi as <-. cbn. eauto.
  - rewrite lupd_nth_ne in Hi; eauto.
Qed.

Lemma isb_app_old s q n d new fs : isb s q n d -> isb (mkSt (objs s ++ new) fs) q n d.
Proof.
  intros H. apply isb_obj in H as (a & r & H). eapply obj_isb. cbn.
  rewrite nth_error_app1; eauto. eapply nth_error_lt; eauto.
Qed.

Lemma isb_lt s q n d : isb s q n d -> (q < List.length (objs s))%nat.
Proof. intros H. apply isb_obj in H as (a & r & H). eapply nth_error_lt; eauto. Qed.

Lemma readable_isb s p n : readable s p n -> exists q sz d, p = Some q /\ isb s q sz d /\ n <= sz.
Proof.
  intros (q & sz & d & -> & H & Hn). exists q, sz, d. auto.
Qed.

Lemma isb_readable s q sz d n : isb s q sz d -> n <= sz -> readable s (Some q) n.
Proof. intros. exists q, sz, d. auto. Qed.

Lemma byte_at_isb s q sz d i : isb s q sz d -> 0 <= i < sz -> byte_at s (Some q) i = Some (d i mod 256).
Proof. intros H Hi. unfold byte_at. rewrite H. now rewrite inb_true. Qed.

Lemma assert_true e s : assert true e s = Ret tt s.
Proof. reflexivity. Qed.

Ltac runs H := rewrite (bind_ret _ _ _ _ _ _ H).
Ltac runs_ev := rewrite (bind_ret _ _ _ _ _ _ (ev_ok _ _ _ _ ltac:(cev; reflexivity))).

(** The contents [memset]/[memcpy] leave when they fill from offset 0. *)

(** Optional initial contents: what C's "if (p != NULL) memcpy" leaves. *)
Definition init_byte (s : st) (p : ptr) (i : Z) : Z :=
  match p with
  | None => 0
  | Some _ => match byte_at s p i with Some v => v | None => 0 end
  end.

(** ** create_hyper_mat_with_data *)

Section CreateHM.
  Variables (e : env) (s : st) (S L B ty es : Z) (a b c : Z) (r : list Z) (data wave : ptr).
  Hypothesis He : env_ok e.
  Hypothesis Hs : heap_ok s.
  Hypothesis Hty : type_size ty = Some es.
  Hypothesis HS : 0 < S.
  Hypothesis HL : 0 < L.
  Hypothesis HB : 0 < B.
  Hypothesis Hsz : S * L * B * es <= 2147483647.
  Hypothesis Hw : B * 4 + 64 <= 2147483647.
  Hypothesis Hdata : data = None \/ readable s data (S * L * B * es).
  Hypothesis Hwave : wave = None \/ readable s wave (B * 4).

  Let k := List.length (objs s).
  Let D := S * L * B * es.
  Let base := e_addr e k.
  Let a1 := align64 (base + 40).
  Let a2 := align64 (a1 + D).

  Lemma create_hm_run : exists dd dw,
    create_hyper_mat_with_data S L B ty (a :: b :: c :: r) data wave e s =
    Ret (Some k)
      (mkSt (objs s ++
         [ mkObj base (40 + (D + 64) + (B * 4 + 64)) k true
             (CHM (mkHM S L B ty [a; b; c] (pad_bytes (e_junk e k) a1)
                        (Some (k + 1)%nat) (Some (k + 2)%nat)));
           mkObj a1 D k true (CBytes dd);
           mkObj a2 (B * 4) k true (CBytes dw) ]) (files s))
    /\ (forall i, 0 <= i < D -> dd i mod 256 = init_byte s data i)
    /\ (forall i, 0 <= i < B * 4 -> dw i mod 256 = init_byte s wave i).
  Proof.
    assert (He1 := type_size_range _ _ Hty).
    assert (Hes := type_size_elemsize _ _ Hty).
    assert (Hb : 0 < base < 2 ^ 46) by apply He.
    assert (HSL : 0 < S * L) by nia.
    assert (HSLB : 0 < S * L * B) by nia.
    assert (HD : 0 < D) by (subst D; nia).
    assert (HSL' : S * L <= 2147483647) by nia.
    assert (HSLB' : S * L * B <= 2147483647) by nia.
    assert (A1 := align64_spec (base + 40)). fold a1 in A1.
    assert (A2 := align64_spec (a1 + D)). fold a2 in A2.
    assert (Hwv : sgn 32 (B * 4) = B * 4).
    { unfold sgn. change (2 ^ 32) with 4294967296. change (2 ^ (32 - 1)) with 2147483648.
      rewrite Z.mod_small by lia. replace (B * 4 <? 2147483648) with true by lia. reflexivity. }
    unfold create_hyper_mat_with_data.
    do 3 rewrite bind_assert by lia.
    rewrite Hes, Hwv.
    assert (E1 : (S * L * B * es)%C = Some D).
    { unfold ci. rewrite cmul_ok by lia. rewrite cmul_ok by lia. rewrite cmul_ok by (fold D; lia). reflexivity. }
    runs (ev_ok _ _ e s E1).
    runs (ev_ok _ _ e s (cadd_ok (B * 4) 64 ltac:(lia))).
    unfold SIZEOF_HM.
    set (mem := 40 + (D + 64) + (B * 4 + 64)).
    assert (Hmal : malloc mem e s =
      Ret (Some k) (mkSt (objs s ++ [mkObj base mem k true (CBytes (e_junk e k))]) (files s))).
    { unfold malloc. replace ((0 <=? mem) && (mem <? 2 ^ 62)) with true. reflexivity.
      change (2 ^ 62) with 4611686018427387904. assert (D <= 2147483647) by exact Hsz. subst mem. lia. }
    runs Hmal. cbn [nonnull]. rewrite bind_assert by reflexivity.
    set (s1 := mkSt (objs s ++ [mkObj base mem k true (CBytes (e_junk e k))]) (files s)).
    assert (Hb1 : addr_of (Some k) e s1 = Ret base s1).
    { unfold addr_of, s1; cbn. rewrite (nth_error_app_new0 (objs s)). reflexivity. }
    runs Hb1. fold a1.
    assert (Hc1 : carve (Some k) 40 a1 D e s1 =
      Ret (Some (k + 1)%nat)
          (mkSt (objs s ++ [mkObj base mem k true (CBytes (e_junk e k));
                            mkObj a1 D k true (CBytes (e_junk e (k + 1)))]) (files s))).
    { unfold carve, s1; cbn [objs files]. rewrite (nth_error_app_new0 (objs s)). cbn [nth_error o_live o_addr o_size].
      match goal with |- context [forallb ?P ?l] => replace (forallb P l) with true end.
      2:{ symmetry. apply forallb_number. intros j o Hj. cbn [Nat.add]. unfold disjoint_part.
          destruct (Nat.lt_ge_cases j k) as [Hlt|Hge].
          - rewrite nth_error_app1 in Hj by auto. apply Hs in Hj. fold k in Hj. 
            replace (Nat.eqb (o_root o) k) with false by lia. reflexivity.
          - rewrite nth_error_app2 in Hj by auto. fold k in Hj.
            destruct (j - k)%nat eqn:Ejk; cbn in Hj; [|destruct n; discriminate].
            replace (Nat.eqb j k) with true by lia. now rewrite orb_true_r. }
      replace (true && (0 <=? D) && (base + 40 <=? a1) && (a1 + D <=? base + mem) && true)
        with true by (subst mem; lia).
      rewrite app_length. cbn [List.length]. fold k. rewrite <- app_assoc. reflexivity. }
    runs Hc1.
    set (s2 := mkSt (objs s ++ _) (files s)).
    assert (Hi2 : isb s2 (k + 1) D (e_junk e (k + 1))).
    { eapply obj_isb. unfold s2; cbn [objs]. rewrite (nth_error_app_new (objs s)). reflexivity. }
    runs (memset_ok e _ _ _ _ 0 0 D Hi2 ltac:(lia) ltac:(lia) ltac:(lia)).
    fold a2.
    set (z1 := fun i : Z => if (0 <=? i) && (i <? 0 + D) then 0 mod 256 else e_junk e (k + 1) i).
    assert (Es2 : putd s2 (k + 1) z1 =
       mkSt (objs s ++ [mkObj base mem k true (CBytes (e_junk e k));
                            mkObj a1 D k true (CBytes z1)]) (files s)).
    { unfold putd, s2; cbn [objs files]. rewrite (lupd_app_new (objs s)). reflexivity. }
    rewrite Es2. clear Es2 s2 Hc1 Hi2.
    set (s2 := mkSt (objs s ++ _) (files s)).
    assert (Hc2 : carve (Some k) 40 a2 (B * 4) e s2 =
      Ret (Some (k + 2)%nat)
          (mkSt (objs s ++ [mkObj base mem k true (CBytes (e_junk e k));
                            mkObj a1 D k true (CBytes z1);
                            mkObj a2 (B * 4) k true (CBytes (e_junk e (k + 2)))]) (files s))).
    { unfold carve, s2; cbn [objs files]. rewrite (nth_error_app_new0 (objs s)). cbn [nth_error o_live o_addr o_size].
      match goal with |- context [forallb ?P ?l] => replace (forallb P l) with true end.
      2:{ symmetry. apply forallb_number. intros j o Hj. cbn [Nat.add]. unfold disjoint_part.
          destruct (Nat.lt_ge_cases j k) as [Hlt|Hge].
          - rewrite nth_error_app1 in Hj by auto. apply Hs in Hj. fold k in Hj.
            replace (Nat.eqb (o_root o) k) with false by lia. reflexivity.
          - rewrite nth_error_app2 in Hj by auto. fold k in Hj.
            destruct (j - k)%nat as [|n] eqn:Ejk; cbn in Hj.
            { replace (Nat.eqb j k) with true by lia. now rewrite orb_true_r. }
            destruct n as [|n]; cbn in Hj; [|destruct n; discriminate].
            injection Hj as <-. cbn. replace (a1 + D <=? a2) with true by lia.
            now rewrite orb_true_r. }
      replace (true && (0 <=? B * 4) && (base + 40 <=? a2) && (a2 + B * 4 <=? base + mem) && true)
        with true by (subst mem; lia).
      rewrite app_length. cbn [List.length]. fold k. rewrite <- app_assoc. reflexivity. }
    runs Hc2. clear Hc2 s2.
    set (s3 := mkSt (objs s ++ _) (files s)).
    assert (Hi3 : isb s3 (k + 2) (B * 4) (e_junk e (k + 2))).
    { eapply obj_isb. unfold s3; cbn [objs]. rewrite (nth_error_app_new (objs s)). reflexivity. }
    runs (memset_ok e _ _ _ _ 0 0 (B * 4) Hi3 ltac:(lia) ltac:(lia) ltac:(lia)).
    set (z2 := fun i : Z => if (0 <=? i) && (i <? 0 + B * 4) then 0 mod 256 else e_junk e (k + 2) i).
    assert (Es3 : putd s3 (k + 2) z2 =
       mkSt (objs s ++ [mkObj base mem k true (CBytes (e_junk e k));
                        mkObj a1 D k true (CBytes z1);
                        mkObj a2 (B * 4) k true (CBytes z2)]) (files s)).
    { unfold putd, s3; cbn [objs files]. rewrite (lupd_app_new (objs s)). reflexivity. }
    rewrite Es3. clear Es3 s3 Hi3.
    (* initial data *)
    assert (Hd : exists dd,
      (if nonnull data then memcpy (Some (k + 1)%nat) 0 data 0 D else ret tt) e
        (mkSt (objs s ++ [mkObj base mem k true (CBytes (e_junk e k));
                        mkObj a1 D k true (CBytes z1);
                        mkObj a2 (B * 4) k true (CBytes z2)]) (files s)) =
      Ret tt (mkSt (objs s ++ [mkObj base mem k true (CBytes (e_junk e k));
                        mkObj a1 D k true (CBytes dd);
                        mkObj a2 (B * 4) k true (CBytes z2)]) (files s))
      /\ (forall i, 0 <= i < D -> dd i mod 256 = init_byte s data i)).
    { destruct Hdata as [-> | Hr].
      - exists z1. split; [reflexivity|]. intros i Hi. cbn. unfold z1.
        replace ((0 <=? i) && (i <? 0 + D)) with true by lia. reflexivity.
      - apply readable_isb in Hr as (q & sz & d & -> & Hq & Hn). cbn [nonnull]. eexists. split.
        { erewrite memcpy_ok with (dsz := D) (d := z1) (ssz := sz) (f := d); try lia.
          - unfold putd; cbn [objs files]. rewrite (lupd_app_new (objs s)). cbn. reflexivity.
          - eapply obj_isb. cbn [objs]. rewrite (nth_error_app_new (objs s)). reflexivity.
          - apply isb_app_old; auto.
          - apply isb_lt in Hq. fold k in Hq. lia. }
        intros i Hi. cbn. replace ((0 <=? i) && (i <? D)) with true by lia.
        rewrite (byte_at_isb _ _ _ _ i Hq) by lia. f_equal. f_equal. lia. }
    destruct Hd as (dd & Ed & Hdd). runs Ed. clear Ed.
    assert (Hv : exists dw,
      (if nonnull wave then memcpy (Some (k + 2)%nat) 0 wave 0 (B * 4) else ret tt) e
        (mkSt (objs s ++ [mkObj base mem k true (CBytes (e_junk e k));
                        mkObj a1 D k true (CBytes dd);
                        mkObj a2 (B * 4) k true (CBytes z2)]) (files s)) =
      Ret tt (mkSt (objs s ++ [mkObj base mem k true (CBytes (e_junk e k));
                        mkObj a1 D k true (CBytes dd);
                        mkObj a2 (B * 4) k true (CBytes dw)]) (files s))
      /\ (forall i, 0 <= i < B * 4 -> dw i mod 256 = init_byte s wave i)).
    { destruct Hwave as [-> | Hr].
      - exists z2. split; [reflexivity|]. intros i Hi. cbn. unfold z2.
        replace ((0 <=? i) && (i <? 0 + B * 4)) with true by lia. reflexivity.
      - apply readable_isb in Hr as (q & sz & d & -> & Hq & Hn). cbn [nonnull]. eexists. split.
        { erewrite memcpy_ok with (dsz := B * 4) (d := z2) (ssz := sz) (f := d); try lia.
          - unfold putd; cbn [objs files]. rewrite (lupd_app_new (objs s)). cbn. reflexivity.
          - eapply obj_isb. cbn [objs]. rewrite (nth_error_app_new (objs s)). reflexivity.
          - apply isb_app_old; auto.
          - apply isb_lt in Hq. fold k in Hq. lia. }
        intros i Hi. cbn. replace ((0 <=? i) && (i <? B * 4)) with true by lia.
        rewrite (byte_at_isb _ _ _ _ i Hq) by lia. f_equal. f_equal. lia. }
    destruct Hv as (dw & Ew & Hdw). runs Ew. clear Ew.
    exists dd, dw. split; [|split; auto].
    cbn [tag3]. runs (eq_refl (Ret [a; b; c] (mkSt (objs s ++ [mkObj base mem k true (CBytes (e_junk e k));
                        mkObj a1 D k true (CBytes dd);
                        mkObj a2 (B * 4) k true (CBytes dw)]) (files s)))).
    cbn [junk_of]. unfold bind at 1. unfold junk_of.
    unfold bind, set_header. cbn [objs]. rewrite (nth_error_app_new0 (objs s)). cbn [nth_error o_live].
    unfold ret. f_equal. unfold putc. cbn [objs files]. f_equal. rewrite (lupd_app_new0 (objs s)). reflexivity.
  Qed.
End CreateHM.
