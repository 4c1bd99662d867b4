(** * Derived facts: tag comparison, the state after creating a cube. *)
From Verif Require Import Base Logic ModelCore SpecBase ProofCore.
From Coq Require Import String ZifyBool ZifyNat.
Ltac Zify.zify_post_hook ::= Z.div_mod_to_equations.
Open Scope Z_scope.

(** ** cmpstr on interleave tags *)

Lemma cstrlen_in l : In 0 l -> exists n, cstrlen l = Some n /\ 0 <= n.
Proof.
  induction l as [|x l IH]; intros H; [destruct H|]. cbn [cstrlen].
  destruct (Z.eqb_spec x 0) as [->|Hx]; [exists 0; split; auto; lia|].
  destruct H as [H|H]; [congruence|]. destruct (IH H) as (n & -> & Hn).
  exists (n + 1). split; auto. lia.
Qed.

Lemma cmpstr3 a b c r x y z e s : In 0 r ->
  a <> 0 -> b <> 0 -> c <> 0 -> x <> 0 -> y <> 0 -> z <> 0 ->
  cmpstr ([a; b; c] ++ r) [x; y; z; 0] e s =
  Ret (if (a =? x) && (b =? y) && (c =? z) then 1 else 0) s.
Proof.
  intros Hr Ha Hb Hc Hx Hy Hz. destruct (cstrlen_in _ Hr) as (n & Hn & Hn0).
  unfold cmpstr. cbn [app cstrlen].
  replace (a =? 0) with false by lia. replace (b =? 0) with false by lia.
  replace (c =? 0) with false by lia. rewrite Hn.
  replace (x =? 0) with false by lia. replace (y =? 0) with false by lia.
  replace (z =? 0) with false by lia. cbn [Z.eqb].
  replace (n + 1 + 1 + 1 <=? 0 + 1 + 1 + 1) with (n =? 0) by lia.
  assert (E : (if n =? 0 then n + 1 + 1 + 1 else 0 + 1 + 1 + 1) = 3).
  { destruct (Z.eqb_spec n 0); lia. }
  rewrite E. change (3 =? 0) with false. rewrite andb_false_r.
  change (Z.to_nat 3) with 3%nat. cbn [cmp_upto].
  destruct (a =? x); cbn; auto. destruct (b =? y); cbn; auto. destruct (c =? z); auto.
Qed.

Lemma il_cmp_bsq m l e s : hm_il m = tag_of l -> In 0 (hm_pad m) ->
  il_cmp m "bsq" e s = Ret (match l with BSQ => 1 | _ => 0 end) s.
Proof.
  intros Ht Hp. unfold il_cmp. rewrite Ht.
  change (str "bsq") with [98; 115; 113; 0].
  destruct l; cbn [tag_of]; rewrite cmpstr3 by (auto; lia); reflexivity.
Qed.
Lemma il_cmp_bil m l e s : hm_il m = tag_of l -> In 0 (hm_pad m) ->
  il_cmp m "bil" e s = Ret (match l with BIL => 1 | _ => 0 end) s.
Proof.
  intros Ht Hp. unfold il_cmp. rewrite Ht.
  change (str "bil") with [98; 105; 108; 0].
  destruct l; cbn [tag_of]; rewrite cmpstr3 by (auto; lia); reflexivity.
Qed.
Lemma il_cmp_bip m l e s : hm_il m = tag_of l -> In 0 (hm_pad m) ->
  il_cmp m "bip" e s = Ret (match l with BIP => 1 | _ => 0 end) s.
Proof.
  intros Ht Hp. unfold il_cmp. rewrite Ht.
  change (str "bip") with [98; 105; 112; 0].
  destruct l; cbn [tag_of]; rewrite cmpstr3 by (auto; lia); reflexivity.
Qed.

Lemma hget_ok p m e s : hm_at s p = Some m -> hget p e s = Ret m s.
Proof. unfold hget. now intros ->. Qed.
Lemma sget_ok p m e s : sm_at s p = Some m -> sget p e s = Ret m s.
Proof. unfold sget. now intros ->. Qed.
Lemma s2get_ok p m e s : s2_at s p = Some m -> s2get p e s = Ret m s.
Proof. unfold s2get. now intros ->. Qed.

Lemma hm_nonnull s p m : hm_at s p = Some m -> exists k, p = Some k.
Proof. destruct p; eauto; discriminate. Qed.
Lemma sm_nonnull s p m : sm_at s p = Some m -> exists k, p = Some k.
Proof. destruct p; eauto; discriminate. Qed.

(** ** The state after creating a cube *)

Definition newhm (e : env) (s : st) (S L B ty es : Z) (tag : list Z) (dd dw : Z -> Z) : st :=
  let k := List.length (objs s) in
  let D := S * L * B * es in
  let a1 := align64 (e_addr e k + 40) in
  let a2 := align64 (a1 + D) in
  mkSt (objs s ++
         [ mkObj (e_addr e k) (40 + (D + 64) + (B * 4 + 64)) k true
             (CHM (mkHM S L B ty tag (pad_bytes (e_junk e k) a1)
                        (Some (k + 1)%nat) (Some (k + 2)%nat)));
           mkObj a1 D k true (CBytes dd);
           mkObj a2 (B * 4) k true (CBytes dw) ]) (files s).

Definition newhdr (e : env) (s : st) (S L B ty : Z) (tag : list Z) : hmat :=
  let k := List.length (objs s) in
  mkHM S L B ty tag (pad_bytes (e_junk e k) (align64 (e_addr e k + 40)))
       (Some (k + 1)%nat) (Some (k + 2)%nat).

Section NewHM.
  Variables (e : env) (s : st) (S L B ty es : Z) (tag : list Z) (dd dw : Z -> Z).
  Let k := List.length (objs s).
  Let s' := newhm e s S L B ty es tag dd dw.

  Lemma newhm_hdr : hm_at s' (Some k) = Some (newhdr e s S L B ty tag).
  Proof. unfold s', newhm, hm_at; cbn [objs]. rewrite (nth_error_app_new0 (objs s)). reflexivity. Qed.
  Lemma newhm_data : isb s' (k + 1) (S * L * B * es) dd.
  Proof. eapply obj_isb. unfold s', newhm; cbn [objs]. rewrite (nth_error_app_new (objs s)). reflexivity. Qed.
  Lemma newhm_wave : isb s' (k + 2) (B * 4) dw.
  Proof. eapply obj_isb. unfold s', newhm; cbn [objs]. rewrite (nth_error_app_new (objs s)). reflexivity. Qed.
  Lemma newhm_old q n d : isb s q n d -> isb s' q n d.
  Proof. apply isb_app_old. Qed.
  Lemma newhm_old_nth i : (i < k)%nat -> nth_error (objs s') i = nth_error (objs s) i.
  Proof. intros. unfold s', newhm; cbn [objs]. now rewrite nth_error_app1. Qed.
  Lemma newhm_old_unchanged : old_unchanged s s'.
  Proof. intros i Hi. apply newhm_old_nth; auto. Qed.
  Lemma newhm_putd1 d : putd s' (k + 1) d = newhm e s S L B ty es tag d dw.
  Proof. unfold putd, s', newhm; cbn [objs files]. rewrite (lupd_app_new (objs s)). reflexivity. Qed.
  Lemma newhm_putd2 d : putd s' (k + 2) d = newhm e s S L B ty es tag dd d.
  Proof. unfold putd, s', newhm; cbn [objs files]. rewrite (lupd_app_new (objs s)). reflexivity. Qed.
  Lemma newhm_heap_ok : heap_ok s -> heap_ok s'.
  Proof.
    intros H. unfold s', newhm. eapply heap_ok_app; eauto. fold k.
    repeat constructor; cbn; lia.
  Qed.
  Lemma newhm_pad : env_ok e -> In 0 (hm_pad (newhdr e s S L B ty tag)).
  Proof.
    intros He. cbn. apply pad_bytes_zero. destruct (He (List.length (objs s))) as [H _].
    pose proof (align64_spec (e_addr e (List.length (objs s)) + 40)).
    change (2 ^ 46) with 70368744177664 in H. change (2 ^ 56) with 72057594037927936. lia.
  Qed.
End NewHM.

Lemma isb_old_ne s q n d j : isb s q n d -> q <> (List.length (objs s) + j)%nat.
Proof. intros H. apply isb_lt in H. lia. Qed.

(** create_hyper_mat: zero data, zero wavelengths. *)
Lemma create_hm0 e s S L B ty es a b c r : env_ok e -> heap_ok s -> type_size ty = Some es ->
  0 < S -> 0 < L -> 0 < B -> S * L * B * es <= 2147483647 -> B * 4 + 64 <= 2147483647 ->
  exists dd dw,
  create_hyper_mat S L B ty (a :: b :: c :: r) e s =
     Ret (Some (List.length (objs s))) (newhm e s S L B ty es [a; b; c] dd dw)
  /\ (forall i, 0 <= i < S * L * B * es -> dd i mod 256 = 0)
  /\ (forall i, 0 <= i < B * 4 -> dw i mod 256 = 0).
Proof.
  intros. destruct (create_hm_run e s S L B ty es a b c r None None) as (dd & dw & E & A1 & A2); auto.
  exists dd, dw. auto.
Qed.
