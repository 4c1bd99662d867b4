(** * Logic: reasoning rules for the execution model of [Base].  Proof
    machinery only; no modelled code and no property here. *)
From Verif Require Import Base.
From Coq Require Import ZifyBool ZifyNat.
Ltac Zify.zify_post_hook ::= Z.div_mod_to_equations.

(** ** Lists *)

Lemma lupd_length {A} n (f : A -> A) l : length (lupd n f l) = length l.
Proof. revert n; induction l; intros [|n]; cbn; auto. Qed.

Lemma lupd_nth_eq {A} n (f : A -> A) l :
  nth_error (lupd n f l) n = option_map f (nth_error l n).
Proof. revert n; induction l; intros [|n]; cbn; auto. Qed.

Lemma lupd_nth_ne {A} n m (f : A -> A) l : n <> m ->
  nth_error (lupd n f l) m = nth_error l m.
Proof.
  revert n m; induction l; intros [|n] [|m] H; cbn; auto; try congruence.
Qed.

Lemma lupd_lupd {A} n (f g : A -> A) l :
  lupd n f (lupd n g l) = lupd n (fun x => f (g x)) l.
Proof. revert n; induction l; intros [|n]; cbn; auto; now rewrite IHl. Qed.

Lemma lupd_ext {A} n (f g : A -> A) l :
  (forall x, nth_error l n = Some x -> f x = g x) -> lupd n f l = lupd n g l.
Proof.
  revert n; induction l; intros [|n] H; cbn; auto.
  - now rewrite H.
  - now rewrite (IHl n).
Qed.

Lemma lupd_id {A} n (f : A -> A) l :
  (forall x, nth_error l n = Some x -> f x = x) -> lupd n f l = l.
Proof.
  revert n; induction l; intros [|n] H; cbn; auto.
  - now rewrite H.
  - now rewrite IHl.
Qed.

Lemma lupd_comm {A} n m (f g : A -> A) l : n <> m ->
  lupd n f (lupd m g l) = lupd m g (lupd n f l).
Proof.
  revert n m; induction l; intros [|n] [|m] H; cbn; auto; try congruence.
  rewrite IHl; auto.
Qed.

Lemma lupd_app_l {A} n (f : A -> A) l r : (n < length l)%nat ->
  lupd n f (l ++ r) = lupd n f l ++ r.
Proof.
  revert n; induction l; intros [|n] H; cbn in *; auto; try lia.
  rewrite IHl; auto; lia.
Qed.

Lemma lupd_app_r {A} n (f : A -> A) l r : (length l <= n)%nat ->
  lupd n f (l ++ r) = l ++ lupd (n - length l) f r.
Proof.
  revert n; induction l; intros n H; cbn in *.
  - now rewrite Nat.sub_0_r.
  - destruct n; [lia|]. cbn. rewrite IHl; auto; lia.
Qed.

Lemma nth_error_lt {A} (l : list A) n x : nth_error l n = Some x -> (n < length l)%nat.
Proof. intros H. apply nth_error_Some. congruence. Qed.

(** ** Monad *)

Lemma bind_ret {A B} (m : M A) (k : A -> M B) e s a s' :
  m e s = Ret a s' -> bind m k e s = k a e s'.
Proof. unfold bind. now intros ->. Qed.

Lemma bind_exit {A B} (m : M A) (k : A -> M B) e s :
  m e s = Exit -> bind m k e s = Exit.
Proof. unfold bind. now intros ->. Qed.

Lemma bind_ub {A B} (m : M A) (k : A -> M B) e s :
  m e s = UB -> bind m k e s = UB.
Proof. unfold bind. now intros ->. Qed.

Lemma bind_fuel {A B} (m : M A) (k : A -> M B) e s :
  m e s = Fuel -> bind m k e s = Fuel.
Proof. unfold bind. now intros ->. Qed.

Lemma bind_assoc {A B C} (m : M A) (k : A -> M B) (h : B -> M C) e s :
  bind (bind m k) h e s = bind m (fun a => bind (k a) h) e s.
Proof. unfold bind. destruct (m e s); reflexivity. Qed.

Lemma bind_assert {B} (k : unit -> M B) b e s : b = true ->
  bind (assert b) k e s = k tt e s.
Proof. now intros ->. Qed.

Lemma bind_assert_false {B} (k : unit -> M B) b e s : b = false ->
  bind (assert b) k e s = Exit.
Proof. now intros ->. Qed.

Lemma bind_ret_l {A B} (a : A) (k : A -> M B) e s : bind (ret a) k e s = k a e s.
Proof. reflexivity. Qed.

(** ** C integers *)

Lemma in_int_true z : INT_MIN <= z <= INT_MAX -> in_int z = true.
Proof. unfold in_int. lia. Qed.

Lemma chk_ok z : -2147483648 <= z <= 2147483647 -> chk z = Some z.
Proof. intros. unfold chk. rewrite in_int_true; auto. Qed.

Lemma chk_ub z : 2147483647 < z -> chk z = None.
Proof. intros. unfold chk, in_int, INT_MIN, INT_MAX. replace (z <=? 2147483647) with false by lia. now rewrite andb_false_r. Qed.

Lemma cadd_ok x y : -2147483648 <= x + y <= 2147483647 -> cadd (Some x) (Some y) = Some (x + y).
Proof. apply chk_ok. Qed.
Lemma csub_ok x y : -2147483648 <= x - y <= 2147483647 -> csub (Some x) (Some y) = Some (x - y).
Proof. apply chk_ok. Qed.
Lemma cmul_ok x y : -2147483648 <= x * y <= 2147483647 -> cmul (Some x) (Some y) = Some (x * y).
Proof. apply chk_ok. Qed.
Lemma cdiv_ok x y : y <> 0 -> -2147483648 <= Z.quot x y <= 2147483647 ->
  cdiv (Some x) (Some y) = Some (Z.quot x y).
Proof. intros. cbn. replace (y =? 0) with false by lia. now apply chk_ok. Qed.

Lemma ev_ok c z e s : c = Some z -> ev c e s = Ret z s.
Proof. now intros ->. Qed.

(** Evaluate an int expression; side conditions are left to [tac]. *)
Ltac cev_with tac :=
  unfold ci;
  repeat first
    [ rewrite cmul_ok by tac | rewrite cadd_ok by tac | rewrite csub_ok by tac
    | rewrite cdiv_ok by tac ].
Ltac cev := cev_with ltac:(first [lia | nia]).

(** ** State updates *)

Definition isb (s : st) (q : nat) (n : Z) (d : Z -> Z) : Prop :=
  bytes_at s (Some q) = Some (q, n, d).

Lemma isb_obj s q n d : isb s q n d ->
  exists a r, nth_error (objs s) q = Some (mkObj a n r true (CBytes d)).
Proof.
  unfold isb, bytes_at. destruct (nth_error (objs s) q) as [o|]; try discriminate.
  destruct o as [a n' r l c]; cbn. destruct l; try discriminate.
  destruct c; try discriminate. intros [= -> ->]. eauto.
Qed.

Lemma obj_isb s q n d a r :
  nth_error (objs s) q = Some (mkObj a n r true (CBytes d)) -> isb s q n d.
Proof. unfold isb, bytes_at. now intros ->. Qed.

Lemma bytes_at_inv s p q n d : bytes_at s p = Some (q, n, d) -> p = Some q /\ isb s q n d.
Proof.
  intros H. pose proof H as H'. unfold bytes_at in H.
  destruct p as [k|]; try discriminate. destruct (nth_error (objs s) k) as [o|] eqn:E; try discriminate.
  destruct (o_live o); try discriminate. destruct (o_cont o); try discriminate.
  injection H as <- <- <-. auto.
Qed.

Lemma objs_putd_ne s q d p : p <> q -> nth_error (objs (putd s q d)) p = nth_error (objs s) p.
Proof. intros. apply lupd_nth_ne. auto. Qed.

Lemma isb_putd_eq s q n d0 d : isb s q n d0 -> isb (putd s q d) q n d.
Proof.
  intros H. apply isb_obj in H as (a & r & H).
  eapply obj_isb. unfold putd; cbn. rewrite lupd_nth_eq, H. reflexivity.
Qed.

Lemma bytes_at_putd_ne s q d p : p <> Some q -> bytes_at (putd s q d) p = bytes_at s p.
Proof.
  intros. destruct p as [k|]; auto. unfold bytes_at.
  rewrite objs_putd_ne; auto; congruence.
Qed.

Lemma isb_putd_ne s q d p n f : p <> q -> isb s p n f -> isb (putd s q d) p n f.
Proof. unfold isb. intros. rewrite bytes_at_putd_ne; auto; congruence. Qed.

Lemma putd_putd s q d d' : putd (putd s q d) q d' = putd s q d'.
Proof. unfold putd; cbn. rewrite lupd_lupd. reflexivity. Qed.

Lemma putd_id s q n d : isb s q n d -> putd s q d = s.
Proof.
  intros H. apply isb_obj in H as (a & r & H). destruct s as [o fs]; cbn in *.
  unfold putd; cbn. f_equal. apply lupd_id. intros x Hx. rewrite H in Hx.
  injection Hx as <-. reflexivity.
Qed.

Lemma sm_at_putd s q n d d' p : isb s q n d -> sm_at (putd s q d') p = sm_at s p.
Proof.
  intros H. destruct p as [k|]; auto. unfold sm_at.
  destruct (Nat.eq_dec k q) as [->|Hk].
  - apply isb_obj in H as (a & r & H). unfold putd; cbn. rewrite lupd_nth_eq, H. reflexivity.
  - rewrite objs_putd_ne; auto.
Qed.

Lemma hm_at_putd s q n d d' p : isb s q n d -> hm_at (putd s q d') p = hm_at s p.
Proof.
  intros H. destruct p as [k|]; auto. unfold hm_at.
  destruct (Nat.eq_dec k q) as [->|Hk].
  - apply isb_obj in H as (a & r & H). unfold putd; cbn. rewrite lupd_nth_eq, H. reflexivity.
  - rewrite objs_putd_ne; auto.
Qed.

Lemma s2_at_putd s q n d d' p : isb s q n d -> s2_at (putd s q d') p = s2_at s p.
Proof.
  intros H. destruct p as [k|]; auto. unfold s2_at.
  destruct (Nat.eq_dec k q) as [->|Hk].
  - apply isb_obj in H as (a & r & H). unfold putd; cbn. rewrite lupd_nth_eq, H. reflexivity.
  - rewrite objs_putd_ne; auto.
Qed.

(** ** Memory operations *)

Lemma inb_true i n : 0 <= i < n -> inb i n = true.
Proof. unfold inb; lia. Qed.
Lemma inb_false i n : ~ (0 <= i < n) -> inb i n = false.
Proof. unfold inb; lia. Qed.

Lemma load8_ok e s p n d i : isb s p n d -> 0 <= i < n ->
  load8 (Some p) i e s = Ret (d i mod 256) s.
Proof. unfold isb, load8. intros -> H. now rewrite inb_true. Qed.

Lemma load8_oob e s p n d i : isb s p n d -> ~ (0 <= i < n) -> load8 (Some p) i e s = UB.
Proof. unfold isb, load8. intros -> H. now rewrite inb_false. Qed.

Lemma store8_ok e s p n d i v : isb s p n d -> 0 <= i < n ->
  store8 (Some p) i v e s = Ret tt (putd s p (fupd d i (v mod 256))).
Proof. unfold isb, store8. intros -> H. now rewrite inb_true. Qed.

Lemma store8_oob e s p n d i v : isb s p n d -> ~ (0 <= i < n) -> store8 (Some p) i v e s = UB.
Proof. unfold isb, store8. intros -> H. now rewrite inb_false. Qed.

Lemma memset_ok e s p sz d off v n : isb s p sz d -> 0 <= n -> 0 <= off -> off + n <= sz ->
  memset (Some p) off v n e s =
  Ret tt (putd s p (fun i => if (off <=? i) && (i <? off + n) then v mod 256 else d i)).
Proof.
  unfold isb, memset. intros -> H1 H2 H3.
  replace ((0 <=? n) && (0 <=? off) && (off + n <=? sz)) with true by lia. reflexivity.
Qed.

Lemma memcpy_ok e s q dsz d p ssz f doff soff n :
  isb s q dsz d -> isb s p ssz f -> p <> q ->
  0 <= n -> 0 <= doff -> doff + n <= dsz -> 0 <= soff -> soff + n <= ssz ->
  memcpy (Some q) doff (Some p) soff n e s =
  Ret tt (putd s q (fun i => if (doff <=? i) && (i <? doff + n) then f (i - doff + soff) else d i)).
Proof.
  unfold isb, memcpy. intros -> -> Hne H1 H2 H3 H4 H5.
  replace (negb (Nat.eqb p q)) with true by lia.
  replace ((0 <=? n) && (0 <=? doff) && (doff + n <=? dsz) && (0 <=? soff) && (soff + n <=? ssz)) with true by lia.
  reflexivity.
Qed.

(** ** Loops: invariants *)

Lemma for_inv e lo hi body (I : Z -> st -> Prop) s :
  lo <= hi -> I lo s ->
  (forall i s, lo <= i < hi -> I i s -> exists s', body i e s = Ret tt s' /\ I (i + 1) s') ->
  exists s', for_ lo hi body e s = Ret tt s' /\ I hi s'.
Proof.
  intros Hle H0 Hstep. unfold for_.
  remember (Z.to_nat (hi - lo)) as n eqn:En.
  assert (Hn : hi = lo + Z.of_nat n) by lia. clear En Hle.
  revert lo s H0 Hstep Hn. induction n as [|n IH]; intros lo s H0 Hstep Hn.
  - cbn. exists s. split; auto. replace hi with lo by lia. auto.
  - cbn [iter_]. destruct (Hstep lo s) as (s1 & E1 & I1); [lia|auto|].
    rewrite (bind_ret _ _ _ _ _ _ E1).
    apply (IH (lo + 1)); auto.
    + intros i s' Hi. apply Hstep. lia.
    + lia.
Qed.

Lemma forS_inv {S} e lo hi (body : Z -> S -> M S) (I : Z -> S -> st -> Prop) s x :
  lo <= hi -> I lo x s ->
  (forall i x s, lo <= i < hi -> I i x s ->
     exists y s', body i x e s = Ret y s' /\ I (i + 1) y s') ->
  exists y s', forS lo hi body x e s = Ret y s' /\ I hi y s'.
Proof.
  intros Hle H0 Hstep. unfold forS.
  remember (Z.to_nat (hi - lo)) as n eqn:En.
  assert (Hn : hi = lo + Z.of_nat n) by lia. clear En Hle.
  revert lo x s H0 Hstep Hn. induction n as [|n IH]; intros lo x s H0 Hstep Hn.
  - cbn. exists x, s. split; auto. replace hi with lo by lia. auto.
  - cbn [iterS]. destruct (Hstep lo x s) as (y & s1 & E1 & I1); [lia|auto|].
    rewrite (bind_ret _ _ _ _ _ _ E1).
    apply (IH (lo + 1)); auto.
    + intros i z s' Hi. apply Hstep. lia.
    + lia.
Qed.

Lemma for_empty lo hi body e s : hi <= lo -> for_ lo hi body e s = Ret tt s.
Proof. intros. unfold for_. replace (Z.to_nat (hi - lo)) with 0%nat by lia. reflexivity. Qed.

Lemma for_first lo hi body e s : lo < hi ->
  for_ lo hi body e s = bind (body lo) (fun _ => for_ (lo + 1) hi body) e s.
Proof.
  intros. unfold for_. replace (Z.to_nat (hi - lo)) with (S (Z.to_nat (hi - (lo + 1)))) by lia.
  reflexivity.
Qed.

Lemma forS_empty {S} lo hi (body : Z -> S -> M S) x e s : hi <= lo -> forS lo hi body x e s = Ret x s.
Proof. intros. unfold forS. replace (Z.to_nat (hi - lo)) with 0%nat by lia. reflexivity. Qed.

Lemma forS_first {S} lo hi (body : Z -> S -> M S) x e s : lo < hi ->
  forS lo hi body x e s = bind (body lo x) (fun y => forS (lo + 1) hi body y) e s.
Proof.
  intros. unfold forS. replace (Z.to_nat (hi - lo)) with (Datatypes.S (Z.to_nat (hi - (lo + 1)))) by lia.
  reflexivity.
Qed.

(** ** Reading computations that do not depend on block q *)

Definition rdv {A} (e : env) (s0 : st) (q : nat) (m : M A) (v : A) : Prop :=
  forall f, m e (putd s0 q f) = Ret v (putd s0 q f).

Lemma rdv_ret {A} e s0 q (v : A) : rdv e s0 q (ret v) v.
Proof. intros f. reflexivity. Qed.

Lemma rdv_ev e s0 q c z : c = Some z -> rdv e s0 q (ev c) z.
Proof. intros -> f. reflexivity. Qed.

Lemma rdv_bind {A B} e s0 q (m : M A) (k : A -> M B) a b :
  rdv e s0 q m a -> rdv e s0 q (k a) b -> rdv e s0 q (bind m k) b.
Proof. intros H1 H2 f. rewrite (bind_ret _ _ _ _ _ _ (H1 f)). apply H2. Qed.

Lemma rdv_load8 e s0 q p n d i : p <> q -> isb s0 p n d -> 0 <= i < n ->
  rdv e s0 q (load8 (Some p) i) (d i mod 256).
Proof. intros Hp H Hi f. apply load8_ok with (n := n); auto. apply isb_putd_ne; auto. Qed.

(** Iterating a pure step over a range. *)
Fixpoint foldN {S} (n : nat) (i : Z) (g : Z -> S -> S) (x : S) : S :=
  match n with O => x | Datatypes.S n' => foldN n' (i + 1) g (g i x) end.
Definition foldZ {S} (lo hi : Z) (g : Z -> S -> S) (x : S) : S :=
  foldN (Z.to_nat (hi - lo)) lo g x.

Lemma rdv_forS {S} e s0 q lo hi (body : Z -> S -> M S) g x :
  (forall i y, lo <= i < hi -> rdv e s0 q (body i y) (g i y)) ->
  rdv e s0 q (forS lo hi body x) (foldZ lo hi g x).
Proof.
  intros H f. unfold forS, foldZ.
  remember (Z.to_nat (hi - lo)) as n eqn:En.
  destruct (Z_le_gt_dec hi lo) as [Hle|Hgt].
  - replace n with 0%nat by lia. reflexivity.
  - assert (Hn : hi = lo + Z.of_nat n) by lia. clear En Hgt. revert lo x H Hn.
    induction n as [|n IH]; intros lo x H Hn; [reflexivity|].
    cbn [iterS foldN]. rewrite (bind_ret _ _ _ _ _ _ (H lo x ltac:(lia) f)).
    apply IH; [intros; apply H; lia|lia].
Qed.

(** ** The write calculus

    [wr e s0 q m P spec]: starting from [s0] with arbitrary contents of block
    q, the computation m returns normally, changes nothing but the contents of
    q, leaves [spec p] in every cell p of P, leaves the cells outside P
    unchanged (and in general every cell holds its old value or [spec]). *)
Definition wr (e : env) (s0 : st) (q : nat) (m : M unit) (P : Z -> Prop) (spec : Z -> Z) : Prop :=
  forall f, exists f',
    m e (putd s0 q f) = Ret tt (putd s0 q f')
    /\ (forall p, P p -> f' p mod 256 = spec p)
    /\ (forall p, f' p mod 256 = spec p \/ f' p = f p)
    /\ (forall p, ~ P p -> f' p = f p).

Lemma wr_ret e s0 q spec : wr e s0 q (ret tt) (fun _ => False) spec.
Proof. intros f. exists f. repeat split; auto. intros p []. Qed.

Lemma wr_bind {A} e s0 q (m : M A) v k P spec :
  rdv e s0 q m v -> wr e s0 q (k v) P spec -> wr e s0 q (bind m k) P spec.
Proof.
  intros H1 H2 f. destruct (H2 f) as (f' & E & R). exists f'. split; auto.
  rewrite (bind_ret _ _ _ _ _ _ (H1 f)). auto.
Qed.

Lemma wr_seq e s0 q m m' P P' spec :
  wr e s0 q m P spec -> wr e s0 q m' P' spec ->
  wr e s0 q (m ;;; m') (fun p => P p \/ P' p) spec.
Proof.
  intros H1 H2 f. destruct (H1 f) as (f1 & E1 & A1 & B1 & C1).
  destruct (H2 f1) as (f2 & E2 & A2 & B2 & C2).
  exists f2. split; [rewrite (bind_ret _ _ _ _ _ _ E1); auto|].
  repeat split.
  - intros p [Hp|Hp]; auto. destruct (B2 p) as [| ->]; auto.
  - intros p. destruct (B2 p) as [| ->]; auto.
  - intros p Hp. rewrite C2, C1; tauto.
Qed.

Lemma wr_iff e s0 q m P P' spec :
  wr e s0 q m P spec -> (forall p, P p <-> P' p) -> wr e s0 q m P' spec.
Proof.
  intros H HP f. destruct (H f) as (f' & E & A & B & C). exists f'.
  repeat split; auto; intros p Hp; [apply A | apply C]; firstorder.
Qed.

Lemma wr_store8 e s0 q n d i v spec :
  isb s0 q n d -> 0 <= i < n -> v mod 256 = spec i ->
  wr e s0 q (store8 (Some q) i v) (fun p => p = i) spec.
Proof.
  intros H Hi Hv f. exists (fupd f i (v mod 256)).
  split. { rewrite (store8_ok e _ _ n f); auto; [|eapply isb_putd_eq; eauto]. now rewrite putd_putd. }
  unfold fupd. split; [|split].
  - intros p ->. rewrite Z.eqb_refl, Z.mod_mod; lia.
  - intros p. destruct (Z.eqb_spec p i); [subst; left; rewrite Z.mod_mod; lia | auto].
  - intros p Hp. destruct (Z.eqb_spec p i); [tauto|auto].
Qed.

Lemma wr_memcpy e s0 q n d p np dp doff soff k spec :
  isb s0 q n d -> isb s0 p np dp -> p <> q ->
  0 <= k -> 0 <= doff -> doff + k <= n -> 0 <= soff -> soff + k <= np ->
  (forall i, doff <= i < doff + k -> dp (i - doff + soff) mod 256 = spec i) ->
  wr e s0 q (memcpy (Some q) doff (Some p) soff k) (fun i => doff <= i < doff + k) spec.
Proof.
  intros Hq Hp Hne H1 H2 H3 H4 H5 Hs f. eexists. split.
  { rewrite (memcpy_ok e _ q n f p np dp); auto;
      [|eapply isb_putd_eq; eauto | apply isb_putd_ne; auto].
    rewrite putd_putd. reflexivity. }
  cbv beta. split; [|split].
  - intros i Hi. replace ((doff <=? i) && (i <? doff + k)) with true by lia. auto.
  - intros i. destruct ((doff <=? i) && (i <? doff + k)) eqn:E; auto. left. apply Hs. lia.
  - intros i Hi. replace ((doff <=? i) && (i <? doff + k)) with false by lia. auto.
Qed.

Lemma wr_for e s0 q lo hi body (P : Z -> Z -> Prop) spec :
  (forall i, lo <= i < hi -> wr e s0 q (body i) (P i) spec) ->
  wr e s0 q (for_ lo hi body) (fun p => exists i, lo <= i < hi /\ P i p) spec.
Proof.
  intros H. unfold for_. remember (Z.to_nat (hi - lo)) as n eqn:En.
  destruct (Z_le_gt_dec hi lo) as [Hle|Hgt].
  - replace n with 0%nat by lia. cbn.
    eapply wr_iff; [apply wr_ret|]. intros p. split; [tauto|]. intros (i & Hi & _). lia.
  - assert (Hn : hi = lo + Z.of_nat n) by lia. clear En Hgt. revert lo H Hn.
    induction n as [|n IH]; intros lo H Hn.
    + cbn. eapply wr_iff; [apply wr_ret|]. intros p. split; [tauto|]. intros (i & Hi & _). lia.
    + cbn [iter_]. eapply wr_iff.
      * apply wr_seq; [apply H; lia|]. apply (IH (lo + 1)); [|lia].
        intros i Hi. apply H. lia.
      * intros p. cbv beta. split.
        -- intros [Hp|(i & Hi & Hp)]; [exists lo|exists i]; split; auto; lia.
        -- intros (i & Hi & Hp). destruct (Z.eq_dec i lo) as [->|]; auto.
           right. exists i. split; auto; lia.
Qed.

(** Run a writing computation from a state. *)
Lemma wr_run e s0 q n d m P spec : isb s0 q n d -> wr e s0 q m P spec ->
  exists f', m e s0 = Ret tt (putd s0 q f')
    /\ (forall p, P p -> f' p mod 256 = spec p)
    /\ (forall p, ~ P p -> f' p = d p).
Proof.
  intros H W. destruct (W d) as (f' & E & A & B & C). exists f'.
  rewrite (putd_id _ _ _ _ H) in E. auto.
Qed.

(** Step lemma for exits/UB inside a loop: the first iteration. *)
Lemma for_ub_first lo hi body e s : lo < hi -> body lo e s = UB -> for_ lo hi body e s = UB.
Proof. intros. rewrite for_first; auto. now apply bind_ub. Qed.
