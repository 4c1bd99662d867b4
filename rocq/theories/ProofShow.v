(** * Showing images. *)
From Verif Require Import Base Logic ModelCore ModelShow SpecBase SpecShow ProofCore ProofBmp ProofHM.
From Coq Require Import ZifyBool ZifyNat.
Ltac Zify.zify_post_hook ::= Z.div_mod_to_equations.
Open Scope Z_scope.

(** The pixel loop. *)
Lemma pixel_loop e s0 q n d dq nd dd T (src : Z -> Z -> cint) (at_ : Z -> Z -> Z) :
  isb s0 q n d -> isb s0 dq nd dd -> dq <> q -> 0 <= T -> T * 4 <= n -> T * 4 <= 2147483647 ->
  (forall i j, 0 <= i < T -> 0 <= j < 3 -> src i j = Some (at_ i j) /\ 0 <= at_ i j < nd) ->
  wr e s0 q (for_ 0 T (fun i =>
    for_ 0 3 (fun j => a <- ev (i * 4 + j)%C ;; b <- ev (src i j) ;; v <- load8 (Some dq) b ;; store8 (Some q) a v) ;;;
    a <- ev (i * 4 + 3)%C ;; store8 (Some q) a 1))
    (fun x => 0 <= x < T * 4) (fun x => if x mod 4 =? 3 then 1 else dd (at_ (x / 4) (x mod 4)) mod 256).
Proof.
  intros Hq Hd NE T0 Tn T4 HS. eapply wr_iff.
  - apply (wr_for e s0 q 0 T _ (fun i x => (exists j, 0 <= j < 3 /\ x = i * 4 + j) \/ x = i * 4 + 3)). intros i Hi. apply wr_seq.
    + apply (wr_for e s0 q 0 3 _ (fun j x => x = i * 4 + j)). intros j Hj.
      eapply wr_bind; [apply rdv_ev; cev_with ltac:(lia); reflexivity|].
      destruct (HS i j Hi Hj) as [S1 S2]. eapply wr_bind; [apply rdv_ev; exact S1|].
      eapply wr_bind; [eapply rdv_load8; [exact NE|exact Hd|exact S2]|].
      eapply wr_store8; [exact Hq|lia|].
      replace ((i * 4 + j) mod 4) with j by lia. replace ((i * 4 + j) / 4) with i by lia.
      replace (j =? 3) with false by lia. apply Z.mod_mod. lia.
    + eapply wr_bind; [apply rdv_ev; cev_with ltac:(lia); reflexivity|].
      eapply wr_store8; [exact Hq|lia|]. replace ((i * 4 + 3) mod 4) with 3 by lia. reflexivity.
  - intros x. cbv beta. split.
    + intros (i & Hi & [(j & Hj & ->) | ->]); lia.
    + intros Hx. exists (x / 4). split; [lia|]. destruct (Z.eq_dec (x mod 4) 3); [right; lia|left; exists (x mod 4); lia].
Qed.

Lemma cell_lt R C i j : 0 <= i < R -> 0 <= j < C -> 0 <= i * C + j < R * C.
Proof. nia. Qed.

Definition newbuf (e : env) (s : st) (n : Z) (f : Z -> Z) : st :=
  mkSt (objs s ++ [mkObj (e_addr e (List.length (objs s))) n (List.length (objs s)) true (CBytes f)]) (files s).
Lemma newbuf_isb e s n f : isb (newbuf e s n f) (List.length (objs s)) n f.
Proof. unfold isb, bytes_at, newbuf. cbn [objs]. rewrite nth_error_app2, Nat.sub_diag by lia. reflexivity. Qed.
Lemma newbuf_putd e s n f g : putd (newbuf e s n f) (List.length (objs s)) g = newbuf e s n g.
Proof. unfold putd, newbuf. cbn [objs files]. f_equal. replace (List.length (objs s)) with (List.length (objs s) + 0)%nat at 1 by lia. rewrite lupd_app_new. reflexivity. Qed.

(** The buffer: a new block, nothing else changes. *)
Lemma buffer_run e s p m es : image s p m es -> sm_rows m * sm_cols m * 4 <= 2147483647 ->
  exists f q nd dd, x11_buffer p e s = Ret (Some (List.length (objs s))) (newbuf e s (sm_rows m * sm_cols m * 4) f)
    /\ sm_data m = Some q /\ isb s q nd dd /\ sm_rows m * sm_cols m * es * sm_chan m <= nd
    /\ (sm_chan m = 1 -> forall x, 0 <= x < sm_rows m * sm_cols m * 4 -> f x mod 256 = if x mod 4 =? 3 then 1 else dd (x / 4) mod 256)
    /\ (sm_chan m = 3 -> forall x, 0 <= x < sm_rows m * sm_cols m * 4 -> f x mod 256 = if x mod 4 =? 3 then 1 else dd (x / 4 * 3 + x mod 4) mod 256)
    /\ (sm_chan m = 4 -> forall x, 0 <= x < sm_rows m * sm_cols m * 4 -> f x mod 256 = dd x mod 256)
    /\ (sm_chan m <> 1 -> sm_chan m <> 3 -> sm_chan m <> 4 -> forall x, f x = e_junk e (List.length (objs s)) x).
Proof.
  intros [Hh Hty HR HC Hch Hsz Hd] H4. destruct (readable_isb _ _ _ Hd) as (q & nd & dd & Eq & Hq & Hn).
  assert (ES : 1 <= es) by (unfold type_size in Hty; repeat match type of Hty with context [if ?c then _ else _] => destruct c end; try discriminate; injection Hty as <-; lia).
  set (T := sm_rows m * sm_cols m) in *. assert (T0 : 0 < T) by (unfold T; nia).
  assert (TE : T * sm_chan m <= nd) by nia.
  unfold x11_buffer. runs (sget_ok p m e s Hh). cbv zeta.
  assert (E1 : (sm_cols m * sm_rows m * 4)%C = Some (T * 4)) by (cev_with ltac:(unfold T in *; nia); f_equal; unfold T; ring).
  assert (E2 : (sm_cols m * sm_rows m)%C = Some T) by (cev_with ltac:(unfold T in *; nia); f_equal; unfold T; ring).
  runs (ev_ok _ _ e s E1). runs (malloc_new e s (T * 4) ltac:(lia)).
  fold (newbuf e s (T * 4) (e_junk e (List.length (objs s)))). set (s1 := newbuf e s (T * 4) (e_junk e (List.length (objs s)))).
  runs (ev_ok _ _ e s1 E2). rewrite Eq.
  assert (Hq1 : isb s1 q nd dd) by (apply isb_app_old; exact Hq).
  assert (HB : isb s1 (List.length (objs s)) (T * 4) (e_junk e (List.length (objs s)))) by apply newbuf_isb.
  assert (NE : q <> List.length (objs s)).
  { intros ->. unfold isb, bytes_at in Hq. rewrite (proj2 (nth_error_None _ _)) in Hq; [discriminate|lia]. }
  destruct (Z.eqb_spec (sm_chan m) 1) as [c1|c1].
  - destruct (wr_run e s1 _ _ _ _ _ _ HB (pixel_loop e s1 _ _ _ q nd dd T (fun i _ => ci i) (fun i _ => i) HB Hq1 NE ltac:(lia) ltac:(lia) ltac:(lia)
      ltac:(intros; split; [reflexivity|lia]))) as (f & E & A & _).
    exists f, q, nd, dd. split.
    { assert (E' : forall c, c = for_ 0 T (fun i => for_ 0 3 (fun j => a <- ev (i * 4 + j)%C ;; b <- ev (ci i) ;; v <- load8 (Some q) b ;; store8 (Some (List.length (objs s))) a v) ;;;
          a <- ev (i * 4 + 3)%C ;; store8 (Some (List.length (objs s))) a 1) -> (c ;;; ret (Some (List.length (objs s)))) e s1 = Ret (Some (List.length (objs s))) (newbuf e s (T * 4) f)).
      { intros c ->. runs E. unfold s1. rewrite newbuf_putd. reflexivity. }
      apply E'. reflexivity. }
    split; [reflexivity|]. split; [exact Hq|]. split; [exact Hn|]. split; [intros _; exact A|]. split; [lia|]. split; [lia|]. intros; contradiction.
  - destruct (Z.eqb_spec (sm_chan m) 3) as [c3|c3].
    + destruct (wr_run e s1 _ _ _ _ _ _ HB (pixel_loop e s1 _ _ _ q nd dd T (fun i j => i * 3 + j)%C (fun i j => i * 3 + j) HB Hq1 NE ltac:(lia) ltac:(lia) ltac:(lia)
        ltac:(intros; split; [cev_with ltac:(lia); reflexivity|lia]))) as (f & E & A & _).
      exists f, q, nd, dd. split; [runs E; unfold s1; rewrite newbuf_putd; reflexivity|].
      split; [reflexivity|]. split; [exact Hq|]. split; [exact Hn|]. split; [lia|]. split; [intros _; exact A|]. split; [lia|]. intros; contradiction.
    + destruct (Z.eqb_spec (sm_chan m) 4) as [c4|c4].
      * destruct (wr_run e s1 _ _ _ _ _ _ HB (wr_memcpy e s1 _ _ _ q nd dd 0 0 (T * 4) (fun x => dd x mod 256) HB Hq1 NE ltac:(lia) ltac:(lia) ltac:(lia) ltac:(lia) ltac:(lia)
          ltac:(intros x Hx; replace (x - 0 + 0) with x by lia; reflexivity))) as (f & E & A & _).
        exists f, q, nd, dd. split; [runs E; unfold s1; rewrite newbuf_putd; reflexivity|].
        split; [reflexivity|]. split; [exact Hq|]. split; [exact Hn|]. split; [lia|]. split; [lia|]. split; [intros _ x Hx; apply A; lia|]. intros; contradiction.
      * exists (e_junk e (List.length (objs s))), q, nd, dd. split; [reflexivity|].
        split; [reflexivity|]. split; [exact Hq|]. split; [exact Hn|]. split; [lia|]. split; [lia|]. split; [lia|]. reflexivity.
Qed.

Lemma newbuf_old e s n f : old_unchanged s (newbuf e s n f).
Proof. intros k Hk. unfold newbuf. cbn [objs]. apply nth_error_app1. exact Hk. Qed.

Lemma show_buffer e s p m : image s p m 1 -> sm_rows m * sm_cols m * 4 <= 2147483647 ->
  exists b s', x11_buffer p e s = Ret b s' /\ fresh_in s b /\ old_unchanged s s' /\ files s' = files s /\ shows s m s' b.
Proof.
  intros I H. destruct (buffer_run e s p m 1 I H) as (f & q & nd & dd & E & Eq & Hq & Hn & C1 & C3 & C4 & _).
  eexists _, _. split; [exact E|]. split; [eexists; split; [reflexivity|lia]|]. split; [apply newbuf_old|]. split; [reflexivity|].
  destruct I as [_ _ HR HC Hch _ _].
  intros i j Hi Hj. unfold byte4, pix, pixel_byte. pose proof (cell_lt _ _ i j Hi Hj) as HX. set (X := i * sm_cols m + j) in *. clearbody X.
  set (T := sm_rows m * sm_cols m) in *. clearbody T. rewrite Eq.
  assert (B : forall k, 0 <= k < 4 -> byte_at (newbuf e s (T * 4) f) (Some (List.length (objs s))) (4 * X + k) = Some (f (4 * X + k) mod 256)).
  { intros k Hk. apply (byte_at_isb _ _ _ _ _ (newbuf_isb e s (T * 4) f)). lia. }
  split; [|split].
  - intros c1. rewrite c1 in *. split.
    + intros k Hk. rewrite B, (C1 eq_refl) by lia. replace ((4 * X + k) mod 4) with k by lia. replace ((4 * X + k) / 4) with X by lia.
      replace (k =? 3) with false by lia. rewrite (byte_at_isb _ _ _ _ _ Hq) by lia. do 3 f_equal. lia.
    + rewrite B, (C1 eq_refl) by lia. replace ((4 * X + 3) mod 4) with 3 by lia. reflexivity.
  - intros c3. rewrite c3 in *. split.
    + intros k Hk. rewrite B, (C3 eq_refl) by lia. replace ((4 * X + k) mod 4) with k by lia. replace ((4 * X + k) / 4) with X by lia.
      replace (k =? 3) with false by lia. rewrite (byte_at_isb _ _ _ _ _ Hq) by lia. do 3 f_equal. lia.
    + rewrite B, (C3 eq_refl) by lia. replace ((4 * X + 3) mod 4) with 3 by lia. reflexivity.
  - intros c4 k Hk. rewrite c4 in *. rewrite B, (C4 eq_refl) by lia. rewrite (byte_at_isb _ _ _ _ _ Hq) by lia. do 3 f_equal. lia.
Qed.

(** Two channels, or five and more: the buffer stays as it was allocated. *)
Lemma show_stale e s p m es : image s p m es -> sm_rows m * sm_cols m * 4 <= 2147483647 ->
  sm_chan m <> 1 -> sm_chan m <> 3 -> sm_chan m <> 4 ->
  exists b s', x11_buffer p e s = Ret b s' /\ forall x, 0 <= x < sm_rows m * sm_cols m * 4 ->
    byte_at s' b x = Some (e_junk e (List.length (objs s)) x mod 256).
Proof.
  intros I H N1 N3 N4. destruct (buffer_run e s p m es I H) as (f & q & nd & dd & E & Eq & Hq & Hn & _ & _ & _ & J).
  eexists _, _. split; [exact E|]. intros x Hx. rewrite (byte_at_isb _ _ _ _ _ (newbuf_isb e s _ f)) by lia. now rewrite (J N1 N3 N4).
Qed.

(** The type is not looked at: pixel x shows byte x of the data, whatever the size of a pixel. *)
Lemma show_wide e s p m es : image s p m es -> sm_rows m * sm_cols m * 4 <= 2147483647 -> sm_chan m = 1 ->
  exists b s', x11_buffer p e s = Ret b s' /\ forall i j k, 0 <= i < sm_rows m -> 0 <= j < sm_cols m -> 0 <= k < 3 ->
    byte4 s' b (sm_cols m) i j k = byte_at s (sm_data m) (i * sm_cols m + j).
Proof.
  intros I H c1. destruct (buffer_run e s p m es I H) as (f & q & nd & dd & E & Eq & Hq & Hn & C1 & _).
  assert (ES : 1 <= es) by (pose proof (im_type _ _ _ _ I) as Hty; unfold type_size in Hty; repeat match type of Hty with context [if ?c then _ else _] => destruct c end; try discriminate; injection Hty as <-; lia).
  eexists _, _. split; [exact E|]. intros i j k Hi Hj Hk. unfold byte4. rewrite c1 in *. pose proof (cell_lt _ _ i j Hi Hj) as HX. set (X := i * sm_cols m + j) in *. clearbody X.
  set (T := sm_rows m * sm_cols m) in *. clearbody T. rewrite Eq. rewrite (byte_at_isb _ _ _ _ _ (newbuf_isb e s _ f)) by lia.
  rewrite (C1 eq_refl) by lia. replace ((4 * X + k) mod 4) with k by lia. replace ((4 * X + k) / 4) with X by lia.
  replace (k =? 3) with false by lia. rewrite (byte_at_isb _ _ _ _ _ Hq) by nia. reflexivity.
Qed.

(** Pictures of more than 2^29 pixels: the size overflows. *)
Lemma show_large e s p m : sm_at s p = Some m -> 0 < sm_rows m -> 0 < sm_cols m -> sm_rows m * sm_cols m <= 2147483647 ->
  2147483647 < sm_rows m * sm_cols m * 4 -> x11_buffer p e s = UB.
Proof.
  intros Hh HR HC H1 H2. unfold x11_buffer. runs (sget_ok p m e s Hh). cbv zeta.
  replace ((sm_cols m * sm_rows m * 4)%C) with (@None Z); [reflexivity|].
  unfold ci. rewrite cmul_ok by nia. unfold cmul, cop, chk, in_int, INT_MIN, INT_MAX.
  replace ((-2147483648 <=? sm_cols m * sm_rows m * 4) && (sm_cols m * sm_rows m * 4 <=? 2147483647)) with false by nia. reflexivity.
Qed.

(** With the X server every image ends in the use of a pointer without a value. *)
Lemma show_never e s p m es : image s p m es -> smshow_x11 p e s = UB.
Proof.
  intros I. unfold smshow_x11. assert (P : nonnull p = true) by (pose proof (im_hdr _ _ _ _ I) as Hh; destruct p; [reflexivity|discriminate Hh]).
  unfold assert. rewrite P. rewrite (bind_ret _ _ e s tt s eq_refl).
  destruct (Z_le_gt_dec (sm_rows m * sm_cols m * 4) 2147483647) as [H|H].
  - destruct (buffer_run e s p m es I H) as (f & q & nd & dd & E & _). runs E. reflexivity.
  - apply bind_ub. destruct I as [Hh Hty HR HC Hch Hsz _]. apply (show_large e s p m); auto; [|lia].
    assert (ES : 1 <= es) by (unfold type_size in Hty; repeat match type of Hty with context [if ?c then _ else _] => destruct c end; try discriminate; injection Hty as <-; lia). nia.
Qed.
