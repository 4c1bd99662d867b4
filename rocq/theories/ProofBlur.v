(** * Separable smoothing with given kernels. *)
From Verif Require Import Base ModelFloat ModelDouble ModelConv ModelBorder ModelCore ModelImage ModelMatrix ModelFilter ModelGauss Logic SpecBase SpecNum SpecMatrix SpecPixel SpecImage2 SpecFilter SpecGauss SpecCxx.
From Verif Require Import ProofCore ProofCore2 ProofPixel ProofArr ProofGrid ProofMatrix ProofFold ProofImage4 ProofLayout ProofInvert ProofFloat ProofFloat2 ProofGrad ProofFilter ProofWord ProofHM ProofCopy ProofImage3 ProofConv.
From Coq Require Import Floats.SpecFloat Lia ZifyBool ZifyNat.
Open Scope Z_scope.
Ltac Zify.zify_post_hook ::= Z.div_mod_to_equations.

(** ** Accumulating and storing *)
Lemma acc_run e s ks (step : Z -> (sf * sf * sf) -> M (sf * sf * sf)) f0 f1 f2 a0 a1 a2 : 0 <= ks ->
  (forall k x0 x1 x2, 0 <= k < ks -> step k (x0, x1, x2) e s = Ret (f0 x0 k, f1 x1 k, f2 x2 k) s) ->
  forS 0 ks step (a0, a1, a2) e s = Ret (foldz ks f0 a0, foldz ks f1 a1, foldz ks f2 a2) s.
Proof.
  intros Hk H.
  destruct (forS_inv e 0 ks step (fun k x s1 => s1 = s /\ x = (foldz k f0 a0, foldz k f1 a1, foldz k f2 a2)) s (a0, a1, a2))
    as (y & s' & E & -> & ->); auto.
  intros k x s1 Hk1 [-> ->]. rewrite H by auto. eexists _, _. split; [reflexivity|]. split; auto.
  now rewrite !foldz_S by lia.
Qed.

Lemma cells_run e s q es N m n cn pos h body : 0 < es -> 0 <= m -> 0 <= n ->
  (exists g, arr s q 0 es N g) ->
  (forall i j i' j', 0 <= i < m -> 0 <= j < n -> 0 <= i' < m -> 0 <= j' < n -> pos i j = pos i' j' -> i = i' /\ j = j') ->
  (forall i j s1 g1, 0 <= i < m -> 0 <= j < n -> inside s q 0 (N * es) s1 -> arr s1 q 0 es N g1 ->
     exists s2 g2, body i j e s1 = Ret tt s2 /\ arr s2 q 0 es N g2 /\ inside s1 q 0 (N * es) s2
       /\ forall t, g2 t = if t / cn =? pos i j then h i j (t mod cn) else g1 t) ->
  exists s' g', for_ 0 m (fun i => for_ 0 n (body i)) e s = Ret tt s' /\ arr s' q 0 es N g'
    /\ inside s q 0 (N * es) s'
    /\ (forall i j t, 0 <= i < m -> 0 <= j < n -> t / cn = pos i j -> g' t = h i j (t mod cn)).
Proof.
  intros He Hm Hn [g A] Hinj Hb.
  destruct (for_inv e 0 m (fun i => for_ 0 n (body i))
    (fun i s1 => exists g1, arr s1 q 0 es N g1 /\ inside s q 0 (N * es) s1
        /\ forall a b t, 0 <= a < i -> 0 <= b < n -> t / cn = pos a b -> g1 t = h a b (t mod cn)) s)
    as (s' & E & g1 & A' & I' & H'); [lia| | |].
  - exists g. split; auto. destruct (arr_isb _ _ _ _ _ _ A) as (N0 & d & Hd). split; [eapply inside_refl; eauto|].
    intros; lia.
  - intros i s1 Hi (g1 & A1 & I1 & H1).
    destruct (for_inv e 0 n (body i)
      (fun j s2 => exists g2, arr s2 q 0 es N g2 /\ inside s q 0 (N * es) s2
        /\ (forall a b t, 0 <= a < i -> 0 <= b < n -> t / cn = pos a b -> g2 t = h a b (t mod cn))
        /\ (forall b t, 0 <= b < j -> t / cn = pos i b -> g2 t = h i b (t mod cn))) s1)
      as (s2 & E2 & g2 & A2 & I2 & H2 & H3); [lia| | |].
    + exists g1. split; auto. split; auto. split; auto. intros; lia.
    + intros j s2 Hj (g2 & A2 & I2 & H2 & H3). destruct (Hb i j s2 g2 Hi Hj I2 A2) as (s3 & g3 & E3 & A3 & I3 & G3).
      exists s3. split; auto. exists g3. split; [exact A3|]. split; [eapply inside_trans; eauto|]. split.
      * intros a b t Ha Hb' Et. rewrite G3, Et. destruct (Z.eqb_spec (pos a b) (pos i j)) as [Q|]; [|apply H2; auto].
        assert (Ha' : 0 <= a < m) by (clear - Ha Hi; lia). destruct (Hinj a b i j Ha' Hb' Hi Hj Q) as [-> ->]. reflexivity.
      * intros b t Hb' Et. rewrite G3, Et. destruct (Z.eqb_spec (pos i b) (pos i j)) as [Q|].
        { assert (Hb2 : 0 <= b < n) by (clear - Hb' Hj; lia). destruct (Hinj i b i j Hi Hb2 Hi Hj Q) as [_ ->]. reflexivity. }
        apply H3; auto. assert (b <> j) by (intros ->; auto). clear - H Hb'; lia.
    + exists s2. split; auto. exists g2. split; auto. split; auto. intros a b t Ha Hb' Et.
      destruct (Z.eq_dec a i) as [-> |Hne]; auto. apply H2; auto. clear - Ha Hne; lia.
  - exists s', g1. auto.
Qed.

Lemma store8_arr e s q n g t v : arr s q 0 1 n g -> 0 <= t < n ->
  exists s', store8 (Some q) t v e s = Ret tt s' /\ arr s' q 0 1 n (fupd g t (v mod 256)) /\ inside s q 0 (n * 1) s'.
Proof.
  intros (N & d & H1 & H2 & H3 & H4 & H5) Ht. rewrite (store8_ok e s q N d t v H1) by lia.
  eexists. split; [reflexivity|]. split.
  - exists N, (fupd d t (v mod 256)). split; [eapply isb_putd_eq; eauto|]. do 3 (split; auto).
    intros i Hi. specialize (H5 i Hi). change (Z.to_nat 1) with 1%nat in *. cbn [word] in *. rewrite Z.mul_1_r, Z.add_0_l in *.
    unfold fupd. destruct (i =? t); auto. rewrite Zmod_mod. lia.
  - exists N, d, (fupd d t (v mod 256)). split; auto. split; auto. intros p Hp. unfold fupd.
    destruct (Z.eqb_spec p t) as [-> |]; auto. lia.
Qed.

(** One or three stores to the channels of cell u. *)
Section Put.
  Variables (e : env) (q : nat) (es N cn u : Z) (wv : sf -> Z) (sto : Z -> sf -> M unit) (x : Z -> sf).
  Hypothesis Hcn : cn = 1 \/ cn = 3.
  Hypothesis Hu : 0 <= u /\ (u + 1) * cn <= N.
  Hypothesis STO : forall s t y g, arr s q 0 es N g -> 0 <= t < N ->
    exists s', sto t y e s = Ret tt s' /\ arr s' q 0 es N (fupd g t (wv y)) /\ inside s q 0 (N * es) s'.

  Lemma put_run s g (c1 c30 c31 c32 : option Z) : arr s q 0 es N g ->
    (cn = 1 -> c1 = Some u) -> (cn = 3 -> c30 = Some (u * cn + 0) /\ c31 = Some (u * cn + 1) /\ c32 = Some (u * cn + 2)) ->
    exists s2 g2, (if cn =? 1 then k <- ev c1 ;; sto k (x 0)
         else k0 <- ev c30 ;; sto k0 (x 0) ;;; k1 <- ev c31 ;; sto k1 (x 1) ;;; k2 <- ev c32 ;; sto k2 (x 2)) e s = Ret tt s2
      /\ arr s2 q 0 es N g2 /\ inside s q 0 (N * es) s2
      /\ forall t, g2 t = if t / cn =? u then wv (x (t mod cn)) else g t.
  Proof.
    intros A H1 H3. pose proof Hu as Hu'. destruct Hcn as [E|E]; rewrite E in Hu'.
    - replace (cn =? 1) with true by lia. rewrite (H1 E). rewrite (bind_ret _ _ _ _ _ _ (ev_ok _ _ e s eq_refl)).
      destruct (STO s u (x 0) g A ltac:(clear - Hu' E; lia)) as (s2 & E2 & A2 & I2). exists s2, (fupd g u (wv (x 0))). do 3 (split; auto).
      intros t. rewrite E, Z.div_1_r, Z.mod_1_r. reflexivity.
    - replace (cn =? 1) with false by lia. destruct (H3 E) as (-> & -> & ->).
      rewrite (bind_ret _ _ _ _ _ _ (ev_ok _ _ e s eq_refl)).
      destruct (STO s (u * cn + 0) (x 0) g A ltac:(clear - Hu' E; lia)) as (s2 & E2 & A2 & I2). rewrite (bind_ret _ _ _ _ _ _ E2).
      rewrite (bind_ret _ _ _ _ _ _ (ev_ok _ _ e s2 eq_refl)).
      destruct (STO s2 (u * cn + 1) (x 1) _ A2 ltac:(clear - Hu' E; lia)) as (s3 & E3 & A3 & I3). rewrite (bind_ret _ _ _ _ _ _ E3).
      rewrite (bind_ret _ _ _ _ _ _ (ev_ok _ _ e s3 eq_refl)).
      destruct (STO s3 (u * cn + 2) (x 2) _ A3 ltac:(clear - Hu' E; lia)) as (s4 & E4 & A4 & I4).
      exists s4. eexists. split; [exact E4|]. split; [exact A4|].
      split; [eapply inside_trans; [exact I2|]; eapply inside_trans; [exact I3|exact I4]|].
      intros t. rewrite E. unfold fupd. clear.
      destruct (Z.eqb_spec (t / 3) u) as [Q|Q].
      + assert (M : t mod 3 = 0 \/ t mod 3 = 1 \/ t mod 3 = 2) by lia.
        destruct M as [M|[M|M]]; rewrite M.
        * replace (t =? u * 3 + 2) with false by lia. replace (t =? u * 3 + 1) with false by lia.
          now replace (t =? u * 3 + 0) with true by lia.
        * replace (t =? u * 3 + 2) with false by lia. now replace (t =? u * 3 + 1) with true by lia.
        * now replace (t =? u * 3 + 2) with true by lia.
      + replace (t =? u * 3 + 2) with false by lia. replace (t =? u * 3 + 1) with false by lia.
        now replace (t =? u * 3 + 0) with false by lia.
  Qed.
End Put.

Lemma fold_ok n (w v : Z -> sf) a : (forall k, 0 <= k < n -> fl_ok (w k) /\ fl_ok (v k)) -> fl_ok a ->
  fl_ok (foldz n (fun a k => fl_add a (fl_mul (w k) (v k))) a).
Proof.
  intros H Ha. destruct (Z_lt_le_dec n 0) as [L|L].
  { unfold foldz. replace (Z.to_nat n) with 0%nat by lia. exact Ha. }
  revert H. pattern n. apply natlike_ind; auto. intros m Hm IH H.
  unfold Z.succ. rewrite foldz_S by auto. destruct (H m ltac:(lia)). apply fl_add_ok; [|now apply fl_mul_ok].
  apply IH. intros. apply H. lia.
Qed.

Lemma limit_ok x : fl_ok x -> fl_ok (limit x).
Proof. intros H. unfold limit. destruct (SFltb x _); [now apply byte_float|]. destruct (SFltb _ x); [now apply byte_float|auto]. Qed.

Lemma smooth_ok n K line p : (forall k, 0 <= k < n -> 0 <= K k < 4294967296 /\ fl_ok (line (p + k - n / 2))) -> fl_ok (smooth n K line p).
Proof.
  intros H. apply limit_ok. apply (fold_ok n (fun k => fl_of_bits (K k)) (fun k => line (p + k - n / 2))); [|now apply byte_float].
  intros k Hk. destruct (H k Hk). split; auto. now apply fl_of_bits_ok.
Qed.

Lemma centre_c b k ks len : 0 <= b < len -> 0 <= k < ks -> len + ks <= 2147483647 ->
  (b + k - ks / 2)%C = Some (b + k - ks / 2).
Proof.
  intros Hb Hk Hs. unfold ci. rewrite cadd_ok by lia. rewrite cdiv_ok; [|lia|rewrite Z.quot_div_nonneg by lia; lia].
  rewrite Z.quot_div_nonneg by lia. apply csub_ok. lia.
Qed.

Lemma cell_of a b C cn c t : 0 <= c < cn -> t = (a * C + b) * cn + c -> t / cn = a * C + b /\ t mod cn = c.
Proof. intros H ->. now apply radix2. Qed.

Lemma cell_bound R C cn i j : 0 <= i < R -> 0 <= j < C -> cn = 1 \/ cn = 3 -> 0 <= i * C + j /\ (i * C + j + 1) * cn <= R * C * cn.
Proof. intros Hi Hj Hc. assert (0 <= i * C + j < R * C) by nia. nia. Qed.

Lemma idx_0 R C cn i j : cn = 3 -> R * C * cn <= 2147483647 -> 0 <= i < R -> 0 <= j < C ->
  (i * C * cn + j * cn)%C = Some ((i * C + j) * cn + 0).
Proof.
  intros E Hni Hi Hj. pose proof (cell_bound R C cn i j Hi Hj (or_intror E)) as B. rewrite E in *.
  assert (0 <= i * C) by nia. unfold ci. rewrite (cmul_ok i C) by lia. rewrite (cmul_ok (i * C) 3), (cmul_ok j 3) by lia.
  rewrite cadd_ok by lia. f_equal. ring.
Qed.

(** ** The pass along the rows *)
Section Rows.
  Variables (s : st) (qt qk qs : nat) (R C cn ks ns ty : Z) (K fs ix : Z -> Z) (g : Z -> Z).
  Hypothesis (HR : 0 < R) (HC : 0 < C) (Hcn : cn = 1 \/ cn = 3) (Hks : 0 < ks).
  Hypothesis (Hn : R * C * cn <= ns) (Hni : R * C * cn <= 2147483647) (Ck : C + ks <= 2147483647).
  Hypothesis (T : arr s qt 0 4 (R * C * cn) g) (Kx : arr s qk 0 4 ks K) (S : isb s qs ns fs).
  Hypothesis (Nk : qk <> qt) (Ns : qs <> qt).
  Hypothesis G : good_index ty C (- (ks / 2)) (C + ks) ix.

  Let line (i c b : Z) : sf := fl_of_Z (fs ((i * C + ix b) * cn + c) mod 256).

  Lemma rows_step e s1 i j k x0 x1 x2 : 0 <= i < R -> 0 <= j < C -> 0 <= k < ks -> inside s qt 0 (R * C * cn * 4) s1 ->
    (a <- ev (j + k - ks / 2)%C ;;
     index <- border_index a C ty ;;
     w <- loadf (Some qk) k ;;
     if cn =? 1 then
       x <- ev (i * C + index)%C ;;
       v <- load8 (Some qs) x ;;
       ret (fl_add x0 (fl_mul w (fl_of_Z v)), x1, x2)
     else
       c0 <- ev (i * C * cn + index * cn)%C ;;
       v0 <- load8 (Some qs) c0 ;;
       c1 <- ev (i * C * cn + index * cn + 1)%C ;;
       v1 <- load8 (Some qs) c1 ;;
       c2 <- ev (i * C * cn + index * cn + 2)%C ;;
       v2 <- load8 (Some qs) c2 ;;
       ret (fl_add x0 (fl_mul w (fl_of_Z v0)), fl_add x1 (fl_mul w (fl_of_Z v1)),
            fl_add x2 (fl_mul w (fl_of_Z v2)))) e s1
    = Ret (fl_add x0 (fl_mul (fl_of_bits (K k)) (line i 0 (j + k - ks / 2))),
           (if cn =? 1 then x1 else fl_add x1 (fl_mul (fl_of_bits (K k)) (line i 1 (j + k - ks / 2)))),
           (if cn =? 1 then x2 else fl_add x2 (fl_mul (fl_of_bits (K k)) (line i 2 (j + k - ks / 2))))) s1.
  Proof.
    intros Hi Hj Hk I1.
    rewrite (bind_ret _ _ _ _ _ _ (ev_ok _ _ e s1 (centre_c j k ks C Hj Hk Ck))).
    destruct (G (j + k - ks / 2) ltac:(clear - Hj Hk; lia)) as [Rc Ec]. rewrite (bind_ret _ _ _ _ _ _ (Ec e s1)).
    rewrite (bind_ret _ _ _ _ _ _ (loadf_arr e s1 qk ks K k ltac:(eapply arr_inside; [exact I1|exact Kx|auto]) Hk)).
    pose proof (inside_old _ _ _ _ _ _ _ _ I1 Ns S) as S1. unfold line. set (b := ix _) in *. clearbody b.
    destruct Hcn as [E|E].
    - replace (cn =? 1) with true by lia.
      assert (EX : (i * C + b)%C = Some ((i * C + b) * cn + 0)).
      { rewrite E, Z.mul_1_r, Z.add_0_r. apply (idx2_c R); auto. rewrite E in Hni. clear - Hni; lia. }
      rewrite (bind_ret _ _ _ _ _ _ (ev_ok _ _ e s1 EX)).
      pose proof (pix_index R C cn i b 0 Hi Rc ltac:(clear - E; lia)) as B0.
      rewrite (bind_ret _ _ _ _ _ _ (load8_ok e s1 qs ns fs ((i * C + b) * cn + 0) S1 ltac:(clear - B0 Hn; lia))). reflexivity.
    - replace (cn =? 1) with false by lia.
      pose proof (pix_index R C cn i b 0 Hi Rc ltac:(clear - E; lia)) as B0.
      pose proof (pix_index R C cn i b 1 Hi Rc ltac:(clear - E; lia)) as B1.
      pose proof (pix_index R C cn i b 2 Hi Rc ltac:(clear - E; lia)) as B2.
      rewrite (bind_ret _ _ _ _ _ _ (ev_ok _ _ e s1 (idx_0 R C cn i b E Hni Hi Rc))).
      rewrite (bind_ret _ _ _ _ _ _ (load8_ok e s1 qs ns fs ((i * C + b) * cn + 0) S1 ltac:(clear - B0 Hn; lia))).
      rewrite (bind_ret _ _ _ _ _ _ (ev_ok _ _ e s1 (idx_c R C cn i b 1 Hi Rc ltac:(clear - E; lia) Hni))).
      rewrite (bind_ret _ _ _ _ _ _ (load8_ok e s1 qs ns fs ((i * C + b) * cn + 1) S1 ltac:(clear - B1 Hn; lia))).
      rewrite (bind_ret _ _ _ _ _ _ (ev_ok _ _ e s1 (idx_c R C cn i b 2 Hi Rc ltac:(clear - E; lia) Hni))).
      rewrite (bind_ret _ _ _ _ _ _ (load8_ok e s1 qs ns fs ((i * C + b) * cn + 2) S1 ltac:(clear - B2 Hn; lia))). reflexivity.
  Qed.

  Lemma rows_run e : exists s' g', for_ 0 R (fun i =>
    for_ 0 C (fun j =>
      sum <- forS 0 ks (fun k (sum : sf * sf * sf) =>
        let '(s0, s1, s2) := sum in
        a <- ev (j + k - ks / 2)%C ;;
        index <- border_index a C ty ;;
        w <- loadf (Some qk) k ;;
        if cn =? 1 then
          x <- ev (i * C + index)%C ;;
          v <- load8 (Some qs) x ;;
          ret (fl_add s0 (fl_mul w (fl_of_Z v)), s1, s2)
        else
          x0 <- ev (i * C * cn + index * cn)%C ;;
          v0 <- load8 (Some qs) x0 ;;
          x1 <- ev (i * C * cn + index * cn + 1)%C ;;
          v1 <- load8 (Some qs) x1 ;;
          x2 <- ev (i * C * cn + index * cn + 2)%C ;;
          v2 <- load8 (Some qs) x2 ;;
          ret (fl_add s0 (fl_mul w (fl_of_Z v0)), fl_add s1 (fl_mul w (fl_of_Z v1)),
               fl_add s2 (fl_mul w (fl_of_Z v2)))) (fl_of_Z 0, fl_of_Z 0, fl_of_Z 0) ;;
      let '(s0, s1, s2) := (sum : sf * sf * sf) in
      if cn =? 1 then
        k <- ev (i * C + j)%C ;;
        storef (Some qt) k (clamp_255 s0)
      else
        k0 <- ev (i * C * cn + j * cn + 0)%C ;;
        storef (Some qt) k0 (clamp_255 s0) ;;;
        k1 <- ev (i * C * cn + j * cn + 1)%C ;;
        storef (Some qt) k1 (clamp_255 s1) ;;;
        k2 <- ev (i * C * cn + j * cn + 2)%C ;;
        storef (Some qt) k2 (clamp_255 s2))) e s = Ret tt s'
    /\ arr s' qt 0 4 (R * C * cn) g' /\ inside s qt 0 (R * C * cn * 4) s'
    /\ forall i j c, 0 <= i < R -> 0 <= j < C -> 0 <= c < cn ->
         g' ((i * C + j) * cn + c) = fl_word (smooth ks K (line i c) j).
  Proof.
    match goal with |- exists s' g', for_ 0 R (fun i => for_ 0 C (@?body i)) e s = _ /\ _ =>
      destruct (cells_run e s qt 4 (R * C * cn) R C cn (fun i j => i * C + j)
        (fun i j c => fl_word (smooth ks K (line i c) j)) body) as (s' & g' & E & A & I & H)
    end; [lia|lia|lia|eauto| | |].
    - intros i j i' j' _ Hj _ Hj' Q. destruct (radix2 i j C Hj), (radix2 i' j' C Hj'). split; congruence.
    - intros i j s1 g1 Hi Hj I1 A1. cbv beta.
      rewrite (bind_ret _ _ _ _ _ _ (acc_run e s1 ks _
         (fun x k => fl_add x (fl_mul (fl_of_bits (K k)) (line i 0 (j + k - ks / 2))))
         (fun x k => if cn =? 1 then x else fl_add x (fl_mul (fl_of_bits (K k)) (line i 1 (j + k - ks / 2))))
         (fun x k => if cn =? 1 then x else fl_add x (fl_mul (fl_of_bits (K k)) (line i 2 (j + k - ks / 2))))
         (fl_of_Z 0) (fl_of_Z 0) (fl_of_Z 0) ltac:(lia)
         (fun k x0 x1 x2 Hk => rows_step e s1 i j k x0 x1 x2 Hi Hj Hk I1))).
      cbv beta iota.
      destruct (put_run e qt 4 (R * C * cn) cn (i * C + j) fl_word (storef (Some qt)) (fun c => smooth ks K (line i c) j) Hcn
        (cell_bound R C cn i j Hi Hj Hcn)) with (s := s1) (g := g1) (c1 := (i * C + j)%C)
        (c30 := (i * C * cn + j * cn + 0)%C) (c31 := (i * C * cn + j * cn + 1)%C) (c32 := (i * C * cn + j * cn + 2)%C)
        as (s2 & g2 & E2 & A2 & I2 & G2); [|exact A1| | |].
      + intros s0 t y g0 A0 Ht. apply storef_arr; auto.
      + intros E. apply (idx2_c R); auto. rewrite E in Hni. clear - Hni; lia.
      + intros E. split; [|split]; (apply (idx_c R); auto; lia).
      + exists s2, g2. split; [|auto]. destruct (cn =? 1); exact E2.
    - exists s', g'. split; [exact E|]. split; auto. split; auto. intros i j c Hi Hj Hc.
      destruct (cell_of i j C cn c _ Hc eq_refl) as [D1 D2]. rewrite (H i j); auto. now rewrite D2.
  Qed.
End Rows.

(** ** The pass along the columns *)
Section Cols.
  Variables (s : st) (qd qk qt : nat) (R C cn ks ty : Z) (K gt ix : Z -> Z) (g : Z -> Z).
  Hypothesis (HR : 0 < R) (HC : 0 < C) (Hcn : cn = 1 \/ cn = 3) (Hks : 0 < ks).
  Hypothesis (Hni : R * C * cn <= 2147483647) (Rk : R + ks <= 2147483647).
  Hypothesis (D : arr s qd 0 1 (R * C * cn) g) (Ky : arr s qk 0 4 ks K) (T : arr s qt 0 4 (R * C * cn) gt).
  Hypothesis (Nk : qk <> qd) (Nt : qt <> qd).
  Hypothesis G : good_index ty R (- (ks / 2)) (R + ks) ix.

  Let line (j c a : Z) : sf := fl_of_bits (gt ((ix a * C + j) * cn + c)).

  Lemma cols_step e s1 i j k x0 x1 x2 : 0 <= i < C -> 0 <= j < R -> 0 <= k < ks -> inside s qd 0 (R * C * cn * 1) s1 ->
    (a <- ev (j + k - ks / 2)%C ;;
     index <- border_index a R ty ;;
     w <- loadf (Some qk) k ;;
     if cn =? 1 then
       x <- ev (index * C + i)%C ;;
       v <- loadf (Some qt) x ;;
       ret (fl_add x0 (fl_mul w v), x1, x2)
     else
       c0 <- ev (index * C * cn + i * cn)%C ;;
       v0 <- loadf (Some qt) c0 ;;
       c1 <- ev (index * C * cn + i * cn + 1)%C ;;
       v1 <- loadf (Some qt) c1 ;;
       c2 <- ev (index * C * cn + i * cn + 2)%C ;;
       v2 <- loadf (Some qt) c2 ;;
       ret (fl_add x0 (fl_mul w v0), fl_add x1 (fl_mul w v1), fl_add x2 (fl_mul w v2))) e s1
    = Ret (fl_add x0 (fl_mul (fl_of_bits (K k)) (line i 0 (j + k - ks / 2))),
           (if cn =? 1 then x1 else fl_add x1 (fl_mul (fl_of_bits (K k)) (line i 1 (j + k - ks / 2)))),
           (if cn =? 1 then x2 else fl_add x2 (fl_mul (fl_of_bits (K k)) (line i 2 (j + k - ks / 2))))) s1.
  Proof.
    intros Hi Hj Hk I1.
    rewrite (bind_ret _ _ _ _ _ _ (ev_ok _ _ e s1 (centre_c j k ks R Hj Hk Rk))).
    destruct (G (j + k - ks / 2) ltac:(clear - Hj Hk; lia)) as [Rc Ec]. rewrite (bind_ret _ _ _ _ _ _ (Ec e s1)).
    rewrite (bind_ret _ _ _ _ _ _ (loadf_arr e s1 qk ks K k ltac:(eapply arr_inside; [exact I1|exact Ky|auto]) Hk)).
    assert (T1 : arr s1 qt 0 4 (R * C * cn) gt) by (eapply arr_inside; [exact I1|exact T|auto]).
    unfold line. set (b := ix _) in *. clearbody b.
    destruct Hcn as [E|E].
    - replace (cn =? 1) with true by lia.
      assert (EX : (b * C + i)%C = Some ((b * C + i) * cn + 0)).
      { rewrite E, Z.mul_1_r, Z.add_0_r. apply (idx2_c R); auto. rewrite E in Hni. clear - Hni; lia. }
      rewrite (bind_ret _ _ _ _ _ _ (ev_ok _ _ e s1 EX)).
      pose proof (pix_index R C cn b i 0 Rc Hi ltac:(clear - E; lia)) as B0.
      rewrite (bind_ret _ _ _ _ _ _ (loadf_arr e s1 qt _ gt _ T1 B0)). reflexivity.
    - replace (cn =? 1) with false by lia.
      pose proof (pix_index R C cn b i 0 Rc Hi ltac:(clear - E; lia)) as B0.
      pose proof (pix_index R C cn b i 1 Rc Hi ltac:(clear - E; lia)) as B1.
      pose proof (pix_index R C cn b i 2 Rc Hi ltac:(clear - E; lia)) as B2.
      rewrite (bind_ret _ _ _ _ _ _ (ev_ok _ _ e s1 (idx_0 R C cn b i E Hni Rc Hi))).
      rewrite (bind_ret _ _ _ _ _ _ (loadf_arr e s1 qt _ gt _ T1 B0)).
      rewrite (bind_ret _ _ _ _ _ _ (ev_ok _ _ e s1 (idx_c R C cn b i 1 Rc Hi ltac:(clear - E; lia) Hni))).
      rewrite (bind_ret _ _ _ _ _ _ (loadf_arr e s1 qt _ gt _ T1 B1)).
      rewrite (bind_ret _ _ _ _ _ _ (ev_ok _ _ e s1 (idx_c R C cn b i 2 Rc Hi ltac:(clear - E; lia) Hni))).
      rewrite (bind_ret _ _ _ _ _ _ (loadf_arr e s1 qt _ gt _ T1 B2)). reflexivity.
  Qed.

  Lemma cols_run e : exists s' g', for_ 0 C (fun i =>
    for_ 0 R (fun j =>
      sum <- forS 0 ks (fun k (sum : sf * sf * sf) =>
        let '(s0, s1, s2) := sum in
        a <- ev (j + k - ks / 2)%C ;;
        index <- border_index a R ty ;;
        w <- loadf (Some qk) k ;;
        if cn =? 1 then
          x <- ev (index * C + i)%C ;;
          v <- loadf (Some qt) x ;;
          ret (fl_add s0 (fl_mul w v), s1, s2)
        else
          x0 <- ev (index * C * cn + i * cn)%C ;;
          v0 <- loadf (Some qt) x0 ;;
          x1 <- ev (index * C * cn + i * cn + 1)%C ;;
          v1 <- loadf (Some qt) x1 ;;
          x2 <- ev (index * C * cn + i * cn + 2)%C ;;
          v2 <- loadf (Some qt) x2 ;;
          ret (fl_add s0 (fl_mul w v0), fl_add s1 (fl_mul w v1), fl_add s2 (fl_mul w v2)))
        (fl_of_Z 0, fl_of_Z 0, fl_of_Z 0) ;;
      let '(s0, s1, s2) := (sum : sf * sf * sf) in
      if cn =? 1 then
        k <- ev (j * C + i)%C ;;
        store8 (Some qd) k (saturate_cast_float2uchar (clamp_255 s0))
      else
        k0 <- ev (j * C * cn + i * cn)%C ;;
        store8 (Some qd) k0 (saturate_cast_float2uchar (clamp_255 s0)) ;;;
        k1 <- ev (j * C * cn + i * cn + 1)%C ;;
        store8 (Some qd) k1 (saturate_cast_float2uchar (clamp_255 s1)) ;;;
        k2 <- ev (j * C * cn + i * cn + 2)%C ;;
        store8 (Some qd) k2 (saturate_cast_float2uchar (clamp_255 s2)))) e s = Ret tt s'
    /\ arr s' qd 0 1 (R * C * cn) g' /\ inside s qd 0 (R * C * cn * 1) s'
    /\ forall i j c, 0 <= i < R -> 0 <= j < C -> 0 <= c < cn ->
         g' ((i * C + j) * cn + c) = saturate_cast_float2uchar (smooth ks K (line j c) i) mod 256.
  Proof.
    match goal with |- exists s' g', for_ 0 C (fun i => for_ 0 R (@?body i)) e s = _ /\ _ =>
      destruct (cells_run e s qd 1 (R * C * cn) C R cn (fun i j => j * C + i)
        (fun i j c => saturate_cast_float2uchar (smooth ks K (line i c) j) mod 256) body) as (s' & g' & E & A & I & H)
    end; [lia|lia|lia|eauto| | |].
    - intros i j i' j' Hi _ Hi' _ Q. destruct (radix2 j i C Hi), (radix2 j' i' C Hi'). split; congruence.
    - intros i j s1 g1 Hi Hj I1 A1. cbv beta.
      rewrite (bind_ret _ _ _ _ _ _ (acc_run e s1 ks _
         (fun x k => fl_add x (fl_mul (fl_of_bits (K k)) (line i 0 (j + k - ks / 2))))
         (fun x k => if cn =? 1 then x else fl_add x (fl_mul (fl_of_bits (K k)) (line i 1 (j + k - ks / 2))))
         (fun x k => if cn =? 1 then x else fl_add x (fl_mul (fl_of_bits (K k)) (line i 2 (j + k - ks / 2))))
         (fl_of_Z 0) (fl_of_Z 0) (fl_of_Z 0) ltac:(lia)
         (fun k x0 x1 x2 Hk => cols_step e s1 i j k x0 x1 x2 Hi Hj Hk I1))).
      cbv beta iota.
      destruct (put_run e qd 1 (R * C * cn) cn (j * C + i) (fun y => saturate_cast_float2uchar y mod 256)
        (fun t y => store8 (Some qd) t (saturate_cast_float2uchar y)) (fun c => smooth ks K (line i c) j) Hcn
        (cell_bound R C cn j i Hj Hi Hcn)) with (s := s1) (g := g1) (c1 := (j * C + i)%C)
        (c30 := (j * C * cn + i * cn)%C) (c31 := (j * C * cn + i * cn + 1)%C) (c32 := (j * C * cn + i * cn + 2)%C)
        as (s2 & g2 & E2 & A2 & I2 & G2); [|exact A1| | |].
      + intros s0 t y g0 A0 Ht. apply store8_arr; auto.
      + intros E. apply (idx2_c R); auto. rewrite E in Hni. clear - Hni; lia.
      + intros E. split; [apply (idx_0 R); auto|]. split; (apply (idx_c R); auto; lia).
      + exists s2, g2. split; [|auto]. destruct (cn =? 1); exact E2.
    - exists s', g'. split; [exact E|]. split; auto. split; auto. intros i j c Hi Hj Hc.
      destruct (cell_of i j C cn c _ Hc eq_refl) as [D1 D2]. rewrite (H j i); auto. now rewrite D2.
  Qed.
End Cols.

(** ** The whole function *)
Lemma rounds_sat x : fl_ok x -> shown_as x (saturate_cast_float2uchar x mod 256).
Proof.
  intros V n z Hn Hz. rewrite (saturate_ok x n z V Hn Hz). apply Z.mod_small. unfold clamp. lia.
Qed.

Lemma smooth_ext n K K' l l' p : (forall k, 0 <= k < n -> K k = K' k /\ l (p + k - n / 2) = l' (p + k - n / 2)) ->
  smooth n K l p = smooth n K' l' p.
Proof.
  intros H. unfold smooth. f_equal. apply foldz_ext. intros a k Hk. destruct (H k Hk) as [-> ->]. reflexivity.
Qed.

Lemma blur_run e s src dst kx ky ms md mx my KX KY P ty ixr ixc :
  env_ok e -> heap_ok s ->
  image s src ms 1 -> image s dst md 1 -> sm_rows md = sm_rows ms -> sm_cols md = sm_cols ms -> sm_chan md = sm_chan ms ->
  sm_chan ms = 1 \/ sm_chan ms = 3 -> colours s ms P ->
  sm_rows ms * sm_cols ms * 4 * sm_chan ms + 96 <= 2147483647 ->
  sm_at s kx = Some mx -> sm_at s ky = Some my -> 0 < sm_cols mx -> 0 < sm_cols my ->
  matrix s (sm_data mx) 4 1 (sm_cols mx) (fun _ => KX) -> matrix s (sm_data my) 4 1 (sm_cols my) (fun _ => KY) ->
  sm_data my <> sm_data md ->
  sm_cols ms + sm_cols mx <= 2147483647 -> sm_rows ms + sm_cols my <= 2147483647 -> border_mode ty = true ->
  good_index ty (sm_rows ms) (- (sm_cols my / 2)) (sm_rows ms + sm_cols my) ixr ->
  good_index ty (sm_cols ms) (- (sm_cols mx / 2)) (sm_cols ms + sm_cols mx) ixc ->
  exists s', hypercv_gaussian_blur_with_kernel src dst kx ky ty e s = Ret tt s'
    /\ smoothed s md (smooth2 (sm_cols mx) (sm_cols my) KX KY ixr ixc P) s' /\ ~ no_leak s s'.
Proof.
  intros He Hs Is Id ER EC Ech Hcn G Hsz Hx Hy Hkw Hkh MX MY Ny Ck Rk Bm Gr Gc.
  destruct (image_pixels _ _ _ Is) as (qs & ns & fs & Ps). destruct (image_pixels _ _ _ Id) as (qd & nd & fd & Pd).
  pose proof (colours_value s ms qs ns fs P) as CV.
  pose proof Ps as [Ds Bs HR HC Hch Hns Hmax]. pose proof Pd as [Dd Bd _ _ _ Hnd _].
  pose proof (im_hdr _ _ _ _ Is) as Hs0. pose proof (im_hdr _ _ _ _ Id) as Hd0.
  rewrite ER, EC, Ech in Hnd.
  destruct (matrix_arr _ _ 4 1 (sm_cols mx) _ ltac:(lia) ltac:(lia) Hkw MX) as (qx & Dx & AX).
  destruct (matrix_arr _ _ 4 1 (sm_cols my) _ ltac:(lia) ltac:(lia) Hkh MY) as (qy & Dy & AY).
  rewrite Z.mul_1_l in AX, AY. cbv beta in AX, AY.
  set (R := sm_rows ms) in *. set (C := sm_cols ms) in *. set (cn := sm_chan ms) in *.
  set (kw := sm_cols mx) in *. set (kh := sm_cols my) in *.
  assert (Hall : 0 < R * C * cn) by (clear - HR HC Hch; apply Z.mul_pos_pos; [apply Z.mul_pos_pos|]; auto).
  assert (Hni : R * C * cn <= 2147483647) by (clear - Hmax; lia).
  destruct (create_sm_run e s R C 4 4 cn He Hs eq_refl HR HC Hch Hsz) as (dd & EN & _ & _).
  set (k := List.length (objs s)) in *. set (s1 := newsm e s R C 4 4 cn dd) in *.
  assert (T0 : exists g, arr s1 (k + 1) 0 4 (R * C * cn) g).
  { eexists. refine (arr_of s1 (k + 1) _ dd 0 4 (R * C * cn) (newsm_data e s R C 4 4 cn dd) _ _ _); lia. }
  destruct T0 as [gt0 T0].
  assert (ISB : forall q n f, isb s q n f -> isb s1 q n f /\ (k + 1)%nat <> q).
  { intros q n f Hq. split; [now apply newsm_old|]. intros <-.
    apply isb_obj in Hq as (a & r & Hq). assert (nth_error (objs s) (k + 1) = None) by (apply nth_error_None; unfold k; lia). congruence. }
  assert (ARR : forall q es n g, arr s q 0 es n g -> arr s1 q 0 es n g /\ (k + 1)%nat <> q).
  { intros q es n g (M & d & Hq & Hrest). destruct (ISB _ _ _ Hq) as [I1 I2]. split; auto. exists M, d. split; auto. }
  destruct (ARR _ _ _ _ AX) as [AX1 NX]. destruct (ARR _ _ _ _ AY) as [AY1 NY].
  destruct (ISB _ _ _ Bs) as [Bs1 Nqs]. destruct (ISB _ _ _ Bd) as [Bd1 Nqd].
  unfold hypercv_gaussian_blur_with_kernel. destruct src as [ps|]; [|discriminate]. destruct dst as [pd|]; [|discriminate].
  rewrite (bind_ret _ _ _ _ _ _ (sget_ok _ _ e s Hx)). rewrite (bind_ret _ _ _ _ _ _ (sget_ok _ _ e s Hy)). cbv zeta.
  fold kw kh. rewrite bind_assert by reflexivity. rewrite bind_assert by (clear - Hkw; lia). rewrite bind_assert by (clear - Hkh; lia).
  rewrite bind_assert by exact Bm.
  rewrite (bind_ret _ _ _ _ _ _ (sget_ok _ _ e s Hs0)). fold R C cn.
  rewrite bind_assert by (clear - Hcn; lia). cbn [nonnull].
  rewrite (bind_ret _ _ _ _ _ _ (eq_refl : ret (Some pd) e s = Ret (Some pd) s)).
  rewrite (bind_ret _ _ _ _ _ _ (sget_ok _ _ e s Hd0)). rewrite (bind_ret _ _ _ _ _ _ EN).
  rewrite (bind_ret _ _ _ _ _ _ (sget_ok _ _ e s1 (newsm_at e s R C 4 4 cn dd))).
  cbn [newsm_hdr sm_cols sm_data]. fold k. rewrite Ds, Dx, Dy, Dd. rewrite EC. fold C.
  destruct (rows_run s1 (k + 1) qx qs R C cn kw ns ty (fun t => KX (t mod kw)) fs ixc gt0) with (e := e)
    as (s2 & gt & E2 & A2 & I2 & G2); auto.
  rewrite (bind_ret _ _ _ _ _ _ E2). clear E2.
  assert (Bd2 : isb s2 qd nd fd) by (eapply inside_old; [exact I2|auto|exact Bd1]).
  assert (D2 : arr s2 qd 0 1 (R * C * cn) (fun i => word fd (0 + i * 1) (Z.to_nat 1))).
  { apply (arr_of s2 qd nd fd); auto; lia. }
  destruct (cols_run s2 qd qy (k + 1) R C cn kh ty (fun t => KY (t mod kh)) gt ixr (fun i => word fd (0 + i * 1) (Z.to_nat 1))) with (e := e)
    as (s3 & gd & E3 & A3 & I3 & G3); auto; [eapply arr_inside; [exact I2|exact AY1|auto]|congruence|].
  exists s3. split; [exact E3|]. clear E3.
  assert (OLD : old_unchanged s s1) by apply newsm_old_unchanged.
  pose proof I2 as (M2 & d2 & d2' & _ & S2 & _). pose proof I3 as (M3 & d3 & d3' & H3 & S3 & O3).
  assert (d3 = fd /\ M3 = nd) as [-> ->].
  { unfold isb in H3, Bd2. rewrite Bd2 in H3. injection H3 as -> ->. auto. }
  split.
  - split; [|split; [|split]].
    + intros i j c (Hi & Hj & Hc). rewrite ER in Hi. rewrite EC in Hj. rewrite Ech in Hc. fold R in Hi. fold C in Hj. fold cn in Hc.
      exists (saturate_cast_float2uchar (smooth kh (fun t => KY (t mod kh)) (fun a => fl_of_bits (gt ((ixr a * C + j) * cn + c))) i) mod 256). split.
      * unfold pix, pixel_byte. rewrite EC, Ech, Dd, Z.mul_1_r, Z.add_0_r. fold C cn.
        pose proof (pix_index R C cn i j c Hi Hj Hc) as PI.
        pose proof (arr_word s3 qd 0 1 (R * C * cn) gd _ A3 PI) as W. rewrite (G3 i j c Hi Hj Hc) in W.
        rewrite Z.mul_1_r, Z.add_0_l in W. change (Z.to_nat 1) with 1%nat in W. cbn [word_at] in W.
        destruct (byte_at s3 (Some qd) ((i * C + j) * cn + c)) as [b|]; [|discriminate]. injection W as W.
        f_equal. rewrite <- W. lia.
      * assert (EQ : smooth kh (fun t => KY (t mod kh)) (fun a => fl_of_bits (gt ((ixr a * C + j) * cn + c))) i
                   = smooth2 kw kh KX KY ixr ixc P c i j).
        { unfold smooth2. apply smooth_ext. intros h Hh. rewrite Z.mod_small by auto. split; auto.
          destruct (Gr (i + h - kh / 2) ltac:(clear - Hi Hh; lia)) as [Rr _].
          rewrite (G2 _ j c Rr Hj Hc). rewrite fl_word_back.
          - apply smooth_ext. intros w Hw. rewrite Z.mod_small by auto. split; auto.
            destruct (Gc (j + w - kw / 2) ltac:(clear - Hj Hw; lia)) as [Rc _].
            f_equal. apply CV; auto. split; [exact Rr|]. split; [exact Rc|exact Hc].
          - apply smooth_ok. intros w Hw. split; [|apply byte_float; apply Z.mod_pos_bound; lia].
            exact (arr_range _ _ _ _ _ _ w AX Hw). }
        rewrite <- EQ. apply rounds_sat. apply smooth_ok. intros h Hh. split; [exact (arr_range _ _ _ _ _ _ h AY Hh)|].
        destruct (Gr (i + h - kh / 2) ltac:(clear - Hi Hh; lia)) as [Rr _].
        apply fl_of_bits_ok. exact (arr_range _ _ _ _ _ _ _ A2 (pix_index R C cn _ j c Rr Hj Hc)).
    + intros x Hx'. rewrite ER, EC, Ech in Hx'. fold R C cn in Hx'. rewrite Dd. rewrite S3.
      unfold byte_at. rewrite (isb_putd_eq _ _ _ _ d3' H3 : bytes_at _ (Some qd) = _). rewrite (Bd : bytes_at s (Some qd) = _).
      rewrite O3; auto. rewrite Z.mul_1_r. exact Hx'.
    + intros q Hq Hn. assert (q <> qd) by (intros ->; apply Hn; rewrite Dd; now left).
      rewrite S3, objs_putd_ne by auto. rewrite S2, objs_putd_ne by (unfold k; lia). now apply OLD.
    + rewrite S3, S2. reflexivity.
  - intros L. assert (nth_error (objs s3) k = nth_error (objs s1) k) as Q.
    { assert (k <> qd). { intros <-. apply isb_obj in Bd as (a & r & Bd'). assert (nth_error (objs s) k = None) by (apply nth_error_None; unfold k; lia). congruence. }
      rewrite S3, objs_putd_ne by auto. rewrite S2, objs_putd_ne by lia. reflexivity. }
    unfold s1, newsm in Q. cbn [objs] in Q. rewrite nth_error_app2 in Q by (unfold k; lia). fold k in Q. rewrite Nat.sub_diag in Q. cbn in Q.
    specialize (L k _ (le_n _) Q). discriminate.
Qed.
