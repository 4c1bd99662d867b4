(** * Proofs: rotation. *)
From Verif Require Import Base Logic ModelCore ModelFloat ModelDouble ModelImage ModelGeom SpecBase SpecNum SpecGeom.
From Verif Require Import ProofCore ProofLayout ProofHM ProofCore2 ProofFloat ProofFloat2 ProofConv ProofGrad ProofStat.
From Coq Require Import Floats.SpecFloat String Lia ZifyBool ZifyNat.
Open Scope Z_scope.

Notation dint := (isint 53 1024).

Lemma dint_Z z : Z.abs z <= 9007199254740992 -> dint (db_of_Z z) z.
Proof. intros H. destruct (db_of_Z_ok z H). split; auto. Qed.
Lemma dint_add x y a b : dint x a -> dint y b -> Z.abs (a + b) <= 9007199254740992 -> dint (db_add x y) (a + b).
Proof. intros. apply (add_int 53 1024); auto; lia. Qed.
Lemma dint_sub x y a b : dint x a -> dint y b -> Z.abs (a - b) <= 9007199254740992 -> dint (db_sub x y) (a - b).
Proof. intros. apply (sub_int 53 1024); auto; lia. Qed.
Lemma dint_mul x y a b : dint x a -> dint y b -> Z.abs (a * b) <= 9007199254740992 -> dint (db_mul x y) (a * b).
Proof. intros. apply (mul_int 53 1024); auto; lia. Qed.
Lemma fint_sub x y a b : fint x a -> fint y b -> Z.abs (a - b) <= 16777216 -> fint (fl_sub x y) (a - b).
Proof. intros. apply (sub_int 24 128); auto; lia. Qed.

Lemma dint_trunc x z : dint x z -> -2147483648 <= z <= 2147483647 -> int_of_sf x = Some z.
Proof.
  intros [V N] H. unfold int_of_sf. rewrite (db_trunc x _ V N). rewrite Z.quot_mul by (pose proof sf_one_pos; lia). now apply chk_ok.
Qed.
Lemma fint_trunc x z : fint x z -> -2147483648 <= z <= 2147483647 -> int_of_sf x = Some z.
Proof.
  intros [V N] H. unfold int_of_sf. rewrite (fl_trunc x _ V N). rewrite Z.quot_mul by (pose proof sf_one_pos; lia). now apply chk_ok.
Qed.

Lemma dint_abs x z : dint x z -> dint (SFabs x) (Z.abs z).
Proof.
  intros [V N]. split; [destruct x; exact V|]. pose proof sf_one_pos as O1.
  destruct x as [s|s| |s m e]; cbn [SFabs sf_num] in *; try discriminate.
  - injection N as N. assert (z = 0) by nia. subst. reflexivity.
  - assert (E : cond_Zopp s (Zpos m) * 2 ^ (e + 1074) = z * sf_one) by congruence. f_equal. cbn [cond_Zopp].
    assert (0 <= 2 ^ (e + 1074)) by (apply Z.pow_nonneg; lia). generalize dependent (2 ^ (e + 1074)). intros P N E HP. destruct s; cbn [cond_Zopp] in E; nia.
Qed.

Lemma fint_dist x y a b : fint x a -> fint y b -> Z.abs (a - b) <= 16777216 -> fint (fl_dist x y) (Z.abs (a - b)).
Proof.
  intros X Y H. unfold fl_dist. destruct (fint_sub _ _ _ _ X Y H) as [V N]. destruct (db_of_fl_ok _ V) as [V' N'].
  apply fl_of_db_int; [|lia]. apply dint_abs. split; auto. now rewrite N'.
Qed.

Theorem rotate_zero cos_ sin_ e s p m es : env_ok e -> heap_ok s -> cube s p m BIP es ->
  cos_ (db_of_Z 0) = db_of_Z 1 -> sin_ (db_of_Z 0) = db_of_Z 0 ->
  let w := 2 * ((hm_samples m + 1) / 2) in let h := 2 * ((hm_lines m + 1) / 2) in
  w <= 16777216 -> h <= 16777216 -> w * h * hm_bands m * es <= 2147483647 ->
  exists p' s', hyper_mat_rotate cos_ sin_ p (db_of_Z 0) e s = Ret p' s' /\ padded_copy s m es w h p' s'.
Proof.
  intros He Hs Cb Hcos Hsin w h Hw Hh Hsz. destruct Cb as [Hh0 Htag Hpad Hty HS HL HB Hsize Hwsz Hdata Hwave].
  set (S := hm_samples m) in *. set (L := hm_lines m) in *. set (B := hm_bands m) in *.
  set (w2 := (S + 1) / 2) in *. set (h2 := (L + 1) / 2) in *.
  assert (Bw : 1 <= w2 /\ S <= w) by (clear - HS; unfold w, w2; Z.div_mod_to_equations; lia).
  assert (Bh : 1 <= h2 /\ L <= h) by (clear - HL; unfold h, h2; Z.div_mod_to_equations; lia).
  pose proof (type_size_range _ _ Hty) as Hes. pose proof (type_size_elemsize _ _ Hty) as Ges.
  assert (Htg : tag_of BIP = [98; 105; 112]) by reflexivity. rewrite Htg in Htag.
  destruct (create_hm_run e s w h B (hm_type m) es 98 105 112 [] None (hm_wave m)) as (dd & dw & EN & A1 & A2); auto; try lia.
  set (k := List.length (objs s)) in *.
  fold (newhm e s w h B (hm_type m) es [98; 105; 112] dd dw) in EN.
  set (s1 := newhm e s w h B (hm_type m) es [98; 105; 112] dd dw) in *.
  assert (Hm1 : hm_at s1 p = Some m).
  { destruct p as [q|]; [|discriminate]. rewrite <- Hh0. unfold hm_at. 
    unfold s1. rewrite newhm_old_nth; auto. apply nth_error_Some. unfold hm_at in Hh0. destruct (nth_error (objs s) q); [discriminate|discriminate Hh0]. }
  destruct (readable_isb _ _ _ Hdata) as (qs & ns & fs & Dm & Is & Ns).
  assert (Is1 : isb s1 qs ns fs) by now apply newhm_old.
  assert (Ne : qs <> (k + 1)%nat) by (eapply isb_old_ne; eauto).
  pose proof (newhm_data e s w h B (hm_type m) es [98; 105; 112] dd dw) as Id. fold k s1 in Id.
  assert (BB : B * es <= S * L * B * es /\ 0 < B * es) by (clear - HS HL HB Hes; assert (0 < B * es) by nia; assert (1 <= S * L) by nia; nia).
  set (bs := B * es) in *.
  assert (Esz : S * L * B * es = S * L * bs) by (unfold bs; ring). assert (Ewz : w * h * B * es = w * h * bs) by (unfold bs; ring).
  set (spec := fun x => fs (x / (w * bs) * (S * bs) + x mod (w * bs)) mod 256).
  set (bodyF := fun i j =>
      x <- ev (int_of_sf (db_add (db_add (db_mul (db_of_Z i) (db_of_Z 1)) (db_mul (db_of_Z j) (db_of_Z 0))) (db_of_Z 0))) ;;
      y <- ev (int_of_sf (db_add (db_sub (db_mul (db_of_Z j) (db_of_Z 1)) (db_mul (db_of_Z i) (db_of_Z 0))) (db_of_Z 0))) ;;
      dstOft <- ev ((x * w + y) * B * es)%C ;;
      srcOft <- ev ((i * S + j) * B * es)%C ;;
      n <- ev (B * es)%C ;;
      memcpy (Some (k + 1)%nat) dstOft (hm_data m) srcOft n).
  assert (W : wr e s1 (k + 1) (for_ 0 L (fun i => for_ 0 S (bodyF i)))
     (fun x => exists i, 0 <= i < L /\ exists j, 0 <= j < S /\ (i * w + j) * bs <= x < (i * w + j) * bs + bs) spec).
  { apply wr_for. intros i Hi. apply wr_for. intros j Hj. unfold bodyF.
    assert (Zi : dint (db_of_Z i) i) by (apply dint_Z; lia). assert (Zj : dint (db_of_Z j) j) by (apply dint_Z; lia).
    assert (Z0 : dint (db_of_Z 0) 0) by (apply dint_Z; lia). assert (Z1 : dint (db_of_Z 1) 1) by (apply dint_Z; lia).
    eapply wr_bind.
    { apply rdv_ev. apply (dint_trunc _ (i * 1 + j * 0 + 0)); [|lia].
      apply dint_add; [apply dint_add; [apply dint_mul|apply dint_mul|]|auto|]; auto; lia. }
    eapply wr_bind.
    { apply rdv_ev. apply (dint_trunc _ (j * 1 - i * 0 + 0)); [|lia].
      apply dint_add; [apply dint_sub; [apply dint_mul|apply dint_mul|]|auto|]; auto; lia. }
    replace (i * 1 + j * 0 + 0) with i by ring. replace (j * 1 - i * 0 + 0) with j by ring.
    assert (D1 : 0 <= i * w + j /\ (i * w + j) * bs + bs <= w * h * bs).
    { clear - Hi Hj Bw Bh BB HS. assert (0 <= i * w) by nia. assert (i * w + j + 1 <= w * h) by nia. split; nia. }
    assert (D2 : 0 <= i * S + j /\ (i * S + j) * bs + bs <= S * L * bs).
    { clear - Hi Hj BB. assert (0 <= i * S) by nia. assert (i * S + j + 1 <= S * L) by nia. split; nia. }
    assert (M1 : forall a, 0 <= a -> a * bs + bs <= 2147483647 -> a * B * es = a * bs /\ a * B <= 2147483647 /\ a <= 2147483647).
    { clear - HB Hes BB. intros a Ha Hab. assert (a * B * es = a * bs) by (unfold bs; ring). assert (0 <= a * B) by nia. split; auto. split; nia. }
    destruct (M1 (i * w + j) ltac:(lia) ltac:(lia)) as (E1 & E2 & E3). destruct (M1 (i * S + j) ltac:(lia) ltac:(lia)) as (F1 & F2 & F3).
    assert (Iw : 0 <= i * w /\ 0 <= i * S /\ i * S <= i * w) by (clear - Hi Bw HS; nia).
    assert (Nn : 0 <= (i * w + j) * B /\ 0 <= (i * S + j) * B /\ 0 <= (i * w + j) * bs /\ 0 <= (i * S + j) * bs) by (clear - D1 D2 HB BB; nia).
    eapply wr_bind.
    { apply rdv_ev. unfold ci. rewrite (cmul_ok i w), (cadd_ok (i * w) j), (cmul_ok (i * w + j) B) by lia. apply cmul_ok. lia. }
    eapply wr_bind.
    { apply rdv_ev. unfold ci. rewrite (cmul_ok i S), (cadd_ok (i * S) j), (cmul_ok (i * S + j) B) by lia. apply cmul_ok. lia. }
    eapply wr_bind; [apply rdv_ev; unfold ci; apply cmul_ok; fold bs; lia|]. fold bs. rewrite E1, F1, Dm.
    eapply wr_memcpy; [exact Id|exact Is1|exact Ne| | | | | |]; try lia.
    intros x Hx. unfold spec. f_equal. f_equal.
    assert (Hr : 0 <= j * bs + (x - (i * w + j) * bs) < w * bs) by (clear - Hx Hj Bw BB; nia).
    assert (Ex : x = w * bs * i + (j * bs + (x - (i * w + j) * bs))) by ring.
    assert (Q1 : x / (w * bs) = i) by (symmetry; apply (Z.div_unique x (w * bs) i (j * bs + (x - (i * w + j) * bs))); auto).
    assert (Q2 : x mod (w * bs) = j * bs + (x - (i * w + j) * bs)) by (symmetry; apply (Z.mod_unique x (w * bs) i (j * bs + (x - (i * w + j) * bs))); auto).
    rewrite Q1, Q2. ring. }
  destruct (wr_run _ _ _ _ _ _ _ _ Id W) as (f & X & A & Bo). cbv beta in A, Bo. clear W.
  assert (X2 : putd s1 (k + 1) f = newhm e s w h B (hm_type m) es [98; 105; 112] f dw) by (unfold s1, k; apply newhm_putd1).
  rewrite X2 in X. clear X2. set (s2 := newhm e s w h B (hm_type m) es [98; 105; 112] f dw) in *.
  exists (Some k), s2. split.
  - unfold hyper_mat_rotate. runs (hget_ok _ _ e _ Hh0).
    rewrite (bind_ret _ _ _ _ _ _ (il_cmp_bip m BIP e s Htag Hpad)). change (1 =? 1) with true. cbv iota.
    rewrite (bind_ret _ _ _ _ _ _ (eq_refl : ret tt e s = Ret tt s)). cbv zeta.
    assert (TH : db_div (db_mul (db_of_Z 0) PI_db) (db_of_Z 180) = db_of_Z 0) by (vm_compute; reflexivity). rewrite TH, Hcos, Hsin.
    runs (hget_ok _ _ e _ Hh0). fold S L B.
    assert (HF : forall n, 0 < n <= 16777216 -> ((n + 1) / 2)%C = Some ((n + 1) / 2)).
    { intros n Hn. unfold ci. rewrite (cadd_ok n 1) by lia. rewrite cdiv_ok by (rewrite ?Z.quot_div_nonneg by lia; Z.div_mod_to_equations; lia).
      f_equal. rewrite Z.quot_div_nonneg by lia. reflexivity. }
    runs (ev_ok _ _ e s (HF L ltac:(lia))). fold h2. runs (ev_ok _ _ e s (HF S ltac:(lia))). fold w2.
    assert (N0 : forall n, 0 < n <= 16777216 -> (0 - n)%C = Some (- n)) by (intros n Hn; unfold ci; rewrite csub_ok by lia; reflexivity).
    runs (ev_ok _ _ e s (N0 w2 ltac:(unfold w in *; lia))). runs (ev_ok _ _ e s (N0 h2 ltac:(unfold h in *; lia))).
    assert (P : forall n, Z.abs n <= 16777216 -> dint (db_mul (db_of_Z n) (db_of_Z 1)) n).
    { intros n Hn. replace n with (n * 1) at 2 by ring. apply dint_mul; [apply dint_Z|apply dint_Z|]; lia. }
    assert (Q : forall n, Z.abs n <= 16777216 -> dint (db_mul (db_of_Z n) (db_of_Z 0)) 0).
    { intros n Hn. replace 0 with (n * 0) by ring. apply dint_mul; [apply dint_Z|rewrite Z.mul_0_r; apply dint_Z|]; lia. }
    pose proof (P w2 ltac:(unfold w in *; lia)) as Pw. pose proof (P h2 ltac:(unfold h in *; lia)) as Ph.
    pose proof (P (- w2) ltac:(unfold w in *; lia)) as Pnw. pose proof (P (- h2) ltac:(unfold h in *; lia)) as Pnh.
    pose proof (Q w2 ltac:(unfold w in *; lia)) as Qw. pose proof (Q h2 ltac:(unfold h in *; lia)) as Qh.
    assert (SUB : forall x y a, dint x a -> dint y 0 -> Z.abs a <= 16777216 -> fint (fl_of_db (db_sub x y)) a).
    { intros x y a Hx Hy Ha. apply fl_of_db_int; auto. replace a with (a - 0) by ring. apply dint_sub; auto; lia. }
    assert (ADD : forall x y a, dint x a -> dint y 0 -> Z.abs a <= 16777216 -> fint (fl_of_db (db_add x y)) a).
    { intros x y a Hx Hy Ha. apply fl_of_db_int; auto. replace a with (a + 0) by ring. apply dint_add; auto; lia. }
    assert (W2 : 0 < w2 /\ w2 + w2 <= 16777216 /\ 0 < h2 /\ h2 + h2 <= 16777216) by (unfold w, h in *; lia).
    pose proof (SUB _ _ _ Pnw Qh ltac:(lia)) as x0. pose proof (ADD _ _ _ Pnh Qw ltac:(lia)) as y0.
    pose proof (SUB _ _ _ Pw Qh ltac:(lia)) as x1. pose proof (SUB _ _ _ Pnh Qw ltac:(lia)) as y1.
    pose proof (ADD _ _ _ Pw Qh ltac:(lia)) as x2. pose proof (SUB _ _ _ Ph Qw ltac:(lia)) as y2.
    pose proof (ADD _ _ _ Pnw Qh ltac:(lia)) as x3. pose proof (ADD _ _ _ Ph Qw ltac:(lia)) as y3.
    assert (MX : forall a b z, fint a z -> fint b z -> Z.abs z <= 16777216 -> int_of_sf (if SFltb b a then a else b) = Some z).
    { intros a b z Ha Hb Hz. destruct (SFltb b a); apply fint_trunc; auto; lia. }
    match goal with |- context [ev (int_of_sf (if SFltb (fl_dist ?a ?b) (fl_dist ?c ?d) then _ else _))] =>
      assert (EW : int_of_sf (if SFltb (fl_dist a b) (fl_dist c d) then fl_dist c d else fl_dist a b) = Some w) end.
    { apply MX; [| |lia].
      - replace w with (Z.abs (w2 - - w2)) by (unfold w; lia). apply fint_dist; auto; lia.
      - replace w with (Z.abs (- w2 - w2)) by (unfold w; lia). apply fint_dist; auto; lia. }
    runs (ev_ok _ _ e s EW). clear EW.
    match goal with |- context [ev (int_of_sf (if SFltb (fl_dist ?a ?b) (fl_dist ?c ?d) then _ else _))] =>
      assert (EW : int_of_sf (if SFltb (fl_dist a b) (fl_dist c d) then fl_dist c d else fl_dist a b) = Some h) end.
    { apply MX; [| |lia].
      - replace h with (Z.abs (h2 - - h2)) by (unfold h; lia). apply fint_dist; auto; lia.
      - replace h with (Z.abs (h2 - - h2)) by (unfold h; lia). apply fint_dist; auto; lia. }
    runs (ev_ok _ _ e s EW). clear EW. rewrite Htag. runs EN.
    assert (HW : w / 2 = w2 /\ h / 2 = h2) by (clear; unfold w, h; split; rewrite Z.mul_comm; apply Z.div_mul; lia). destruct HW as [-> ->].
    assert (DI : int_of_sf (fl_add (fl_of_db (db_sub (db_mul (db_of_Z (- w2)) (db_of_Z 1)) (db_mul (db_of_Z h2) (db_of_Z 0)))) (fl_of_Z w2)) = Some 0).
    { apply (fint_trunc _ 0); [|lia]. pose proof (fint_add _ _ _ _ x0 (fint_Z w2 ltac:(lia)) ltac:(lia)) as T. rewrite Z.add_opp_diag_l in T. exact T. }
    assert (DJ : int_of_sf (fl_add (fl_of_db (db_add (db_mul (db_of_Z (- h2)) (db_of_Z 1)) (db_mul (db_of_Z w2) (db_of_Z 0)))) (fl_of_Z h2)) = Some 0).
    { apply (fint_trunc _ 0); [|lia]. pose proof (fint_add _ _ _ _ y0 (fint_Z h2 ltac:(lia)) ltac:(lia)) as T. rewrite Z.add_opp_diag_l in T. exact T. }
    runs (ev_ok _ _ e s1 DI). runs (ev_ok _ _ e s1 DJ). runs (hget_ok _ _ e _ Hm1). fold S L B.
    runs (hget_ok _ _ e _ (newhm_hdr e s w h B (hm_type m) es [98; 105; 112] dd dw)). rewrite Ges. cbn [newhdr hm_data]. fold k.
    fold bodyF. rewrite (bind_ret _ _ _ _ _ _ X). reflexivity.
  - pose proof (newhm_data e s w h B (hm_type m) es [98; 105; 112] f dw) as Id2. fold k s2 in Id2.
    pose proof (newhm_wave e s w h B (hm_type m) es [98; 105; 112] f dw) as Iw2. fold k s2 in Iw2.
    exists (newhdr e s w h B (hm_type m) [98; 105; 112]).
    assert (Hp : In 0 (hm_pad (newhdr e s w h B (hm_type m) [98; 105; 112]))) by now apply newhm_pad.
    split.
    { constructor; cbn [newhdr hm_samples hm_lines hm_bands hm_type hm_il hm_data hm_wave]; auto; try lia.
      - apply newhm_hdr.
      - eapply isb_readable; [exact Id2|lia].
      - right. eapply isb_readable; [exact Iw2|lia]. }
    cbn [newhdr hm_samples hm_lines hm_bands hm_type hm_il hm_data hm_wave]. fold k.
    split; [exists k; split; [reflexivity|unfold k; lia]|]. split; [exists (k + 1)%nat; split; [reflexivity|unfold k; lia]|].
    do 4 (split; [reflexivity|]). split; [|split; [|split; [apply newhm_old_unchanged|reflexivity]]].
    + intros i j b t (Hi & Hj & Hb) Ht. cbn [newhdr hm_samples hm_lines hm_bands] in Hi, Hj, Hb. unfold sample_byte, offset.
      cbn [newhdr hm_samples hm_lines hm_bands hm_data]. fold k S L B.
      assert (EX : ((i * w + j) * B + b) * es + t = (i * w + j) * bs + (b * es + t)) by (unfold bs; ring). rewrite EX.
      assert (HT : 0 <= b * es + t < bs) by (clear - Hb Ht Hes; unfold bs; nia).
      assert (RG : 0 <= (i * w + j) * bs + (b * es + t) < w * h * bs).
      { clear - Hi Hj HT BB Bw. assert (0 <= i * w + j) by nia. assert (i * w + j + 1 <= w * h) by nia. nia. }
      rewrite (byte_at_isb _ _ _ _ _ Id2) by lia.
      destruct ((i <? L) && (j <? S)) eqn:IN.
      * rewrite A by (exists i; split; [lia|]; exists j; lia).
        rewrite Dm. assert (RS : 0 <= (i * S + j) * bs + (b * es + t) < S * L * bs).
        { clear - Hi Hj HT BB IN. assert (0 <= i * S + j) by nia. assert (i * S + j + 1 <= S * L) by nia. nia. }
        replace (((i * S + j) * B + b) * es + t) with ((i * S + j) * bs + (b * es + t)) by (unfold bs; ring).
        rewrite (byte_at_isb _ _ _ _ _ Is) by lia. unfold spec. do 2 f_equal. f_equal.
        assert (Hr : 0 <= j * bs + (b * es + t) < w * bs) by (clear - HT Hj BB; nia).
        assert (Q1 : ((i * w + j) * bs + (b * es + t)) / (w * bs) = i) by (symmetry; apply (Z.div_unique _ (w * bs) i (j * bs + (b * es + t))); auto; ring).
        assert (Q2 : ((i * w + j) * bs + (b * es + t)) mod (w * bs) = j * bs + (b * es + t)) by (symmetry; apply (Z.mod_unique _ (w * bs) i (j * bs + (b * es + t))); auto; ring).
        rewrite Q1, Q2. ring.
      * rewrite Bo.
        -- f_equal. rewrite A1 by (change (w * h * B * es) with (w * h * B * es); lia). reflexivity.
        -- intros (i' & Hi' & j' & Hj' & Hx).
           assert (i * w + j = i' * w + j') by (clear - Hx HT BB; nia).
           assert (i = i') by (clearbody w; clear - H Hi Hj Hi' Hj' Bw; apply Z.le_antisymm; apply Z.nlt_ge; intro; nia). lia.
    + intros x Hx. rewrite (byte_at_isb _ _ _ _ _ Iw2) by lia. rewrite A2 by lia.
      destruct Hwave as [Ew|Hr]; [rewrite Ew; reflexivity|].
      apply readable_isb in Hr as (qw & nw & fw & Ew & Iw & Nw). rewrite Ew in *. unfold init_byte. rewrite (byte_at_isb _ _ _ _ _ Iw) by (fold B in Nw; lia). reflexivity.
Qed.
