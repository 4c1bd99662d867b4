(** * Proofs: sums of whole numbers in double precision, the centre of a shape. *)
From Verif Require Import Base ModelFloat ModelDouble SpecBase SpecNum SpecMatrix SpecShape
  ProofFloat ProofFloat2 ProofDiv ProofErr ProofNorm ProofMatrix ProofFold ProofFourier3 ProofStat ProofFilter.
From Coq Require Import Floats.SpecFloat ZifyBool ZifyNat.
Ltac Zify.zify_post_hook ::= Z.div_mod_to_equations.
Open Scope Z_scope.

Notation dint := (isint 53 1024).

(** ** Doubles are determined by their value, zero apart *)
Lemma db_canonical x y a : db_ok x -> db_ok y -> sf_num x = Some a -> sf_num y = Some a -> a <> 0 -> x = y.
Proof.
  intros Vx Vy Nx Ny Ha. destruct x as [sx| | |sx mx ex]; try discriminate Nx; [injection Nx as <-; lia|].
  destruct y as [sy| | |sy my ey]; try discriminate Ny; [injection Ny as <-; lia|].
  cbn [sf_num] in Nx, Ny. injection Nx as Nx. injection Ny as Ny.
  pose proof (db_emin _ _ _ Vx) as Ex. pose proof (db_emin _ _ _ Vy) as Ey.
  pose proof (pow_pos (ex + 1074) ltac:(lia)) as Px. pose proof (pow_pos (ey + 1074) ltac:(lia)) as Py.
  assert (S : sx = sy) by (destruct sx, sy; cbn [cond_Zopp] in *; auto; nia). subst sy.
  assert (E : Zpos mx * 2 ^ (ex + 1074) = Zpos my * 2 ^ (ey + 1074)) by (destruct sx; cbn [cond_Zopp] in *; nia).
  apply (valid_finite 53 1024) in Vx as [_ Vx]; try lia. apply (valid_finite 53 1024) in Vy as [_ Vy]; try lia.
  assert (D : Zdigits2 (Zpos mx) + ex = Zdigits2 (Zpos my) + ey).
  { pose proof (digits_mul (Zpos mx) (ex + 1074) ltac:(lia) ltac:(lia)) as D1.
    pose proof (digits_mul (Zpos my) (ey + 1074) ltac:(lia) ltac:(lia)) as D2. rewrite E in D1. lia. }
  assert (ex = ey) by congruence. subst ey. assert (Zpos mx = Zpos my) by (clear - E Px; nia). congruence.
Qed.

Lemma dint_canonical x z : dint x z -> z <> 0 -> Z.abs z <= 9007199254740992 -> x = db_of_Z z.
Proof.
  intros [V N] Hz B. destruct (db_of_Z_ok z B) as [V' N']. apply (db_canonical _ _ _ V V' N N'). pose proof sf_one_pos. nia.
Qed.

Lemma add_cancel x y : db_ok x -> db_ok y -> sf_num (db_add x y) = Some 0 ->
  (forall a b, sf_num x = Some a -> sf_num y = Some b -> a + b = 0) -> x <> S754_zero true -> db_add x y = S754_zero false.
Proof.
  intros Vx Vy N H Hx. destruct x as [sx|sx| |sx mx ex].
  - destruct sx; [congruence|]. destruct y as [sy|sy| |sy my ey]; cbn [db_add] in *; unfold db_add in *; cbn [SFadd] in *; try discriminate N; auto.
    + destruct sy; reflexivity.
    + specialize (H _ _ eq_refl eq_refl). pose proof (db_emin _ _ _ Vy). pose proof (pow_pos (ey + 1074) ltac:(lia)).
      exfalso. clear - H H1. destruct sy; cbn [cond_Zopp] in H; nia.
  - destruct y as [sy|sy| |sy my ey]; unfold db_add in N; cbn [SFadd] in N; try discriminate N; destruct (Bool.eqb sx sy); discriminate N.
  - destruct y; discriminate N.
  - destruct y as [sy|sy| |sy my ey]; unfold db_add in *; cbn [SFadd] in *; try discriminate N.
    + specialize (H _ _ eq_refl eq_refl). pose proof (db_emin _ _ _ Vx). pose proof (pow_pos (ex + 1074) ltac:(lia)).
      exfalso. clear - H H1. destruct sx; cbn [cond_Zopp] in H; nia.
    + specialize (H _ _ eq_refl eq_refl). pose proof (db_emin _ _ _ Vx) as Ex. pose proof (db_emin _ _ _ Vy) as Ey.
      rewrite <- (align_num sx mx ex (Z.min ex ey)), <- (align_num sy my ey (Z.min ex ey)) in H by lia.
      rewrite <- Z.mul_add_distr_r in H. pose proof (pow_pos (Z.min ex ey + 1074) ltac:(lia)) as P.
      match type of H with ?u * _ = 0 => assert (Z0 : u = 0) by (clear - H P; nia) end. rewrite Z0. reflexivity.
Qed.

(** Adding whole numbers. *)
Lemma add_whole a y b : dint y b -> Z.abs a <= 9007199254740992 -> Z.abs (a + b) <= 9007199254740992 ->
  db_add (db_of_Z a) y = db_of_Z (a + b).
Proof.
  intros Hy Ha Hb. pose proof (db_Z a Ha) as Hx.
  pose proof (add_int 53 1024 ltac:(lia) ltac:(lia) ltac:(lia) _ _ _ _ Hx Hy Hb) as HS.
  change (SFadd 53 1024 (db_of_Z a) y) with (db_add (db_of_Z a) y) in HS.
  destruct (Z.eq_dec (a + b) 0) as [E|E]; [|now apply dint_canonical].
  rewrite E in *. change (db_of_Z 0) with (S754_zero false). destruct Hx as [Vx Nx]. destruct Hy as [Vy Ny]. destruct HS as [VS NS].
  apply add_cancel; auto.
  - intros u v Hu Hv. rewrite Nx in Hu. rewrite Ny in Hv. injection Hu as <-. injection Hv as <-. rewrite <- Z.mul_add_distr_r, E. reflexivity.
  - destruct (Z.eq_dec a 0) as [->|A0]; [discriminate|]. intros Q. rewrite Q in Nx. cbn in Nx. injection Nx as Nx. pose proof sf_one_pos. nia.
Qed.

(** ** Sums over an image *)
Lemma isum_ext R C f g : (forall j i, 0 <= j < R -> 0 <= i < C -> f j i = g j i) -> isum R C f = isum R C g.
Proof. intros H. unfold isum. apply sumz_ext. intros j Hj. apply sumz_ext. intros i Hi. auto. Qed.

Lemma row_exact (g : Z -> sf) (w : Z -> Z) B a : 0 <= B -> forall C, 0 <= C -> Z.abs a + C * B <= 9007199254740992 ->
  (forall i, 0 <= i < C -> dint (g i) (w i) /\ Z.abs (w i) <= B) ->
  foldz C (fun x i => db_add x (g i)) (db_of_Z a) = db_of_Z (a + sumz C w) /\ Z.abs (a + sumz C w) <= Z.abs a + C * B.
Proof.
  intros HB C HC. pattern C. apply natlike_ind; [|intros n Hn IH Hb H|exact HC].
  - intros Hb _. rewrite foldz_0, sumz_0, Z.add_0_r. split; [reflexivity|lia].
  - unfold Z.succ in *. destruct IH as [E L]; [nia| |].
    + intros i Hi. apply H. lia.
    + destruct (H n ltac:(lia)) as [D W]. rewrite foldz_S, sumz_S by lia. rewrite E. rewrite Z.add_assoc. split; [|nia].
      apply add_whole; auto; nia.
Qed.
Lemma sum_exact_at (g : Z -> Z -> sf) (w : Z -> Z -> Z) B C : 0 <= B -> 0 <= C -> forall R, 0 <= R -> R * C * B <= 9007199254740992 ->
  (forall j i, 0 <= j < R -> 0 <= i < C -> dint (g j i) (w j i) /\ Z.abs (w j i) <= B) ->
  image_sum doubles R C g = db_of_Z (isum R C w) /\ Z.abs (isum R C w) <= R * C * B.
Proof.
  intros HB HC R HR. pattern R. apply natlike_ind; [|intros n Hn IH Hb H|exact HR].
  - intros _ _. split; [reflexivity|cbn; lia].
  - unfold Z.succ in *. destruct IH as [E L]; [nia| |].
    + intros j i Hj Hi. apply H; lia.
    + unfold image_sum, isum in *. cbn [doubles a_add a_int] in *. rewrite foldz_S, sumz_S by lia. rewrite E.
      destruct (row_exact (g n) (w n) B (sumz n (fun j => sumz C (w j))) HB C HC) as [E2 L2]; [nia| |].
      * intros i Hi. apply H; lia.
      * split; [exact E2|nia].
Qed.
Lemma sum_exact R C g w B : 0 <= B -> 0 <= C -> 0 <= R -> R * C * B <= 9007199254740992 ->
  (forall j i, 0 <= j < R -> 0 <= i < C -> dint (g j i) (w j i) /\ Z.abs (w j i) <= B) ->
  image_sum doubles R C g = db_of_Z (isum R C w).
Proof. intros HB HC HR Hb H. exact (proj1 (sum_exact_at g w B C HB HC R HR Hb H)). Qed.
Lemma isum_bound R C w B : 0 <= C -> 0 <= R -> (forall j i, 0 <= j < R -> 0 <= i < C -> 0 <= w j i <= B) -> 0 <= isum R C w <= R * C * B.
Proof.
  intros HC HR H. assert (S : forall f b n, 0 <= n -> (forall i, 0 <= i < n -> 0 <= f i <= b) -> 0 <= sumz n f <= n * b).
  { intros f b n Hn. pattern n. apply natlike_ind; [|intros k Hk IH Hf|exact Hn]; [intros; rewrite sumz_0; lia|].
    unfold Z.succ. rewrite sumz_S by lia. pose proof (Hf k ltac:(lia)). specialize (IH ltac:(intros; apply Hf; lia)). lia. }
  unfold isum. rewrite <- Z.mul_assoc. apply S; auto.
Qed.
Lemma isum_le R C f g : 0 <= R -> 0 <= C -> (forall j i, 0 <= j < R -> 0 <= i < C -> f j i <= g j i) -> isum R C f <= isum R C g.
Proof.
  intros HR HC H. assert (S : forall f g n, 0 <= n -> (forall i, 0 <= i < n -> f i <= g i) -> sumz n f <= sumz n g).
  { intros f' g' n Hn. pattern n. apply natlike_ind; [|intros k Hk IH Hf|exact Hn]; [intros; rewrite !sumz_0; lia|].
    unfold Z.succ. rewrite !sumz_S by lia. pose proof (Hf k ltac:(lia)). specialize (IH ltac:(intros; apply Hf; lia)). lia. }
  unfold isum. apply S; auto.
Qed.
Lemma isum_scale R C k g : isum R C (fun j i => k * g j i) = k * isum R C g.
Proof.
  assert (S : forall g n, sumz n (fun i => k * g i) = k * sumz n g).
  { intros g' n. unfold sumz. induction (Z.to_nat n) as [|m IH]; cbn [sum_to]; [ring|]. rewrite IH. ring. }
  unfold isum. rewrite <- S. apply sumz_ext. intros. apply S.
Qed.
Lemma isum_add R C f g : isum R C (fun j i => f j i + g j i) = isum R C f + isum R C g.
Proof.
  assert (S : forall f g n, sumz n (fun i => f i + g i) = sumz n f + sumz n g).
  { intros f' g' n. unfold sumz. induction (Z.to_nat n) as [|m IH]; cbn [sum_to]; [ring|]. rewrite IH. ring. }
  unfold isum. rewrite <- S. apply sumz_ext. intros. apply S.
Qed.

(** ** The centre *)
Lemma half_ok : db_ok (dlit 1 2) /\ exists h, sf_num (dlit 1 2) = Some h /\ 2 * h = sf_one.
Proof.
  split; [vm_compute; reflexivity|]. exists (2 ^ 1073). split; [vm_compute; reflexivity|]. rewrite sf_one_eq. rewrite <- Z.pow_succ_r by (clear; lia). reflexivity.
Qed.
Lemma whole_add x y a b w : db_ok x -> db_ok y -> sf_num x = Some a -> sf_num y = Some b -> a + b = w * sf_one -> Z.abs w <= 9007199254740992 ->
  dint (db_add x y) w.
Proof.
  intros Vx Vy Na Nb E Hw. apply (int_exact 53 1024 ltac:(lia) ltac:(lia) ltac:(lia) 1074 (w * sf_one)); [unfold emin; lia|now rewrite sf_one_eq|exact Hw|].
  rewrite <- E. apply SFadd_num; auto; lia.
Qed.
Lemma pow_facts : exists B, B = 2 ^ 2000 /\ 9007199254740992 * sf_one <= B.
Proof.
  exists (2 ^ 2000). split; [reflexivity|]. rewrite sf_one_eq. change 9007199254740992 with (2 ^ 53). rewrite <- Z.pow_add_r by (clear; lia).
  apply Z.pow_le_mono_r; clear; lia.
Qed.
Lemma tiny_one : 4503599627370496 * 9007199254740992 <= sf_one.
Proof.
  rewrite sf_one_eq. change (4503599627370496 * 9007199254740992) with (2 ^ 105). apply Z.pow_le_mono_r; clear; lia.
Qed.

Lemma quotient_near n m : 0 <= n <= 562949953421312 -> 0 < m <= 562949953421312 -> n <= m * 4194304 ->
  db_ok (db_div (db_of_Z n) (db_of_Z m)) /\ exists c, sf_num (db_div (db_of_Z n) (db_of_Z m)) = Some c /\ 0 <= c
    /\ Z.abs (c * m - n * sf_one) * 9007199254740992 <= n * sf_one /\ (forall w, 2 * n = w * m -> 2 * c = w * sf_one).
Proof.
  intros Hn Hm Hq. pose proof sf_one_pos as HU. pose proof (db_Z n ltac:(lia)) as X. pose proof (db_Z m ltac:(lia)) as Y.
  destruct (Z.eq_dec n 0) as [->|Hn0].
  - pose proof (div_int 53 1024 ltac:(lia) ltac:(lia) ltac:(lia) ltac:(lia) _ _ 0 m 0 X Y ltac:(lia) ltac:(lia) ltac:(lia)) as D.
    change (SFdiv 53 1024 (db_of_Z 0) (db_of_Z m)) with (db_div (db_of_Z 0) (db_of_Z m)) in D. destruct D as [V N].
    split; [exact V|]. exists 0. split; [exact N|]. split; [lia|]. split; [rewrite !Z.mul_0_l; cbn; lia|]. intros w Hw. assert (w = 0) by (clear - Hw Hm; nia). subst; lia.
  - destruct X as [Vx Nx]. destruct Y as [Vy Ny].
    pose proof (db_div_half _ _ (n * sf_one) (m * sf_one) Vx Vy Nx Ny ltac:(nia) ltac:(nia)) as DH. rewrite <- sf_one_eq in DH. destruct DH as (V & c & Nc & C0 & E & T).
    { assert (m <= n * 2 ^ 100) by (change (2 ^ 100) with 1267650600228229401496703205376; lia). nia. }
    { change (2 ^ 22) with 4194304. nia. }
    change (2 ^ 53) with 9007199254740992 in E. split; [exact V|]. exists c. split; [exact Nc|]. split; [exact C0|]. split.
    + apply (Z.mul_le_mono_pos_r _ _ sf_one HU).
      replace (Z.abs (c * m - n * sf_one) * 9007199254740992 * sf_one) with (Z.abs (c * (m * sf_one) - n * sf_one * sf_one) * 9007199254740992); [exact E|].
      replace (c * (m * sf_one) - n * sf_one * sf_one) with ((c * m - n * sf_one) * sf_one) by ring. rewrite Z.abs_mul, (Z.abs_eq sf_one) by lia. ring.
    + intros w Hw. apply T. nia.
Qed.

Lemma centre_exact n m : 0 <= n <= 562949953421312 -> 0 < m <= 562949953421312 -> n <= m * 4194304 ->
  int_of_sf (db_add (db_div (db_of_Z n) (db_of_Z m)) (dlit 1 2)) = Some ((2 * n + m) / (2 * m)).
Proof.
  intros Hn Hm Hq. destruct (quotient_near n m Hn Hm Hq) as (V & c & Nc & C0 & E & T). destruct half_ok as (Vh & h & Nh & Eh).
  pose proof sf_one_pos as HU. pose proof tiny_one as HT. set (k := (2 * n + m) / (2 * m)).
  assert (Hk : 0 <= k <= 4194305).
  { unfold k. split; [apply Z.div_pos; lia|]. apply Z.div_le_upper_bound; lia. }
  assert (Fin : forall x d, db_ok x -> sf_num x = Some d -> k * sf_one <= d < (k + 1) * sf_one -> int_of_sf x = Some k).
  { intros x d Vx Nx Hd. unfold int_of_sf. rewrite (db_trunc _ _ Vx Nx).
    assert (K0 : 0 <= k * sf_one) by (apply Z.mul_nonneg_nonneg; lia).
    replace (Z.quot d sf_one) with k; [unfold chk, in_int, INT_MIN, INT_MAX; replace (_ && _) with true by lia; reflexivity|].
    rewrite Z.quot_div_nonneg by lia. apply (Z.div_unique d sf_one k (d - k * sf_one)); lia. }
  pose proof (Z.div_mod (2 * n + m) (2 * m) ltac:(lia)) as DM. fold k in DM.
  pose proof (Z.mod_pos_bound (2 * n + m) (2 * m) ltac:(lia)) as MB. set (r := (2 * n + m) mod (2 * m)) in *. clearbody r. clearbody k.
  destruct (Z.eq_dec r 0) as [->|Hr].
  - assert (E2 : 2 * c = (2 * k - 1) * sf_one) by (apply T; clear - DM; nia).
    destruct (whole_add _ _ c h k V Vh Nc Nh ltac:(clear - E2 Eh; lia) ltac:(lia)) as [Vs Ns]. apply (Fin _ _ Vs Ns). lia.
  - pose proof (db_add_err _ _ c h V Vh Nc Nh) as AE. destruct pow_facts as (B & EB & PB). rewrite <- EB in AE. clear EB.
    change (2 ^ 53) with 9007199254740992 in AE. change (2 ^ 52) with 4503599627370496 in AE.
    assert (NU : n * sf_one <= 562949953421312 * sf_one) by (apply Z.mul_le_mono_nonneg_r; lia).
    assert (Cm : c * m <= 2 * (n * sf_one)) by lia. assert (Cc : c <= c * m) by (clear - C0 Hm; nia).
    destruct AE as (Vd & d & Nd & D0 & Ed); [lia|]. apply (Fin _ _ Vd Nd). specialize (D0 ltac:(lia)).
    rewrite (Z.abs_eq (c + h)) in Ed by lia.
    set (e2 := d - (c + h)) in *. set (e1 := c * m - n * sf_one) in *.
    assert (ID : 2 * m * d = (2 * m * k + r) * sf_one + (2 * m * e2 + 2 * e1)).
    { rewrite <- DM. unfold e2, e1. rewrite <- Eh. ring. }
    assert (A2 : Z.abs (2 * m * e2) * 9007199254740992 <= 4 * (n * sf_one) + m * sf_one + 2 * m * 4503599627370496).
    { rewrite Z.abs_mul, (Z.abs_eq (2 * m)) by lia.
      assert (2 * m * (Z.abs e2 * 9007199254740992) <= 2 * m * (c + h + 4503599627370496)) by (apply Z.mul_le_mono_nonneg_l; lia).
      assert (2 * m * (c + h + 4503599627370496) = 2 * (c * m) + m * sf_one + 2 * m * 4503599627370496) by (rewrite <- Eh; ring).
      lia. }
    assert (A3 : 2 * m * 4503599627370496 <= m * sf_one) by (assert (m * (2 * 4503599627370496) <= m * sf_one) by (apply Z.mul_le_mono_nonneg_l; lia); lia).
    assert (MU : m * sf_one <= 562949953421312 * sf_one) by (apply Z.mul_le_mono_nonneg_r; lia).
    set (EE := 2 * m * e2 + 2 * e1) in *.
    assert (AE : Z.abs EE * 9007199254740992 <= 6 * (n * sf_one) + 2 * (m * sf_one)) by (unfold EE; lia).
    assert (AB : Z.abs EE < sf_one) by lia.
    assert (R1 : sf_one <= r * sf_one) by (clear - HU MB Hr; nia). assert (R2 : r * sf_one <= (2 * m - 1) * sf_one) by (apply Z.mul_le_mono_nonneg_r; lia).
    split.
    + apply (Z.mul_le_mono_pos_l _ _ (2 * m)); [lia|]. rewrite ID. clear - AB R1. lia.
    + apply (Z.mul_lt_mono_pos_l (2 * m)); [lia|]. rewrite ID. clear - AB R2. lia.
Qed.

(** The centre of an image lies in it. *)
Lemma centre_in R C (P : Z -> Z -> Z) f L : 0 < R -> 0 < C -> (forall j i, 0 <= j < R -> 0 <= i < C -> 0 <= P j i) -> 0 < weight_of R C P ->
  (forall j i, 0 <= j < R -> 0 <= i < C -> 0 <= f j i < L) ->
  let S := isum R C (fun j i => f j i * P j i) in
  0 <= S <= (L - 1) * weight_of R C P /\ 0 <= (2 * S + weight_of R C P) / (2 * weight_of R C P) < L.
Proof.
  intros HR HC HP HW Hf S. assert (B : 0 <= S <= (L - 1) * weight_of R C P).
  { split.
    - replace 0 with (isum R C (fun _ _ => 0)).
      + apply isum_le; try lia. intros j i Hj Hi. specialize (HP j i Hj Hi). specialize (Hf j i Hj Hi). nia.
      + change (fun _ _ : Z => 0) with (fun _ _ : Z => 0 * 0). rewrite (isum_scale R C 0 (fun _ _ => 0)). ring.
    - unfold weight_of. rewrite <- isum_scale. apply isum_le; try lia. intros j i Hj Hi. specialize (HP j i Hj Hi). specialize (Hf j i Hj Hi). nia. }
  split; [exact B|]. set (W := weight_of R C P) in *. split; [apply Z.div_pos; lia|]. apply Z.div_lt_upper_bound; nia.
Qed.
