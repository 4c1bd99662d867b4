(** * Pyramids of constant images. *)
From Verif Require Import Base ModelFloat ModelCore SpecBase SpecNum SpecMatrix SpecPixel SpecImage2 SpecFilter SpecCxx SpecGeom.
From Verif Require Import ModelGeom ProofCore2 ProofFloat ProofGeom ProofGeom2.
From Coq Require Import Lia ZifyBool ZifyNat.
Ltac Zify.zify_post_hook ::= Z.div_mod_to_equations.
Open Scope Z_scope.

Lemma nearest_exact v d z : 0 < d -> nearest_even (v * d) d z -> z = v.
Proof.
  intros Hd H. apply (nearest_even_unique (v * d) d z v Hd); auto. split; [rewrite Z.sub_diag; cbn; lia|].
  rewrite Z.sub_diag. cbn. lia.
Qed.

Lemma colour_range s m v i j c : pix s m i j c = Some v -> 0 <= v < 256.
Proof.
  intros Hp. unfold pix, pixel_byte, byte_at in Hp.
  destruct (bytes_at s (sm_data m)) as [[[q n] d]|]; [|discriminate]. destruct (inb _ n); [|discriminate].
  injection Hp as <-. apply Z.mod_pos_bound; lia.
Qed.

Theorem down_constant exp_ e s src dst ms md v :
  env_ok e -> heap_ok s -> image s src ms 1 -> image s dst md 1 ->
  sm_rows md = (sm_rows ms + 1) / 2 -> sm_cols md = (sm_cols ms + 1) / 2 -> sm_chan md = sm_chan ms ->
  sm_chan ms = 1 \/ sm_chan ms = 3 -> 2 <= sm_rows ms -> 2 <= sm_cols ms ->
  (forall i j c, in_image ms i j c -> pix s ms i j c = Some (v c)) ->
  sm_rows ms * sm_cols ms * 4 * sm_chan ms + 96 <= 2147483647 ->
  exists s', hypercv_pyramid_down exp_ src dst e s = Ret tt s'
    /\ forall i j c, in_image md i j c -> pix s' md i j c = Some (v c).
Proof.
  intros He Hs Is Id ER EC Ech Hch HR HC G Hsz.
  destruct (down_run exp_ e s src dst ms md (fun _ _ c => v c)) as (s' & E & Rd & _ & _); auto.
  exists s'. split; auto. intros i j c Hin. destruct (Rd i j c Hin) as (z & -> & N). f_equal.
  apply (nearest_exact (v c) 256); [lia|].
  replace (v c * 256) with (binomial (repeated (sm_rows ms) (sm_cols ms) (fun _ _ => v c)) (2 * i) (2 * j)); auto.
  unfold binomial, repeated, sum5. lia.
Qed.

Lemma sum5_four (f : Z -> Z) x j : (forall b, -2 <= b <= 2 -> f b = if Z.even (j + b) then x else 0) -> sum5 f = 8 * x.
Proof.
  intros H. unfold sum5. rewrite !H by lia.
  assert (E : forall b, Z.even (j + b) = Bool.eqb (Z.even j) (Z.even b)) by (intros; apply Z.even_add).
  rewrite !E. change (Z.even (-2)) with true. change (Z.even (-1)) with false. change (Z.even 0) with true.
  change (Z.even 1) with false. change (Z.even 2) with true. destruct (Z.even j); cbn [Bool.eqb]; lia.
Qed.

Lemma expand_inside R C v i j : 2 <= i -> i + 2 < R -> 2 <= j -> j + 2 < C -> 0 <= v < 256 ->
  expand (repeated R C (spread (fun _ _ => v))) i j = v * 64.
Proof.
  intros Hi1 Hi2 Hj1 Hj2 Hv. unfold expand.
  replace (sum5 _) with (8 * (8 * v)); [lia|]. symmetry. apply sum5_four with (j := i). intros a Ha.
  assert (E : sum5 (fun b => repeated R C (spread (fun _ _ => v)) (i + a) (j + b)) = 8 * if Z.even (i + a) then v else 0).
  { apply sum5_four with (j := j). intros b Hb. unfold repeated, spread.
    replace (clamp 0 (R - 1) (i + a)) with (i + a) by (unfold clamp; lia). replace (clamp 0 (C - 1) (j + b)) with (j + b) by (unfold clamp; lia).
    destruct (Z.even (i + a)), (Z.even (j + b)); reflexivity. }
  rewrite E. destruct (Z.even (i + a)); lia.
Qed.

Lemma expand_first R C v : 4 <= R -> 4 <= C -> 0 <= v < 256 ->
  expand (repeated R C (spread (fun _ _ => v))) 0 0 = Z.min 16320 (144 * v).
Proof.
  intros HR HC Hv. unfold expand, sum5, repeated.
  change (0 + -2) with (-2). change (0 + -1) with (-1). change (0 + 0) with 0. change (0 + 1) with 1. change (0 + 2) with 2.
  replace (clamp 0 (R - 1) (-2)) with 0 by (unfold clamp; lia). replace (clamp 0 (R - 1) (-1)) with 0 by (unfold clamp; lia).
  replace (clamp 0 (R - 1) 0) with 0 by (unfold clamp; lia). replace (clamp 0 (R - 1) 1) with 1 by (unfold clamp; lia).
  replace (clamp 0 (R - 1) 2) with 2 by (unfold clamp; lia).
  replace (clamp 0 (C - 1) (-2)) with 0 by (unfold clamp; lia). replace (clamp 0 (C - 1) (-1)) with 0 by (unfold clamp; lia).
  replace (clamp 0 (C - 1) 0) with 0 by (unfold clamp; lia). replace (clamp 0 (C - 1) 1) with 1 by (unfold clamp; lia).
  replace (clamp 0 (C - 1) 2) with 2 by (unfold clamp; lia).
  unfold spread. cbn [Z.even andb]. lia.
Qed.

Lemma expand_last R C v : 4 <= R -> 4 <= C -> Z.even R = true -> Z.even C = true -> 0 <= v < 256 ->
  expand (repeated R C (spread (fun _ _ => v))) (R - 1) (C - 1) = 16 * v.
Proof.
  intros HR HC ER EC Hv. unfold expand, sum5, repeated.
  assert (K : forall n, 4 <= n -> clamp 0 (n - 1) (n - 1 + -2) = n + (-3) /\ clamp 0 (n - 1) (n - 1 + -1) = n + (-2)
     /\ clamp 0 (n - 1) (n - 1 + 0) = n + (-1) /\ clamp 0 (n - 1) (n - 1 + 1) = n + (-1) /\ clamp 0 (n - 1) (n - 1 + 2) = n + (-1))
    by (intros; unfold clamp; lia).
  destruct (K R HR) as (-> & -> & -> & -> & ->). destruct (K C HC) as (-> & -> & -> & -> & ->).
  unfold spread. rewrite !Z.even_add, ER, EC. change (Z.even (-3)) with false. change (Z.even (-2)) with true. change (Z.even (-1)) with false.
  cbn [Bool.eqb andb]. lia.
Qed.

Theorem up_constant exp_ e s src dst ms md v :
  env_ok e -> heap_ok s -> image s src ms 1 -> image s dst md 1 ->
  sm_rows md = sm_rows ms * 2 -> sm_cols md = sm_cols ms * 2 -> sm_chan md = sm_chan ms ->
  sm_chan ms = 1 \/ sm_chan ms = 3 -> 2 <= sm_rows ms -> 2 <= sm_cols ms ->
  (forall i j c, in_image ms i j c -> pix s ms i j c = Some (v c)) ->
  sm_rows md * sm_cols md * 4 * sm_chan md + 96 <= 2147483647 ->
  exists s', hypercv_pyramid_up exp_ src dst e s = Ret tt s'
    /\ (forall i j c, 2 <= i < sm_rows md - 2 -> 2 <= j < sm_cols md - 2 -> 0 <= c < sm_chan md -> pix s' md i j c = Some (v c))
    /\ (forall c, 0 <= c < sm_chan md -> exists z, pix s' md 0 0 c = Some z /\ nearest_even (Z.min (255 * 64) (144 * v c)) 64 z)
    /\ (forall c, 0 <= c < sm_chan md -> exists z, pix s' md (sm_rows md - 1) (sm_cols md - 1) c = Some z /\ nearest_even (v c) 4 z).
Proof.
  intros He Hs Is Id ER EC Ech Hch HR HC G Hsz.
  destruct (up_run exp_ e s src dst ms md (fun _ _ c => v c)) as (s' & E & X & _ & _); auto.
  assert (Hv : forall c, 0 <= c < sm_chan md -> 0 <= v c < 256).
  { intros c Hc. apply (colour_range s ms (v c) 0 0 c). apply G. repeat split; lia. }
  assert (Ev : forall n, Z.even (n * 2) = true) by (intros; rewrite Z.even_mul; apply orb_true_r).
  exists s'. split; auto. split; [|split].
  - intros i j c Hi Hj Hc. destruct (X i j c) as (z & -> & N); [repeat split; lia|]. f_equal.
    apply (nearest_exact (v c) 64); [lia|]. rewrite expand_inside in N; auto; try lia.
  - intros c Hc. destruct (X 0 0 c) as (z & Ez & N); [repeat split; lia|]. exists z. split; auto.
    rewrite expand_first in N; auto; lia.
  - intros c Hc. destruct (X (sm_rows md - 1) (sm_cols md - 1) c) as (z & Ez & N); [repeat split; lia|]. exists z. split; auto.
    rewrite expand_last in N; auto; try lia; [|rewrite ER; apply Ev|rewrite EC; apply Ev].
    destruct N as [N1 N2]. split; [lia|]. intros Q. apply N2. lia.
Qed.

(** A constant image does not stay constant. *)
Theorem up_not_constant exp_ e s src dst ms md v :
  env_ok e -> heap_ok s -> image s src ms 1 -> image s dst md 1 ->
  sm_rows md = sm_rows ms * 2 -> sm_cols md = sm_cols ms * 2 -> sm_chan md = sm_chan ms ->
  sm_chan ms = 1 \/ sm_chan ms = 3 -> 2 <= sm_rows ms -> 2 <= sm_cols ms -> 0 < v ->
  (forall i j c, in_image ms i j c -> pix s ms i j c = Some v) ->
  sm_rows md * sm_cols md * 4 * sm_chan md + 96 <= 2147483647 ->
  exists s' a b, hypercv_pyramid_up exp_ src dst e s = Ret tt s'
    /\ pix s' md 0 0 0 = Some a /\ pix s' md (sm_rows md - 1) (sm_cols md - 1) 0 = Some b /\ b < v <= a.
Proof.
  intros He Hs Is Id ER EC Ech Hch HR HC Hv G Hsz.
  destruct (up_constant exp_ e s src dst ms md (fun _ => v)) as (s' & E & _ & A & B); auto.
  destruct (A 0 ltac:(lia)) as (a & Ea & Na). destruct (B 0 ltac:(lia)) as (b & Eb & Nb).
  assert (0 <= v < 256) by (apply (colour_range s ms v 0 0 0); apply G; repeat split; lia).
  exists s', a, b. split; auto. split; auto. split; auto. destruct Na as [Na _]. destruct Nb as [Nb Nb2].
  split; [|lia]. assert (b <> v \/ b = v) as [?| ->] by lia; lia.
Qed.
