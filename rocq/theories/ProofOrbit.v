(** * Proofs about the orbit model. *)
From Verif Require Import ModelOrbit SpecOrbit.
From Coq Require Import Reals List Lra Psatz.
Import ListNotations.
Open Scope R_scope.

Lemma create_orbit_undefined : forall a, create_orbit a = None.
Proof. reflexivity. Qed.

Lemma position_sphere : forall o r u w i,
  o f_r = Some r -> o f_uk = Some u -> o f_omegak = Some w -> o f_ik = Some i ->
  exists x y z, position_ecef (At o) = Some (x, y, z) /\ on_sphere r x y z.
Proof.
  intros o r u w i Hr Hu Hw Hi. unfold position_ecef, oget. rewrite Hr, Hu, Hw, Hi. cbn.
  eexists _, _, _. split; [reflexivity|]. unfold on_sphere. rewrite <- sqrt_Rsqr_abs. f_equal. unfold Rsqr.
  pose proof (sin2_cos2 u) as A. pose proof (sin2_cos2 w) as B. pose proof (sin2_cos2 i) as C. unfold Rsqr in *.
  set (su := sin u) in *; set (cu := cos u) in *; set (sw := sin w) in *; set (cw := cos w) in *; set (si := sin i) in *; set (ci := cos i) in *.
  replace (_ + _ + _) with (r * r * (cu * cu * (sw * sw + cw * cw) + su * su * (ci * ci * (sw * sw + cw * cw) + si * si))) by ring.
  rewrite B. replace (ci * ci * 1 + si * si) with 1 by lra. replace (cu * cu * 1 + su * su * 1) with 1 by lra. ring.
Qed.

Lemma stores_app : forall l1 l2 p, stores (l1 ++ l2) p = obind (stores l1 p) (stores l2).
Proof.
  induction l1 as [|[f v] l1 IH]; intros; [reflexivity|]. cbn [app stores]. destruct (oset p f v); cbn [obind]; [apply IH|reflexivity].
Qed.

Lemma fld_eqb_eq a b : fld_eqb a b = true -> a = b.
Proof. destruct a, b; cbn; congruence. Qed.

Lemma oset_keep p f v p' g : oset p f v = Some p' -> g <> f -> oget g p' = oget g p.
Proof.
  unfold oset. destruct p as [| |o]; [discriminate|discriminate|]. destruct (v (At o)); [|discriminate]. intros H N. injection H as <-. cbn.
  destruct (fld_eqb g f) eqn:E; [apply fld_eqb_eq in E; contradiction|reflexivity].
Qed.

Lemma stores_keep : forall l p p' g, stores l p = Some p' -> ~ In g (map fst l) -> oget g p' = oget g p.
Proof.
  induction l as [|[f v] l IH]; intros p p' g H N; cbn in *; [congruence|].
  destruct (oset p f v) as [p1|] eqn:E; [|discriminate]. cbn in H. rewrite (IH p1 p' g H) by tauto. eapply oset_keep; [exact E|]. intro; subst. tauto.
Qed.

Lemma oset_got p f v p' : oset p f v = Some p' -> exists x, v p = Some x /\ oget f p' = Some x.
Proof.
  unfold oset. destruct p as [| |o]; [discriminate|discriminate|]. destruct (v (At o)) eqn:V; [|discriminate]. intro H. injection H as <-. exists r. split; [reflexivity|]. cbn.
  destruct f; reflexivity.
Qed.
Lemma stores_set : forall l1 f v l2 p p', stores (l1 ++ (f, v) :: l2) p = Some p' -> ~ In f (map fst l2) ->
  exists q x, v q = Some x /\ oget f p' = Some x.
Proof.
  induction l1 as [|[g w] l1 IH]; intros f v l2 p p' H N; cbn [app stores] in H.
  - destruct (oset p f v) as [p1|] eqn:E; [|discriminate]. cbn [obind] in H. destruct (oset_got _ _ _ _ E) as (x & V & G).
    exists p, x. split; auto. rewrite (stores_keep _ _ _ _ H N). exact G.
  - destruct (oset p g w) as [p1|] eqn:E; [|discriminate]. cbn [obind] in H. exact (IH _ _ _ _ _ H N).
Qed.

Fixpoint kit (n : nat) (m e x : R) : R := match n with O => x | S n' => kit n' m e (m + e * sin x) end.

Lemma kepler_run : forall n p p' m e x,
  stores (repeat (f_E, fun p => (oget f_Mk p + oget f_es p * r1 sin (oget f_E p))%X) n) p = Some p' ->
  oget f_Mk p = Some m -> oget f_es p = Some e -> oget f_E p = Some x ->
  oget f_E p' = Some (kit n m e x).
Proof.
  induction n as [|n IH]; intros p p' m e x H Hm He Hx; [cbn in *; congruence|].
  cbn [repeat stores] in H. destruct (oset p f_E _) as [p1|] eqn:E; [|discriminate]. cbn [obind] in H.
  pose proof (oset_got _ _ _ _ E) as (y & V & G). cbn beta in V. rewrite Hm, He, Hx in V. cbn in V. injection V as <-.
  cbn [kit]. apply (IH p1 p' m e _ H).
  - rewrite <- Hm. eapply oset_keep; [exact E|discriminate].
  - rewrite <- He. eapply oset_keep; [exact E|discriminate].
  - exact G.
Qed.

(** ** Contraction *)
Lemma sin_abs_le x : Rabs (sin x) <= Rabs x.
Proof.
  assert (P : forall h, 0 <= h -> Rabs (sin h) <= h).
  { intros h Hh. destruct (Req_dec h 0) as [->|N]; [rewrite sin_0, Rabs_R0; lra|].
    apply Rabs_le. pose proof (sin_lt_x h ltac:(lra)). split; [|lra].
    destruct (Rle_dec h PI) as [L|L]; [pose proof (sin_ge_0 h Hh L); lra|].
    pose proof (SIN_bound h). pose proof PI2_1. lra. }
  destruct (Rle_dec 0 x) as [L|L].
  - rewrite (Rabs_pos_eq x L). apply P. exact L.
  - rewrite <- (Rabs_Ropp (sin x)), <- sin_neg, <- (Rabs_Ropp x). rewrite (Rabs_pos_eq (- x)) by lra. apply P. lra.
Qed.

Lemma sin_lipschitz x y : Rabs (sin x - sin y) <= Rabs (x - y).
Proof.
  rewrite form4, !Rabs_mult. rewrite (Rabs_pos_eq 2) by lra.
  assert (A : Rabs (cos ((x + y) / 2)) <= 1) by (apply Rabs_le; pose proof (COS_bound ((x + y) / 2)); lra).
  pose proof (sin_abs_le ((x - y) / 2)) as B.
  replace (Rabs (x - y)) with (2 * Rabs ((x - y) / 2)).
  2: { rewrite <- (Rabs_pos_eq 2) at 1 by lra. rewrite <- Rabs_mult. f_equal. field. }
  pose proof (Rabs_pos (cos ((x + y) / 2))). pose proof (Rabs_pos (sin ((x - y) / 2))). nra.
Qed.

Lemma kit_residual : forall n m e x, 0 <= e ->
  Rabs (kit n m e x - e * sin (kit n m e x) - m) <= e ^ n * Rabs (x - e * sin x - m).
Proof.
  induction n as [|n IH]; intros m e x He; [cbn; lra|]. cbn [kit]. eapply Rle_trans; [apply IH; exact He|].
  cbn [pow]. replace (e * e ^ n * Rabs (x - e * sin x - m)) with (e ^ n * (e * Rabs (x - e * sin x - m))) by ring. apply Rmult_le_compat_l; [apply pow_le; exact He|].
  replace (m + e * sin x - e * sin (m + e * sin x) - m) with (e * (sin x - sin (m + e * sin x))) by ring.
  rewrite Rabs_mult, (Rabs_pos_eq e He). apply Rmult_le_compat_l; [exact He|].
  eapply Rle_trans; [apply sin_lipschitz|]. right. f_equal. ring.
Qed.

Lemma kepler_solved : forall a o o' x, 0 <= el_es a ->
  o f_E = Some x -> orbit_body a (At o) = Some (At o') ->
  exists m E, o' f_Mk = Some m /\ o' f_E = Some E
    /\ kepler_within (el_es a ^ 10 * Rabs (x - el_es a * sin x - m)) (el_es a) m E.
Proof.
  intros a o o' x He Hx H. unfold orbit_body in H. rewrite stores_app in H.
  destruct (stores (params a) (At o)) as [p1|] eqn:S1; [|discriminate]. cbn [obind] in H.
  assert (A1 : oget f_es p1 = Some (el_es a)).
  { destruct (stores_set [(f_as, fun _ => rv (el_as a))] f_es (fun _ => rv (el_es a)) (skipn 2 (params a)) _ _ S1) as (q & y & V & G); [cbn; intuition discriminate|].
    rewrite G. exact (eq_sym V). }
  assert (A2 : oget f_E p1 = Some x).
  { rewrite (stores_keep _ _ _ f_E S1) by (cbn; intuition discriminate). exact Hx. }
  clear S1. rewrite stores_app in H. destruct (stores (motion a) p1) as [p2|] eqn:S2; [|discriminate]. cbn [obind] in H.
  assert (B1 : oget f_es p2 = Some (el_es a)) by (rewrite (stores_keep _ _ _ f_es S2) by (cbn; intuition discriminate); exact A1).
  assert (B2 : oget f_E p2 = Some x) by (rewrite (stores_keep _ _ _ f_E S2) by (cbn; intuition discriminate); exact A2).
  assert (B3 : exists m, oget f_Mk p2 = Some m).
  { unfold motion in S2. cbn [stores] in S2. destruct (oset p1 f_n0 _) as [q1|]; [|discriminate]. cbn [obind] in S2.
    destruct (oset q1 f_n _) as [q2|]; [|discriminate]. cbn [obind] in S2.
    destruct (oset q2 f_Mk _) as [q3|] eqn:E; [|discriminate]. cbn [obind] in S2. injection S2 as <-.
    destruct (oset_got _ _ _ _ E) as (m & _ & G). exists m. exact G. }
  destruct B3 as (m & B3). clear S2. rewrite stores_app in H. destruct (stores kepler p2) as [p3|] eqn:S3; [|discriminate]. cbn [obind] in H.
  pose proof (kepler_run 10 p2 p3 m (el_es a) x S3 B3 B1 B2) as C1.
  assert (C2 : oget f_Mk p3 = Some m) by (rewrite (stores_keep _ _ _ f_Mk S3) by (cbn; intuition discriminate); exact B3).
  assert (D1 : oget f_E (At o') = oget f_E p3) by (apply (stores_keep _ _ _ f_E H); cbn; intuition discriminate).
  assert (D2 : oget f_Mk (At o') = oget f_Mk p3) by (apply (stores_keep _ _ _ f_Mk H); cbn; intuition discriminate).
  exists m, (kit 10 m (el_es a) x). rewrite C1 in D1. rewrite C2 in D2. split; [exact D2|]. split; [exact D1|].
  unfold kepler_within. apply kit_residual. exact He.
Qed.

(** ** A circular orbit *)
Definition circle : elements := mkEl 1 0 0 0 (PI / 3) 0 0 0 0 0 0 0 0 0 0 0 0.
Definition blank : orbit := fun f => if fld_eqb f f_tk then Some 0 else if fld_eqb f f_E then Some 0 else None.

Definition upd (o : orbit) (f : fld) (x : R) : orbit := fun g => if fld_eqb g f then Some x else o g.
Lemma step l o f v x : v (At o) = Some x -> stores ((f, v) :: l) (At o) = stores l (At (upd o f x)).
Proof. intro H. cbn [stores]. unfold oset. rewrite H. reflexivity. Qed.
Lemma rdiv_ok x y : y <> 0 -> rdiv (Some x) (Some y) = Some (x / y).
Proof. intro H. unfold rdiv. destruct (Req_EM_T y 0); [contradiction|reflexivity]. Qed.
Lemma rsqrt_ok x : 0 <= x -> rsqrt (Some x) = Some (sqrt x).
Proof. intro H. unfold rsqrt. destruct (Rlt_dec x 0); [lra|reflexivity]. Qed.
Lemma kstep l o x m e : o f_Mk = Some m -> o f_es = Some e -> o f_E = Some x ->
  stores ((f_E, fun p => (oget f_Mk p + oget f_es p * r1 sin (oget f_E p))%X) :: l) (At o) = stores l (At (upd o f_E (m + e * sin x))).
Proof. intros A B C. apply step. cbn. rewrite A, B, C. reflexivity. Qed.

Lemma circle_run : exists o', orbit_body circle (At blank) = Some (At o')
  /\ o' f_E = Some (PI / 3) /\ o' f_f = Some (2 * atan (sqrt 3 / 2)) /\ o' f_r = Some 1 /\ o' f_es = Some 0.
Proof.
  unfold orbit_body, params, motion, kepler. cbn [app repeat circle el_as el_es el_omega el_ws el_M0 el_i0 el_idot el_delta_n el_toe el_t el_cus el_cuc el_crs el_crc el_cis el_cic el_omegadot].
  do 17 (erewrite step; [|reflexivity]).
  erewrite step. 2: { unfold rv, r2. rewrite rdiv_ok by lra. rewrite rsqrt_ok by (unfold bGM84; lra). reflexivity. }
  set (g := sqrt _). do 2 (erewrite step; [|reflexivity]).
  do 10 (erewrite kstep; [|reflexivity|reflexivity|reflexivity]).
  match goal with |- context [upd _ f_E ?t] => replace t with (PI / 3) by (field) end.
  set (o := upd _ f_E (PI / 3)).
  assert (T : rtan (oget f_E (At o)) = Some (sqrt 3)).
  { unfold rtan. cbn [oget]. replace (o f_E) with (Some (PI / 3)) by reflexivity. cbn [r1]. rewrite rdiv_ok by (rewrite cos_PI3; lra).
    change (sin (PI / 3) / cos (PI / 3)) with (tan (PI / 3)). rewrite tan_PI3. reflexivity. }
  unfold position. erewrite step.
  2: { rewrite T. replace (oget f_es (At o)) with (Some 0) by reflexivity. cbn [r2 rv]. rewrite rdiv_ok by lra.
       replace ((1 + 0) / (1 - 0)) with 1 by field. rewrite rsqrt_ok by lra. cbn [r2]. rewrite rdiv_ok by lra. cbn [r1 r2]. rewrite sqrt_1.
       replace (1 * sqrt 3 / 2) with (sqrt 3 / 2) by field. reflexivity. }
  do 8 (erewrite step; [|reflexivity]). cbn [stores]. eexists. split; [reflexivity|]. split; [reflexivity|]. split; [reflexivity|]. split; [|reflexivity].
  cbn. f_equal. ring.
Qed.

Lemma anomaly_wrong : exists a o o' E f, 0 <= el_es a < 1 /\ 0 < el_as a /\ orbit_body a (At o) = Some (At o')
  /\ o' f_E = Some E /\ o' f_f = Some f /\ ~ true_anomaly (el_es a) E f.
Proof.
  destruct circle_run as (o' & A & B & C & _). exists circle, blank, o', (PI / 3), (2 * atan (sqrt 3 / 2)).
  split; [cbn; lra|]. split; [cbn; lra|]. split; [exact A|]. split; [exact B|]. split; [exact C|].
  unfold true_anomaly. cbn [el_es circle]. replace (2 * atan (sqrt 3 / 2) / 2) with (atan (sqrt 3 / 2)) by field. rewrite tan_atan.
  replace ((1 + 0) / (1 - 0)) with 1 by field. rewrite sqrt_1. replace (PI / 3 / 2) with (PI / 6) by field. rewrite tan_PI6.
  intro K. pose proof (sqrt_lt_R0 3 ltac:(lra)) as P. pose proof (sqrt_sqrt 3 ltac:(lra)) as Q.
  assert (K2 : sqrt 3 * (sqrt 3 / 2) = sqrt 3 * (1 * (1 / sqrt 3))) by (rewrite K; reflexivity).
  replace (sqrt 3 * (1 * (1 / sqrt 3))) with 1 in K2 by (field; lra). lra.
Qed.

(** ** Elements to position *)
Lemma stores_got : forall l p p' f, stores l p = Some p' -> In f (map fst l) -> exists x, oget f p' = Some x.
Proof.
  induction l as [|[g v] l IH]; intros p p' f H N; cbn in *; [contradiction|].
  destruct (oset p g v) as [p1|] eqn:E; [|discriminate]. cbn [obind] in H.
  assert (D : forall x y : fld, {x = y} + {x <> y}) by decide equality.
  destruct (in_dec D f (map fst l)) as [I|I]; [apply (IH p1 p' f H I)|]. destruct N as [->|N]; [|contradiction].
  rewrite (stores_keep _ _ _ f H I). destruct (oset_got _ _ _ _ E) as (x & _ & G). exists x. exact G.
Qed.

Lemma elements_sphere : forall a o o', orbit_body a (At o) = Some (At o') ->
  exists r x y z, o' f_r = Some r /\ position_ecef (At o') = Some (x, y, z) /\ on_sphere r x y z.
Proof.
  intros a o o' H. unfold orbit_body in H.
  assert (G : forall f, In f (map fst (params a ++ motion a ++ kepler ++ position)) -> exists x, o' f = Some x)
    by (intros f I; exact (stores_got _ _ _ f H I)).
  destruct (G f_r ltac:(cbn; tauto)) as (r & Hr). destruct (G f_uk ltac:(cbn; tauto)) as (u & Hu).
  destruct (G f_omegak ltac:(cbn; tauto)) as (w & Hw). destruct (G f_ik ltac:(cbn; tauto)) as (i & Hi).
  destruct (position_sphere o' r u w i Hr Hu Hw Hi) as (x & y & z & P & S). exists r, x, y, z. auto.
Qed.
