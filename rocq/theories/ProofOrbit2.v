(** * Proofs: the elements of the orbit. *)
From Verif Require Import ModelOrbit SpecOrbit ProofOrbit.
From Coq Require Import Reals Lra List.
Import ListNotations.
Open Scope R_scope.

Lemma step_inv l o f v p' : stores ((f, v) :: l) (At o) = Some p' ->
  exists x, v (At o) = Some x /\ stores l (At (upd o f x)) = Some p'.
Proof. cbn [stores]. unfold oset. destruct (v (At o)) as [x|]; [|discriminate]. cbn [obind]. intros H. exists x. split; [reflexivity|exact H]. Qed.
Lemma rdiv_inv x y z : rdiv (Some x) (Some y) = Some z -> y <> 0 /\ z = x / y.
Proof. unfold rdiv. destruct (Req_EM_T y 0); [discriminate|]. intros H. injection H as <-. auto. Qed.
Lemma rsqrt_inv x z : rsqrt (Some x) = Some z -> 0 <= x /\ z = sqrt x.
Proof. unfold rsqrt. destruct (Rlt_dec x 0); [discriminate|]. intros H. injection H as <-. split; [lra|reflexivity]. Qed.
Lemma stores_at l p o' : stores l p = Some (At o') -> exists o, p = At o.
Proof.
  destruct l as [|[f v] l]; cbn [stores]; [intros H; injection H as ->; eauto|]. unfold oset. destruct p; try discriminate. eauto.
Qed.

Lemma motion_inv a o1 p2 tk : o1 f_delta_n = Some (el_delta_n a) -> o1 f_M0 = Some (el_M0 a) -> o1 f_tk = Some tk -> stores (motion a) (At o1) = Some p2 ->
  exists n0, third_law bGM84 (el_as a) n0 /\ oget f_n0 p2 = Some n0 /\ oget f_Mk p2 = Some (el_M0 a + (n0 + el_delta_n a) * tk).
Proof.
  intros A8 A5 T S2.
  unfold motion in S2. apply step_inv in S2 as (n0 & V & S2). unfold rv in V. cbn [r2] in V.
    destruct (rdiv (Some bGM84) (Some (el_as a * el_as a * el_as a))) as [q|] eqn:Q; [|discriminate]. apply rdiv_inv in Q as (Q1 & ->). apply rsqrt_inv in V as (V1 & ->).
    apply step_inv in S2 as (n & V & S2). cbn [oget] in V. change (upd o1 f_n0 _ f_n0) with (Some (sqrt (bGM84 / (el_as a * el_as a * el_as a)))) in V.
    change (upd o1 f_n0 _ f_delta_n) with (o1 f_delta_n) in V. rewrite A8 in V. cbn [r2] in V. injection V as <-.
    apply step_inv in S2 as (mk & V & S2). cbn [oget] in V.
    match type of V with r2 _ (?u f_M0) _ = _ => change (u f_M0) with (o1 f_M0) in V; change (u f_tk) with (o1 f_tk) in V; change (u f_n) with (Some (sqrt (bGM84 / (el_as a * el_as a * el_as a)) + el_delta_n a)) in V end.
    rewrite A5, T in V. cbn [r2] in V. injection V as <-. cbn [stores] in S2. injection S2 as <-.
    exists (sqrt (bGM84 / (el_as a * el_as a * el_as a))). split; [|split; reflexivity].
    split; [apply sqrt_pos|]. rewrite sqrt_sqrt by exact V1. field. intros Q. apply Q1. rewrite Q. ring.
Qed.

Lemma params_inv a o p1 tk : o f_tk = Some tk -> stores (params a) (At o) = Some p1 ->
  exists o1, p1 = At o1 /\ o1 f_tk = Some tk /\ o1 f_as = Some (el_as a) /\ o1 f_es = Some (el_es a) /\ o1 f_omega = Some (el_omega a) /\ o1 f_ws = Some (el_ws a)
    /\ o1 f_M0 = Some (el_M0 a) /\ o1 f_i0 = Some (el_i0 a) /\ o1 f_idot = Some (el_idot a) /\ o1 f_delta_n = Some (el_delta_n a) /\ o1 f_toe = Some (el_toe a)
    /\ o1 f_cus = Some (el_cus a) /\ o1 f_cuc = Some (el_cuc a) /\ o1 f_crs = Some (el_crs a) /\ o1 f_crc = Some (el_crc a) /\ o1 f_cis = Some (el_cis a) /\ o1 f_cic = Some (el_cic a)
    /\ o1 f_omegadot = Some (el_omegadot a).
Proof.
  intros Ht S1.
  unfold params in S1. do 17 (apply step_inv in S1; destruct S1 as (? & V & S1); injection V as <-). cbn [stores] in S1. injection S1 as <-.
    eexists. split; [reflexivity|]. split; [exact Ht|]. repeat split.
Qed.

Lemma orbit_elements : forall a o o' tk, o f_tk = Some tk -> orbit_body a (At o) = Some (At o') ->
  exists n0 E f, third_law bGM84 (el_as a) n0
    /\ o' f_n0 = Some n0 /\ o' f_Mk = Some (el_M0 a + (n0 + el_delta_n a) * tk)
    /\ o' f_E = Some E /\ o' f_f = Some f
    /\ let phi := f + el_ws a in
       o' f_uk = Some (corrected phi (el_cus a) (el_cuc a) phi)
    /\ o' f_r = Some (corrected (el_as a * (1 - el_es a * cos E)) (el_crs a) (el_crc a) phi)
    /\ o' f_ik = Some (corrected (el_i0 a + el_idot a * tk) (el_cis a) (el_cic a) phi)
    /\ o' f_omegak = Some (el_omega a + (el_omegadot a - bOMEGAE84) * tk - bOMEGAE84 * el_toe a).
Proof.
  intros a o o' tk Ht H. unfold orbit_body in H. rewrite stores_app in H.
  destruct (stores (params a) (At o)) as [p1|] eqn:S1; [|discriminate]. cbn [obind] in H.
  pose proof (params_inv a o p1 tk Ht S1) as P.
  clear S1. destruct P as (o1 & -> & T & A1 & A2 & A3 & A4 & A5 & A6 & A7 & A8 & A9 & A10 & A11 & A12 & A13 & A14 & A15 & A16).
  rewrite stores_app in H. destruct (stores (motion a) (At o1)) as [p2|] eqn:S2; [|discriminate]. cbn [obind] in H.
  assert (K2 : forall g, ~ In g [f_n0; f_n; f_Mk] -> oget g p2 = o1 g) by (intros g Hg; exact (stores_keep _ _ _ g S2 Hg)).
  pose proof (motion_inv a o1 p2 tk A8 A5 T S2) as P.
  destruct P as (n0 & L & N0 & MK). clear S2.
  rewrite stores_app in H. destruct (stores kepler p2) as [p3|] eqn:S3; [|discriminate]. cbn [obind] in H.
  assert (K3 : forall g, g <> f_E -> oget g p3 = oget g p2) by (intros g Hg; apply (stores_keep _ _ _ g S3); cbn; intuition auto).
  destruct (stores_got _ _ _ f_E S3) as (E & HE); [cbn; auto|]. destruct (stores_at _ _ _ H) as (o3 & ->). clear S3. cbn [oget] in HE, K3.
  assert (B : forall g, ~ In g [f_n0; f_n; f_Mk; f_E] -> o3 g = o1 g).
  { intros g Hg. rewrite K3 by (intros ->; apply Hg; cbn; auto). apply K2. intros I. apply Hg. cbn in *. tauto. }
  assert (N3 : o3 f_n0 = Some n0) by (rewrite K3 by discriminate; exact N0). assert (M3 : o3 f_Mk = Some (el_M0 a + (n0 + el_delta_n a) * tk)) by (rewrite K3 by discriminate; exact MK).
  rewrite <- B in T, A1, A2, A3, A4, A5, A6, A7, A8, A9, A10, A11, A12, A13, A14, A15, A16 by (cbn; intuition discriminate). clear B K2 K3 N0 MK Ht.
  unfold position in H.
  apply step_inv in H as (f & _ & H).
  Ltac look V := repeat match type of V with context [oget ?g (At ?u)] => let x := eval cbv [oget upd fld_eqb] in (oget g (At u)) in change (oget g (At u)) with x in V end.
  apply step_inv in H as (phi & V & H). look V. rewrite A4 in V. cbn [r2] in V. injection V as E1.
  apply step_inv in H as (cu & V & H). look V. rewrite A10, A11 in V. cbn [r2 r1 rv] in V. injection V as E2.
  apply step_inv in H as (cr & V & H). look V. rewrite A12, A13 in V. cbn [r2 r1 rv] in V. injection V as E3.
  apply step_inv in H as (cc & V & H). look V. rewrite A14, A15 in V. cbn [r2 r1 rv] in V. injection V as E4.
  apply step_inv in H as (uk & V & H). look V. cbn [r2 r1 rv] in V. injection V as E5.
  apply step_inv in H as (r & V & H). look V. rewrite A1, A2, HE in V. cbn [r2 r1 rv] in V. injection V as E6.
  apply step_inv in H as (ik & V & H). look V. rewrite A6, A7, T in V. cbn [r2 r1 rv] in V. injection V as E7.
  apply step_inv in H as (w & V & H). look V. rewrite A3, A16, T, A9 in V. cbn [r2 r1 rv] in V. injection V as E8.
  cbn [stores] in H. injection H as H. exists n0, E, f. split; [exact L|].
  assert (X : forall g, o' g = oget g (At o')) by reflexivity. cbv zeta. rewrite !X, <- H.
  repeat match goal with |- context [oget ?g (At ?u)] => let x := eval cbv [oget upd fld_eqb] in (oget g (At u)) in change (oget g (At u)) with x end.
  clear X H. rewrite N3, M3, HE. unfold corrected. subst. repeat (split; [reflexivity|]). reflexivity.
Qed.
