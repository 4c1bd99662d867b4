(** * Properties C59, C71, C72: the orbit of a satellite.
    The model works on real numbers, so the axioms of the real numbers of the
    standard library appear below. *)
From Verif Require Import ModelOrbit SpecOrbit ProofOrbit ProofOrbit2.
From Coq Require Import Reals List.
Open Scope R_scope.

(** C59.  The position computed from a filled struct.  Missing: hypercv_create_orbit fills no struct, see C59_create_refuted. *)
Theorem C59_position_partial : forall o r u w i,
  o f_r = Some r -> o f_uk = Some u -> o f_omegak = Some w -> o f_ik = Some i ->
  exists x y z, position_ecef (At o) = Some (x, y, z) /\ on_sphere r x y z.
Proof. exact position_sphere. Qed.
Print Assumptions C59_position_partial.
(** The assignments of hypercv_create_orbit, if they were applied to a struct, followed by the position. *)
Theorem C59_elements_partial : forall a o o', orbit_body a (At o) = Some (At o') ->
  exists r x y z, o' f_r = Some r /\ position_ecef (At o') = Some (x, y, z) /\ on_sphere r x y z.
Proof. exact elements_sphere. Qed.
Print Assumptions C59_elements_partial.
(** Whatever the elements, hypercv_create_orbit stores through an uninitialised pointer. *)
Theorem C59_create_refuted : forall a, create_orbit a = None.
Proof. exact create_orbit_undefined. Qed.
Print Assumptions C59_create_refuted.
(** What the assignments would leave in a struct whose tk is known: the mean motion obeys Kepler's third law, and argument, radius, inclination and node carry their corrections.  Missing: the struct does not exist and tk is not assigned. *)
Theorem C59_fields_partial : forall a o o' tk, o f_tk = Some tk -> orbit_body a (At o) = Some (At o') ->
  exists n0 E f, third_law bGM84 (el_as a) n0
    /\ o' f_n0 = Some n0 /\ o' f_Mk = Some (el_M0 a + (n0 + el_delta_n a) * tk)
    /\ o' f_E = Some E /\ o' f_f = Some f
    /\ let phi := f + el_ws a in
       o' f_uk = Some (corrected phi (el_cus a) (el_cuc a) phi)
    /\ o' f_r = Some (corrected (el_as a * (1 - el_es a * cos E)) (el_crs a) (el_crc a) phi)
    /\ o' f_ik = Some (corrected (el_i0 a + el_idot a * tk) (el_cis a) (el_cic a) phi)
    /\ o' f_omegak = Some (el_omega a + (el_omegadot a - bOMEGAE84) * tk - bOMEGAE84 * el_toe a).
Proof. exact orbit_elements. Qed.
Print Assumptions C59_fields_partial.
Example C59_fields_hypotheses : blank f_tk = Some 0 /\ exists o', orbit_body circle (At blank) = Some (At o').
Proof. split; [reflexivity|]. destruct circle_run as (o' & A & _). exists o'. exact A. Qed.
Example C59_hypotheses : exists o', orbit_body circle (At blank) = Some (At o') /\ o' f_r = Some 1.
Proof. destruct circle_run as (o' & A & _ & _ & B & _). exists o'. split; assumption. Qed.

(** C71.  The ten iterations bring the residual of Kepler's equation down by the tenth power of the eccentricity.  Missing: the struct and its fields E and tk are not initialised by the code. *)
Theorem C71_kepler_partial : forall a o o' x, 0 <= el_es a ->
  o f_E = Some x -> orbit_body a (At o) = Some (At o') ->
  exists m E, o' f_Mk = Some m /\ o' f_E = Some E
    /\ kepler_within (el_es a ^ 10 * Rabs (x - el_es a * sin x - m)) (el_es a) m E.
Proof. exact kepler_solved. Qed.
Print Assumptions C71_kepler_partial.
Example C71_hypotheses : blank f_E = Some 0 /\ 0 <= el_es circle /\ exists o', orbit_body circle (At blank) = Some (At o').
Proof. split; [reflexivity|]. split; [right; reflexivity|]. destruct circle_run as (o' & A & _). exists o'. exact A. Qed.

(** C72.  The half belongs to the angle, not to its tangent. *)
Theorem C72_refuted : exists a o o' E f, 0 <= el_es a < 1 /\ 0 < el_as a /\ orbit_body a (At o) = Some (At o')
  /\ o' f_E = Some E /\ o' f_f = Some f /\ ~ true_anomaly (el_es a) E f.
Proof. exact anomaly_wrong. Qed.
Print Assumptions C72_refuted.
