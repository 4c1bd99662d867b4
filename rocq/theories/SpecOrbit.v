(** * Specification vocabulary for the orbit properties. *)
From Coq Require Import Reals.
Open Scope R_scope.

(** The point (x, y, z) lies on the sphere of radius r around the origin. *)
Definition on_sphere (r x y z : R) : Prop := sqrt (x * x + y * y + z * z) = Rabs r.

(** E solves Kepler's equation for eccentricity e and mean anomaly m up to d. *)
Definition kepler_within (d e m E : R) : Prop := Rabs (E - e * sin E - m) <= d.

(** f is the true anomaly that belongs to the eccentric anomaly E. *)
Definition true_anomaly (e E f : R) : Prop :=
  tan (f / 2) = sqrt ((1 + e) / (1 - e)) * tan (E / 2).

(** Kepler's third law: n revolutions (in radians) per second on an orbit of
    semi-major axis a around a body of gravitational parameter gm. *)
Definition third_law (gm a n : R) : Prop := 0 <= n /\ n * n * (a * a * a) = gm.
(** A quantity x corrected by its second harmonics. *)
Definition corrected (x s c phi : R) : R := x + (s * sin (2 * phi) + c * cos (2 * phi)).
