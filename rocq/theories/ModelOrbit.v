(** * Model of satellite/src/satellite_orbit.c

    Numbers: the long double variables are modelled as real numbers, rounding
    is not modelled; a quotient by zero and the root of a negative number are
    no real numbers and make the outcome [None], like every use of an
    indeterminate value. *)
From Coq Require Import Reals List.
Import ListNotations.
Open Scope R_scope.

(** satellite/include/satellite/satellite_orbit.h 32-68: the fields of struct
    SATELLITE_ORBIT. *)
Inductive fld :=
| f_as | f_es | f_omega | f_ws | f_M0 | f_i0 | f_idot | f_delta_n | f_toe | f_t
| f_cus | f_cuc | f_crs | f_crc | f_cis | f_cic | f_omegadot
| f_f | f_r | f_n0 | f_tk | f_n | f_Mk | f_E | f_phik
| f_corr_u | f_corr_r | f_corr_i | f_uk | f_ik | f_omegak.

Definition fld_eqb (a b : fld) : bool :=
  match a, b with
  | f_as, f_as | f_es, f_es | f_omega, f_omega | f_ws, f_ws | f_M0, f_M0
  | f_i0, f_i0 | f_idot, f_idot | f_delta_n, f_delta_n | f_toe, f_toe | f_t, f_t
  | f_cus, f_cus | f_cuc, f_cuc | f_crs, f_crs | f_crc, f_crc | f_cis, f_cis
  | f_cic, f_cic | f_omegadot, f_omegadot
  | f_f, f_f | f_r, f_r | f_n0, f_n0 | f_tk, f_tk | f_n, f_n | f_Mk, f_Mk
  | f_E, f_E | f_phik, f_phik
  | f_corr_u, f_corr_u | f_corr_r, f_corr_r | f_corr_i, f_corr_i
  | f_uk, f_uk | f_ik, f_ik | f_omegak, f_omegak => true
  | _, _ => false
  end.

(** The memory of one struct: [None] marks an indeterminate field. *)
Definition orbit := fld -> option R.

(** A variable of type sat_orbit: indeterminate, null, or the address of a
    struct. *)
Inductive oref := Indet | Null | At (o : orbit).

(** ** Real expressions *)
Definition rx := option R.
Definition rv (x : R) : rx := Some x.
Definition r1 (f : R -> R) (a : rx) : rx := match a with Some x => Some (f x) | None => None end.
Definition r2 (f : R -> R -> R) (a b : rx) : rx :=
  match a, b with Some x, Some y => Some (f x y) | _, _ => None end.
Definition rdiv (a b : rx) : rx :=
  match a, b with
  | Some x, Some y => if Req_EM_T y 0 then None else Some (x / y)
  | _, _ => None end.
Definition rsqrt (a : rx) : rx :=
  match a with Some x => if Rlt_dec x 0 then None else Some (sqrt x) | None => None end.
(** tan x = sin x / cos x. *)
Definition rtan (a : rx) : rx := rdiv (r1 sin a) (r1 cos a).

Declare Scope rx_scope.
Delimit Scope rx_scope with X.
Bind Scope rx_scope with rx.
Infix "+" := (r2 Rplus) : rx_scope.
Infix "-" := (r2 Rminus) : rx_scope.
Infix "*" := (r2 Rmult) : rx_scope.
Infix "/" := rdiv : rx_scope.

(** ** Stores through the pointer *)

(** orb->f = v: undefined unless orb points to a struct and v is defined. *)
Definition oset (p : oref) (f : fld) (v : oref -> rx) : option oref :=
  match p, v p with
  | At o, Some x => Some (At (fun g => if fld_eqb g f then Some x else o g))
  | _, _ => None
  end.
(** orb->f. *)
Definition oget (f : fld) (p : oref) : rx := match p with At o => o f | _ => None end.

Definition obind (a : option oref) (k : oref -> option oref) : option oref :=
  match a with Some p => k p | None => None end.

Fixpoint stores (l : list (fld * (oref -> rx))) (p : oref) : option oref :=
  match l with
  | [] => Some p
  | (f, v) :: l' => obind (oset p f v) (stores l')
  end.

(** satellite/include/satellite/satellite_orbit.h 11-17. *)
Definition bGM84 : R := 398600500000000.
Definition bOMEGAE84 : R := 72921151467 / 1000000000000000.

(** The seventeen parameters, in their order. *)
Record elements := mkEl {
  el_as : R; el_es : R; el_omega : R; el_ws : R; el_M0 : R; el_i0 : R; el_idot : R;
  el_delta_n : R; el_toe : R; el_t : R; el_cus : R; el_cuc : R; el_crs : R; el_crc : R;
  el_cis : R; el_cic : R; el_omegadot : R }.

Section Body.
Variable a : elements.

(** satellite/src/satellite_orbit.c 47-63: the parameters are stored. *)
Definition params : list (fld * (oref -> rx)) :=
  [ (f_as, fun _ => rv (el_as a)); (f_es, fun _ => rv (el_es a));
    (f_omega, fun _ => rv (el_omega a)); (f_ws, fun _ => rv (el_ws a));
    (f_M0, fun _ => rv (el_M0 a)); (f_i0, fun _ => rv (el_i0 a));
    (f_idot, fun _ => rv (el_idot a)); (f_delta_n, fun _ => rv (el_delta_n a));
    (f_toe, fun _ => rv (el_toe a)); (f_t, fun _ => rv (el_t a));
    (f_cus, fun _ => rv (el_cus a)); (f_cuc, fun _ => rv (el_cuc a));
    (f_crs, fun _ => rv (el_crs a)); (f_crc, fun _ => rv (el_crc a));
    (f_cis, fun _ => rv (el_cis a)); (f_cic, fun _ => rv (el_cic a));
    (f_omegadot, fun _ => rv (el_omegadot a)) ].

(** 65-68: mean motion and mean anomaly; tk is never assigned. *)
Definition motion : list (fld * (oref -> rx)) :=
  [ (f_n0, fun _ => rsqrt (rv bGM84 / (rv (el_as a) * rv (el_as a) * rv (el_as a)))%X);
    (f_n, fun p => (oget f_n0 p + oget f_delta_n p)%X);
    (f_Mk, fun p => (oget f_M0 p + oget f_n p * oget f_tk p)%X) ].

(** 70-71: ten times E = Mk + es * sin(E), from whatever E contains. *)
Definition kepler : list (fld * (oref -> rx)) :=
  repeat (f_E, fun p => (oget f_Mk p + oget f_es p * r1 sin (oget f_E p))%X) 10.

(** 73-86. *)
Definition position : list (fld * (oref -> rx)) :=
  [ (f_f, fun p => (rv 2 * r1 atan (rsqrt ((rv 1 + oget f_es p) / (rv 1 - oget f_es p))
                                    * rtan (oget f_E p) / rv 2))%X);
    (f_phik, fun p => (oget f_f p + oget f_ws p)%X);
    (f_corr_u, fun p => (oget f_cus p * r1 sin (rv 2 * oget f_phik p)
                         + oget f_cuc p * r1 cos (rv 2 * oget f_phik p))%X);
    (f_corr_r, fun p => (oget f_crs p * r1 sin (rv 2 * oget f_phik p)
                         + oget f_crc p * r1 cos (rv 2 * oget f_phik p))%X);
    (f_corr_i, fun p => (oget f_cis p * r1 sin (rv 2 * oget f_phik p)
                         + oget f_cic p * r1 cos (rv 2 * oget f_phik p))%X);
    (f_uk, fun p => (oget f_phik p + oget f_corr_u p)%X);
    (f_r, fun p => (oget f_as p * (rv 1 - oget f_es p * r1 cos (oget f_E p)) + oget f_corr_r p)%X);
    (f_ik, fun p => (oget f_i0 p + oget f_idot p * oget f_tk p + oget f_corr_i p)%X);
    (f_omegak, fun p => (oget f_omega p + (oget f_omegadot p - rv bOMEGAE84) * oget f_tk p
                         - rv bOMEGAE84 * oget f_toe p)%X) ].

(** 47-88: everything after the declaration of orb. *)
Definition orbit_body (orb : oref) : option oref :=
  stores (params ++ motion ++ kepler ++ position) orb.

(** 28-89: hypercv_create_orbit.  The local variable orb is not initialised. *)
Definition create_orbit : option oref := orbit_body Indet.
End Body.

(** 91-102: get_satellite_position_ecef. *)
Definition position_ecef (orb : oref) : option (R * R * R) :=
  let r := oget f_r orb in let u := oget f_uk orb in
  let w := oget f_omegak orb in let i := oget f_ik orb in
  match (r * r1 cos u * r1 cos w - r * r1 sin u * r1 sin w * r1 cos i)%X,
        (r * r1 cos u * r1 sin w + r * r1 sin u * r1 cos w * r1 cos i)%X,
        (r * r1 sin u * r1 sin i)%X with
  | Some x, Some y, Some z => Some (x, y, z)
  | _, _, _ => None
  end.
