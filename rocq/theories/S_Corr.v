(** Specification for properties C27-C33: corrections for motion, height and latitude. *)
From Coq Require Import Reals.
Open Scope R_scope.

(** [f] has second derivative [a] at [t]. *)
Definition acceleration (f : R -> R) (t a : R) : Prop :=
  exists v, (forall u, derivable_pt_lim f u (v u)) /\ derivable_pt_lim v t a.

(** ** Eotvos correction *)
Definition earth_rate : R := 7.292115e-5.

(** A ship on a slightly flattened earth (equatorial radius [a], flattening [f]), seen from space:
    latitude [lat t] and longitude [lon t] in radians, height [ht t], and [dev t] the angle
    between the plumb line and the radius, which has length a(1 - f sin^2 lat). *)
Section Motion.
Variables (a f : R) (lat lon ht dev : R -> R).
Definition radius (t : R) : R := a * (1 - f * sin (lat t) ^ 2).
(** Components along the local vertical and the local meridian. *)
Definition vertical (t : R) : R := radius t * cos (dev t) + ht t.
Definition southward (t : R) : R := radius t * sin (dev t).
(** Distance from the axis and height above the equatorial plane. *)
Definition axis_distance (t : R) : R := vertical t * cos (lat t) + southward t * sin (lat t).
Definition plane_distance (t : R) : R := vertical t * sin (lat t) - southward t * cos (lat t).
(** Inertial position. *)
Definition sidereal (t : R) : R := lon t + earth_rate * t.
Definition pos_x (t : R) : R := axis_distance t * cos (sidereal t).
Definition pos_y (t : R) : R := axis_distance t * sin (sidereal t).
Definition pos_z (t : R) : R := plane_distance t.

(** Component of a vector along the downward vertical at time [t]. *)
Definition downward (t x y z : R) : R :=
  - (cos (lat t) * cos (sidereal t) * x + cos (lat t) * sin (sidereal t) * y + sin (lat t) * z).

(** [e] is the downward acceleration of the ship at [t], less that of a body at rest on the
    rotating earth at the same place (which is accelerated towards the axis). *)
Definition motion_effect (t e : R) : Prop :=
  exists ax ay az, acceleration pos_x t ax /\ acceleration pos_y t ay /\ acceleration pos_z t az /\
    e = downward t (ax + earth_rate ^ 2 * pos_x t) (ay + earth_rate ^ 2 * pos_y t) az.
End Motion.

(** ** Normal gravity of the WGS84 ellipsoid *)
Definition wgs_a : R := 6378137.
Definition wgs_f : R := 1 / 298.257223563.
Definition wgs_b : R := wgs_a * (1 - wgs_f).
Definition gamma_equator : R := 978032.53359.
Definition gamma_pole : R := 983218.49378.
(** Somigliana (1929): gravity at geodetic latitude [phi] (radians). *)
Definition somigliana (phi : R) : R :=
  (wgs_a * gamma_equator * cos phi ^ 2 + wgs_b * gamma_pole * sin phi ^ 2) /
  sqrt (wgs_a ^ 2 * cos phi ^ 2 + wgs_b ^ 2 * sin phi ^ 2).

(** Change of normal gravity with height, second order in the height and first order in the
    flattening (Heiskanen and Moritz 1967, 2-123); [wgs_m] = omega^2 a^2 b / GM. *)
Definition wgs_m : R := earth_rate ^ 2 * wgs_a ^ 2 * wgs_b / 3.986004418e14.
Definition height_effect (phi h : R) : R :=
  - (2 * gamma_equator / wgs_a * (1 + wgs_f + wgs_m + (5 / 2 * wgs_m - 3 * wgs_f) * sin phi ^ 2)) * h
  + 3 * gamma_equator / wgs_a ^ 2 * h ^ 2.
