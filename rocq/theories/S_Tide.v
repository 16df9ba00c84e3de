(** Specification for properties C22-C26: the tide-generating attraction at a point, from the
    directions and distances of moon and sun.  Orbital elements and constants are those of
    Longman (1959). *)
From Coq Require Import ZArith Reals List.
From Verif Require Import S_Base S_Cal.
Open Scope R_scope.

Definition vec : Type := (R * R * R)%type.
Definition dot (u v : vec) : R :=
  let '(a, b, c) := u in let '(x, y, z) := v in a * x + b * y + c * z.
(** Rotations by [a] about the first and third axis. *)
Definition rot_x (a : R) (v : vec) : vec :=
  let '(x, y, z) := v in (x, y * cos a - z * sin a, y * sin a + z * cos a).
Definition rot_z (a : R) (v : vec) : vec :=
  let '(x, y, z) := v in (x * cos a - y * sin a, x * sin a + y * cos a, z).
Definition rad (d : R) : R := d * PI / 180.

(** Obliquity of the ecliptic, inclination of the moon's orbit to the ecliptic. *)
Definition obliquity : R := rad 23.452.
Definition lunar_inclination : R := 0.08979719.

Section Elements.
Variable T : R.  (* Julian centuries since 1899-12-31 noon UTC *)
Definition poly3 (a b c d : R) : R := a + b * T + c * T ^ 2 + d * T ^ 3.
Definition moon_longitude : R := poly3 4.720023434 8399.709299 0.0000440696 0.
Definition moon_perigee : R := poly3 5.835124713 71.01800936 (-0.000180545) (-0.00000021817).
Definition sun_longitude : R := poly3 4.88162792 628.3319509 0.00000527962 0.
Definition moon_node : R := poly3 4.523588564 (-33.75715303) 0.000036749 0.
Definition sun_perigee : R := poly3 4.908229461 0.03000526416 0.000007902463 0.
Definition sun_ecc : R := poly3 0.01675104 (-0.0000418) (-0.000000126) 0.
Definition moon_ecc : R := 0.0549.
Definition motion_ratio : R := 0.074804.

(** Inequalities of the moon: mean anomaly, evection argument, variation argument. *)
Definition anomaly : R := moon_longitude - moon_perigee.
Definition evection : R := moon_longitude - 2 * sun_longitude + moon_perigee.
Definition variation : R := 2 * (moon_longitude - sun_longitude).

(** True longitude of the moon along its orbit (from the equinox via the node). *)
Definition moon_true_longitude : R := moon_longitude
  + 2 * moon_ecc * sin anomaly + 5 / 4 * moon_ecc ^ 2 * sin (2 * anomaly)
  + 15 / 4 * motion_ratio * moon_ecc * sin evection + 11 / 8 * motion_ratio ^ 2 * sin variation.
Definition sun_true_longitude : R := sun_longitude + 2 * sun_ecc * sin (sun_longitude - sun_perigee).

(** Direction of the moon in the equatorial frame (first axis to the equinox): start on the orbit,
    tilt it by its inclination about the line of nodes, turn the node to its longitude in the
    ecliptic, tilt the ecliptic to the equator. *)
Definition moon_direction : vec :=
  let u := moon_true_longitude - moon_node in
  rot_x obliquity (rot_z moon_node (rot_x lunar_inclination (cos u, sin u, 0))).
Definition sun_direction : vec :=
  rot_x obliquity (cos sun_true_longitude, sin sun_true_longitude, 0).

(** Direction of the zenith at geographic (lon, lat) in degrees, [hour] hours UTC after midnight. *)
Definition zenith (lon lat hour : R) : vec :=
  let ra := rad (15 * (hour - 12) + lon) + sun_longitude in
  (cos (rad lat) * cos ra, cos (rad lat) * sin ra, sin (rad lat)).

(** Distances in cm. *)
Definition moon_mean_distance : R := 3.84402e10.
Definition sun_mean_distance : R := 1.495e13.
Definition moon_distance : R :=
  / (/ moon_mean_distance
     + / (moon_mean_distance * (1 - moon_ecc ^ 2)) *
       (moon_ecc * cos anomaly + moon_ecc ^ 2 * cos (2 * anomaly)
        + 15 / 8 * motion_ratio * moon_ecc * cos evection + motion_ratio ^ 2 * cos variation)).
Definition sun_distance : R :=
  / (/ sun_mean_distance
     + / (sun_mean_distance * (1 - sun_ecc ^ 2)) * (sun_ecc * cos (sun_longitude - sun_perigee))).
End Elements.

(** Distance of the observer from the centre of the earth in cm; height in metres. *)
Definition earth_radius (lat height : R) : R :=
  6.37827e8 / sqrt (1 + 0.006738 * sin (rad lat) ^ 2) + 100 * height.

(** Legendre polynomials by Bonnet's recursion; [legendre2 n x] = (P_n, P_{n+1}). *)
Fixpoint legendre2 (n : nat) (x : R) : R * R :=
  match n with
  | O => (1, x)
  | S m => let '(p, q) := legendre2 m x in
           (q, ((2 * INR m + 3) * x * q - (INR m + 1) * p) / (INR m + 2))
  end.
Definition legendre (n : nat) (x : R) : R := fst (legendre2 n x).

(** Vertical component of the degree-n tidal acceleration due to a body of mass [m] at distance
    [d]: radial derivative of G m/d (r/d)^n P_n. *)
Definition newton : R := 6.673e-8.
Definition tidal_term (n : nat) (m r d c : R) : R :=
  newton * m * (INR n * r ^ (n - 1) / d ^ (n + 1)) * legendre n c.

(** Moon: degrees 2 and 3; sun: degree 2. Yielding earth: 1 + h - 3k/2. In mGal. *)
Definition elastic : R := 1 + 0.612 - 3 / 2 * 0.303.
Definition lunar_tide (T lon lat height hour : R) : R :=
  let c := dot (zenith T lon lat hour) (moon_direction T) in
  let r := earth_radius lat height in let d := moon_distance T in
  1000 * elastic * (tidal_term 2 7.3537e25 r d c + tidal_term 3 7.3537e25 r d c).
Definition solar_tide (T lon lat height hour : R) : R :=
  let c := dot (zenith T lon lat hour) (sun_direction T) in
  1000 * elastic * tidal_term 2 1.993e33 (earth_radius lat height) (sun_distance T) c.

(** Time arguments of the instant [i] (microseconds since 1970-01-01T00:00Z), whole seconds:
    Julian centuries from noon on 31 December 1899 and UTC hours since midnight. *)
Definition tide_epoch (o : Z) : Prop := instant (1899, 12, 31)%Z 12 0 0 0 o.
Definition julian_centuries (i : Z) (T : R) : Prop :=
  exists o, tide_epoch o /\ T = IZR ((i - o) / 1000000) / 86400 / 36525.
Definition utc_hours (i : Z) : R := IZR ((i mod (86400 * 1000000)) / 1000000) / 3600.
