(** Specification for properties C17-C21 (velocities from positions). *)
From Coq Require Import List Reals.
From Verif Require Import S_Base.
Open Scope R_scope.

(** WGS84 axes in metres. *)
Definition semi_major : R := 6378137.
Definition semi_minor : R := 6356752.3142451.

(** Angle in degrees to radians. *)
Definition rad (d : R) : R := d * PI / 180.

(** Radius of curvature of the meridian at geodetic latitude [phi] (radians), in terms of the
    axes only: a^2 b^2 / (a^2 cos^2 + b^2 sin^2)^(3/2). *)
Definition meridian_radius (phi : R) : R :=
  semi_major ^ 2 * semi_minor ^ 2 /
  (sqrt ((semi_major * cos phi) ^ 2 + (semi_minor * sin phi) ^ 2)) ^ 3.

(** Radius of the parallel: distance from the axis, a^2 cos / sqrt(a^2 cos^2 + b^2 sin^2). *)
Definition parallel_radius (phi : R) : R :=
  semi_major ^ 2 * cos phi / sqrt ((semi_major * cos phi) ^ 2 + (semi_minor * sin phi) ^ 2).

(** Value of the polynomial with coefficients [c 0 .. c (n-1)]. *)
Definition poly (n : nat) (c : nat -> R) (x : R) : R := Rsum n (fun d => c d * x ^ d).

(** The parallel radius really is the distance from the axis of the ellipse point whose normal
    makes the angle [phi] with the equator. *)
Definition on_ellipse_with_normal (phi x z : R) : Prop :=
  x ^ 2 / semi_major ^ 2 + z ^ 2 / semi_minor ^ 2 = 1 /\
  exists k, 0 < k /\ 2 * x / semi_major ^ 2 = k * cos phi /\ 2 * z / semi_minor ^ 2 = k * sin phi.
