(** Specification for properties C82-C84 (accelerations from navigation, level error, correction). *)
From Coq Require Import List Reals.
From Verif Require Import S_Base S_Nav S_CC.
Import ListNotations.
Open Scope R_scope.

(** Weighted derivative of [f] at sample [k], from samples k-5 .. k+5. *)
Definition deriv (d : nat -> R) (f : nat -> R) (k : nat) : R := Rsum 11 (fun u => d u * f (k - 5 + u)%nat).

(** Velocities in m/s from positions in degrees, [samp] samples a second. *)
Definition north_velocity (d : nat -> R) (lat : list R) (samp : R) (k : nat) : R :=
  meridian_radius (rad (nth k lat 0)) * rad (deriv d (fun i => nth i lat 0) k) * samp.
Definition east_velocity (d : nat -> R) (lon lat : list R) (samp : R) (k : nat) : R :=
  parallel_radius (rad (nth k lat 0)) * rad (deriv d (fun i => nth i lon 0) k) * samp.

(** Acceleration components in mGal. *)
Definition mgal (d : nat -> R) (v : nat -> R) (samp : R) (k : nat) : R := 100000 * samp * deriv d v k.

(** Missing accelerations count as zero. *)
Definition sound (v : option R) : R := match v with Some x => x | None => 0 end.
