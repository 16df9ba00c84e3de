(** Specification for properties C88 and C89 (residual mantle Bouguer anomaly). *)
From Coq Require Import List Reals.
From Verif Require Import M_Erf S_Base S_Four S_Therm.
Import ListNotations.
Open Scope R_scope.

(** Density of the mantle (kg/m^3) at temperature [T]. *)
Definition mantle_density (T : R) : R := 3300 * (1 - 3e-5 * (T - 1350)).
(** Densities from the top: water, sediment, crust, then the mantle at 0, 50, ..., 1350 degrees. *)
Definition layer_density (s : nat) : R :=
  match s with O => 1000 | 1%nat => 2100 | 2%nat => 2900 | S (S (S i)) => mantle_density (50 * INR i) end.
(** Heights of the surfaces: sea floor, basement, base of the crust, and the isotherms [z] below it. *)
Definition surface (dep sed : list R) (z : nat -> nat -> R) (s j : nat) : R :=
  match s with
  | O => nth j dep 0
  | 1%nat => nth j dep 0 - nth j sed 0
  | 2%nat => nth j dep 0 - nth j sed 0 - 6000
  | S (S (S i)) => nth j dep 0 - nth j sed 0 - z i j - 6000
  end.
(** Depth [z] of temperature [T] in a half space of the given age (Myr) with diffusivity 1e-6. *)
Definition isotherm_depth (age T z : R) : Prop :=
  0 <= age /\ (age = 0 -> z = 0) /\ (0 < age -> 1350 * erf (z / (2 * sqrt (1e-6 * age_s true 1 age))) = T).
(** Parker's gravity (mGal) of [n] points of a surface, spacing [dx], across a density contrast. *)
Definition surface_gravity (n : nat) (dx : R) (h : list R) (contrast : R) (j : nat) : R :=
  mgal * (2 * PI * G_SI * contrast) *
  parker1 (5 * n) (wavenumber (5 * n) dx) (edge_extended h) 5 (0 - Rsum n (fun i => nth i h 0) / INR n) (2 * n + j).
