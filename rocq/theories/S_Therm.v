(** Specification for properties C46-C49 and C75-C77 (plate cooling). *)
From Coq Require Import List Reals Arith.
From Verif Require Import S_Base.
Import ListNotations.
Open Scope R_scope.

(** Julian year in seconds. *)
Definition year_s : R := 31557600.

(** Age in seconds of a column: given in Myr, or as a distance (m) at spreading rate [u] (m/yr). *)
Definition age_s (time : bool) (u x : R) : R := if time then 1000000 * x * year_s else Rabs x / u * year_s.

(** [T t z] solves the heat equation with diffusivity [k] at time [t] and depth [z]. *)
Definition heat_equation (k : R) (T : R -> R -> R) (t z : R) : Prop :=
  exists (Tz : R -> R) (Tzz : R),
    (forall z', derivable_pt_lim (T t) z' (Tz z')) /\
    derivable_pt_lim Tz z Tzz /\
    derivable_pt_lim (fun t' => T t' z) t (k * Tzz).

(** Turcotte and Schubert's plate solution, cut after ten terms: fraction of the mantle temperature. *)
Definition plate_fraction (k L t z : R) : R :=
  z / L + Rsum 10 (fun i => let n := INR (i + 1) in 2 / (n * PI) * exp (- (n ^ 2 * PI ^ 2 * k * t / L ^ 2)) * sin (n * PI * z / L)).

(** Subsidence of the plate model, cut after three terms. *)
Definition plate_subsidence (rhom rhow a Tm L k t : R) : R :=
  rhom * a * Tm * L / (rhom - rhow) *
  (1 / 2 - 4 / PI ^ 2 * Rsum 3 (fun i => let n := INR (2 * i + 1) in exp (- (n ^ 2 * PI ^ 2 * k * t / L ^ 2)) / n ^ 2)).

(** Temperature of the plate and the mantle below it. *)
Definition plate_T (k L Tm t z : R) : R := if Rlt_dec L z then Tm else Tm * plate_fraction k L t z.
