(** Specification for properties C50-C53 (crustal thickness from residual gravity). *)
From Coq Require Import List Reals Arith.
From Verif Require Import S_Base S_Four.
Import ListNotations.
Open Scope R_scope.

(** Thickness (km) of a slab of density contrast [rho] (g/cm^3) whose attraction is -[g] mGal. *)
Definition slab_km (rho g : R) : R := - (g / 1000) / (2 * PI * 6.673e-8 * rho) / 1e5.

Definition mean (l : list R) : R := Rsum (length l) (fun i => nth i l 0) / INR (length l).

(** Taper between wavenumbers [k1] and [k2]. *)
Definition raised_cosine (k1 k2 k : R) : R := (1 + cos (PI * ((k - k1) / (k2 - k1)))) / 2.

(** Wavenumber the code gives bin [i] of an axis of [n] points with spacing [d]. *)
Definition displaced (n : nat) (d : R) (i : nat) : R :=
  2 * PI * (if (2 * i <=? n + 2)%nat then Rabs (INR i - 1) else INR (n + 1 - i)) / (INR n * Rabs d).

(** Sum over bins (a, b) of an [M] x [N] transform and data points (i', j'), of a function of the phase
    2 pi (a (i + i') / M + b (j + j') / N): what two forward transforms in a row compute. *)
Definition double_forward (M N : nat) (w : nat -> nat -> R) (u : nat -> nat -> R) (f : R -> R) (i j : nat) : R :=
  Rsum M (fun a => Rsum N (fun b => Rsum M (fun i' => Rsum N (fun j' =>
    w a b * u i' j' * f (2 * PI * INR a * INR (i + i') / INR M + 2 * PI * INR b * INR (j + j') / INR N))))).

(** Remainder of -i. *)
Definition negmod (n i : nat) : nat := ((n - i) mod n)%nat.

(** Inverse transform, at point (i, j), of the transform of [u] times weights [w]: real part with
    [f] = cos, imaginary part with [f] = sin. *)
Definition filtered (M N : nat) (w u : nat -> nat -> R) (f : R -> R) (i j : nat) : R :=
  / (INR M * INR N) * Rsum M (fun a => Rsum N (fun b => Rsum M (fun i' => Rsum N (fun j' =>
    w a b * u i' j' * f (phase2 M N a b i j i' j'))))).

(** Two-dimensional wavenumber from the displaced ones; a spacing of 0 in y means a single line. *)
Definition displaced2 (nx ny : nat) (dx dy : R) (a b : nat) : R :=
  sqrt (displaced nx dx a ^ 2 + (if Req_EM_T dy 0 then 0 else displaced ny dy b) ^ 2).

(** Weight of wavenumber [k] with cutoffs [k1] < [k2]. *)
Definition taper (k1 k2 k : R) : R :=
  if Rle_dec k k1 then 1 else if Rle_dec k k2 then raised_cosine k1 k2 k else 0.

(** Every wavenumber of a grid with spacings [dx], [dy] lies below that of wavelength [w]. *)
Definition resolved (dx dy w : R) : Prop :=
  (1 / (2 * dx)) ^ 2 + (if Req_EM_T dy 0 then 0 else (1 / (2 * dy)) ^ 2) <= (1 / w) ^ 2.
