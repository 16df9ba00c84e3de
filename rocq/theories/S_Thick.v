(** Specification for property C100 (crustal thickness along a resampled line of 1000 points). *)
From Coq Require Import List Reals Arith.
From Verif Require Import S_Base S_Crust.
Import ListNotations.
Open Scope R_scope.

(** Harmonics 1 .. 500 of 1000 points, at position [t] in samples. *)
Definition harmonics (c : R) (A B : nat -> R) (t : R) : R :=
  c + Rsum 500 (fun i => let m := S i in A m * cos (2 * PI * INR m * t / 1000) + B m * sin (2 * PI * INR m * t / 1000)).

(** Wavenumber per km of harmonic [m] of a stretch of [P] km, and what the taper from 30 to 5 km leaves of it. *)
Definition harmonic_k (P : R) (m : nat) : R := 2 * PI * INR m / P.
Definition share (k : R) : R := taper (2 * PI / 30) (2 * PI / 5) k.

(** The code treats harmonic [m] half as its lower and half as its upper neighbour; harmonic 500 has no upper one. *)
Definition neighbours (m : nat) : nat * nat := ((m - 1)%nat, Nat.min (m + 1) (999 - m)).
Definition halves (P : R) (f : R -> R) (m : nat) : R :=
  (f (harmonic_k P (fst (neighbours m))) + f (harmonic_k P (snd (neighbours m)))) / 2.
