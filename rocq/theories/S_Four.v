(** Specification for properties C41-C45 and C74 (gravity of topography and of a layer, by Fourier series). *)
From Coq Require Import List Reals Arith.
From Verif Require Import S_Base.
Import ListNotations.
Open Scope R_scope.

(** Wavenumber of bin [m] of an [N]-point transform with sample spacing [d]: bins above N/2 stand
    for negative frequencies. *)
Definition wavenumber (N : nat) (d : R) (m : nat) : R :=
  2 * PI * INR (Nat.min m (N - m)) / (INR N * Rabs d).

(** Parker's series truncated after [P] powers: sum of k^(p-1)/p! h^p. *)
Definition parker_poly (P : nat) (k h : R) : R := Rsum P (fun p => k ^ p / INR (fact (p + 1)) * h ^ (p + 1)).

(** Parker's field of a periodic profile [h] of [N] points, continued upward by [lift]: real Fourier
    synthesis over all bins but the mean. *)
Definition parker1 (N : nat) (kw : nat -> R) (h : nat -> R) (P : nat) (lift : R) (j : nat) : R :=
  / INR N * Rsum (N - 1) (fun m' => let m := S m' in
    Rsum N (fun l => exp (- lift * kw m) * parker_poly P (kw m) (h l) *
                     cos (2 * PI * INR m * (INR j - INR l) / INR N))).

(** A profile with its end values continued for two lengths on both sides. *)
Definition edge_extended (topo : list R) (l : nat) : R :=
  let n := length topo in
  if (l <? 2 * n)%nat then nth 0 topo 0 else if (l <? 3 * n)%nat then nth (l - 2 * n) topo 0 else nth (n - 1) topo 0.

(** SI gravitational constant used by the code; mGal in one m/s^2. *)
Definition G_SI : R := 6.673e-11.
Definition mgal : R := 1e5.

(** Two dimensions: [M] rows (y) and [N] columns (x). *)
Definition wavenumber2 (M N : nat) (dy dx : R) (a b : nat) : R :=
  sqrt (wavenumber N dx b ^ 2 + wavenumber M dy a ^ 2).
Definition phase2 (M N : nat) (a b : nat) (i j i' j' : nat) : R :=
  2 * PI * INR a * (INR i - INR i') / INR M + 2 * PI * INR b * (INR j - INR j') / INR N.
(** Real Fourier synthesis of a field with response [w k h] at wavenumber k > 0. *)
Definition synthesis2 (M N : nat) (kw : nat -> nat -> R) (h : nat -> nat -> R) (w : R -> R -> R) (i j : nat) : R :=
  / (INR M * INR N) * Rsum M (fun a => Rsum N (fun b => Rsum M (fun i' => Rsum N (fun j' =>
    (if (a + b =? 0)%nat then 0 else w (kw a b) (h i' j')) * cos (phase2 M N a b i j i' j'))))).

Definition cell (g : list (list R)) (i j : nat) : R := nth j (nth i g []) 0.
Definition grid (M N : nat) {A : Type} (g : list (list A)) : Prop := length g = M /\ forall r, In r g -> length r = N.
(** Mean of a grid. *)
Definition grid_mean (M N : nat) (g : list (list R)) : R := Rsum M (fun i => Rsum N (fun j => cell g i j)) / (INR M * INR N).
(** Mirror index of a folded axis. *)
Definition mirror (n i : nat) : nat := if (i <? n)%nat then i else (2 * n - 1 - i)%nat.
