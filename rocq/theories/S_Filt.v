(** Specification for property C81 (low-pass filter of the example scripts). *)
From Coq Require Import List Reals ZArith.
From Verif Require Import S_Base.
Import ListNotations.
Open Scope R_scope.

(** Sample [z] of a series continued beyond both ends by point reflection in its end points. *)
Definition reflected (x : list R) (z : Z) : R :=
  let n := Z.of_nat (length x) in
  if (z <? 0)%Z then 2 * nth 0 x 0 - nth (Z.to_nat (- z)) x 0
  else if (z <? n)%Z then nth (Z.to_nat z) x 0
  else 2 * nth (length x - 1) x 0 - nth (Z.to_nat (2 * (n - 1) - z)) x 0.

(** Weights of the filter: 480 of them, ideal low pass with cutoff at a period of 240 samples,
    sin(2 pi m/240)/(pi m), times a Blackman window; their sum is 1. *)
Definition taper (k : nat) : R := 0.42 - 0.5 * cos (2 * PI * INR k / 479) + 0.08 * cos (4 * PI * INR k / 479).
Definition four_minute_low_pass (h : nat -> R) : Prop :=
  Rsum 480 h = 1 /\
  exists K, forall k, (k < 480)%nat ->
    let m := INR k - 239.5 in h k * (PI * m) = K * sin (2 * PI * m / 240) * taper k.

(** The weights applied once forwards and once backwards in time. *)
Definition forwards_backwards (h : nat -> R) (x : Z -> R) (m : Z) : R :=
  Rsum 480 (fun i => Rsum 480 (fun j => h i * h j * x (m + Z.of_nat i - Z.of_nat j)%Z)).

(** Gain at angular frequency [w] per sample. *)
Definition gain (h : nat -> R) (w : R) : R :=
  (Rsum 480 (fun j => h j * cos (w * INR j))) ^ 2 + (Rsum 480 (fun j => h j * sin (w * INR j))) ^ 2.
