(** Specification for properties C86 and C87 (extended line, embedded anomaly). *)
From Coq Require Import List Reals ZArith.
From Verif Require Import S_Base S_Filt.
Import ListNotations.
Open Scope R_scope.

(** [q] is the number of whole steps in a length: [m] steps fit, [m+1] do not. *)
Definition whole_steps (m : nat) (len step : R) : Prop := INR m * step <= len < (INR m + 1) * step.

(** Tracked values [t], with the low-passed values of a record [f] of [n] samples in the place of the rows
    [e], [e+1], ..., [e+n-1], except 480 at either end of the record. *)
Definition embedded (h : nat -> R) (f : Z -> R) (n e : nat) (t r : list R) : Prop :=
  length r = length t /\
  (forall i, (480 <= i)%nat -> (i + 480 < n)%nat -> nth (e + i) r 0 = forwards_backwards h f (Z.of_nat i)) /\
  (forall j, (j < e + 480)%nat \/ (e + n <= j + 480)%nat -> nth j r 0 = nth j t 0).
