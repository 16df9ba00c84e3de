(** Specification vocabulary: finite sums.  Nothing here refers to the model. *)
From Coq Require Import Reals List Lia Lra.
Import ListNotations.
Open Scope R_scope.

(** Sum of [f 0 .. f (n-1)]. *)
Fixpoint Rsum (n : nat) (f : nat -> R) : R :=
  match n with
  | O => 0
  | S m => Rsum m f + f m
  end.
