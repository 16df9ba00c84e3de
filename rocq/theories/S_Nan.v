(** Specification for records with missing values ([None]). *)
From Coq Require Import List Arith Reals.
Import ListNotations.

(** Sample [k] of the record is missing. *)
Definition missing (l : list (option R)) (k : nat) : Prop := nth_error l k = Some None.

(** [v] is [l] with numbers in place of the missing values. *)
Definition completes (v : list R) (l : list (option R)) : Prop :=
  length v = length l /\ forall k x, nth_error l k = Some (Some x) -> nth_error v k = Some x.

(** The sample at which the ship's motion is taken for sample [k] of [n]: the sample itself, at the two ends its neighbour. *)
Definition centre (n k : nat) : nat := Nat.max 1 (Nat.min k (n - 2)).

(** What reducing sample [k] needs is missing: its reading, its position, the latitudes around its centre, the
    longitudes before and after its centre. *)
Definition blank (grav lon lat : list (option R)) (n k : nat) : Prop :=
  missing grav k \/ missing lon k \/ missing lat k \/
  missing lat (centre n k - 1) \/ missing lat (centre n k) \/ missing lat (centre n k + 1) \/
  missing lon (centre n k - 1) \/ missing lon (centre n k + 1).

(** Within [d] samples of each other. *)
Definition near (d i k : nat) : Prop := i <= k + d /\ k <= i + d.
