(** Specification for the steps from navigation and gravimeter readings to the free-air anomaly. *)
From Coq Require Import List Reals.
Import ListNotations.
Open Scope R_scope.

(** Strictly increasing numbers. *)
Definition ascending (l : list R) : Prop := forall i j, (i < j < length l)%nat -> nth i l 0 < nth j l 0.

(** [l'] is [l] without the elements at the positions in [bad]. *)
Inductive without {A : Type} (bad : nat -> Prop) : nat -> list A -> list A -> Prop :=
| without_nil : forall k, without bad k [] []
| without_drop : forall k a l l', bad k -> without bad (S k) l l' -> without bad k (a :: l) l'
| without_keep : forall k a l l', ~ bad k -> without bad (S k) l l' -> without bad k (a :: l) (a :: l').

(** A jump of more than one degree to the east between fixes [i] and [i+1]. *)
Definition jump_east (lon : nat -> option R) (i : nat) : Prop :=
  exists a b, lon i = Some a /\ lon (S i) = Some b /\ a + 1 < b.
Definition jump_west (lon : nat -> option R) (i : nat) : Prop :=
  exists a b, lon i = Some a /\ lon (S i) = Some b /\ b < a - 1.

(** (t, v) is on the straight line through (t0, v0) and (t1, v1). *)
Definition on_line (t0 v0 t1 v1 t v : R) : Prop := (v - v0) * (t1 - t0) = (t - t0) * (v1 - v0).

(** The two fixes used for time [t]: the last one before [t] and the next one; at the ends of the
    record the first two or the last two. *)
Definition bracket (xs : list R) (t : R) (k : nat) : Prop :=
  (S k < length xs)%nat /\ (k = O \/ nth k xs 0 < t) /\ (S (S k) = length xs \/ t <= nth (S k) xs 0).
