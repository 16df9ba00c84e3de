(** Specification for properties C13-C16 (interactive picker). *)
From Coq Require Import List ZArith Reals.
From Verif Require Import M_Cursor.
Import ListNotations.
Open Scope R_scope.

(** Row [i] is the first row nearest in time to [x]. *)
Definition nearest (d : list row) (x : R) (i : nat) : Prop :=
  (exists r, nth_error d i = Some r /\
    (forall j r', nth_error d j = Some r' -> Rabs (x - tsec r) <= Rabs (x - tsec r')) /\
    (forall j r', (j < i)%nat -> nth_error d j = Some r' -> Rabs (x - tsec r) < Rabs (x - tsec r'))).

(** Abstract undo stack after a history: left clicks push the nearest row, right
    clicks drop the latest pick if there is one. *)
Inductive picks (d : list row) : list event -> list nat -> Prop :=
| picks_nil : picks d [] []
| picks_left : forall evs st x i, picks d evs st -> nearest d x i ->
    picks d (evs ++ [Click 1 (Some x)]) (st ++ [i])
| picks_left_nowhere : forall evs st, picks d evs st -> picks d (evs ++ [Click 1 None]) st
| picks_right : forall evs st i xd, picks d evs (st ++ [i]) -> picks d (evs ++ [Click 3 xd]) st
| picks_right_empty : forall evs xd, picks d evs [] -> picks d (evs ++ [Click 3 xd]) []
| picks_other : forall evs st b xd, picks d evs st -> b <> 1%Z -> b <> 3%Z ->
    picks d (evs ++ [Click b xd]) st
| picks_move : forall evs st ia xd, picks d evs st -> picks d (evs ++ [Move ia xd]) st.

(** The line's points have strictly increasing x. *)
Definition increasing (l : list (R * R)) : Prop :=
  forall i j p q, (i < j)%nat -> nth_error l i = Some p -> nth_error l j = Some q -> fst p < fst q.

(** Point [k] of the line is the first one at or right of [xd], or the last one. *)
Definition snapped (l : list (R * R)) (xd : R) (k : nat) : Prop :=
  (k < length l)%nat /\
  (forall j p, (j < k)%nat -> nth_error l j = Some p -> fst p < xd) /\
  (k = (length l - 1)%nat \/ exists p, nth_error l k = Some p /\ xd <= fst p).

(** The last movement of a history. *)
Fixpoint last_move (evs : list event) : option (bool * R) :=
  match evs with
  | [] => None
  | ev :: t =>
      match last_move t with
      | Some m => Some m
      | None => match ev with Move ia xd => Some (ia, xd) | _ => None end
      end
  end.
