(** Shared vocabulary of the model: Python results, lists, sums.
    Models no single file of /repo; these are the language and numpy constructs
    that every function of shipgrav/*.py uses. *)
From Coq Require Import List ZArith Reals Lia.
Import ListNotations.

(** Exceptions that the modelled code can raise (Python built-in names). *)
Inductive exn : Set :=
| AssertionError | ValueError | IndexError | KeyError | TypeError
| ZeroDivisionError | AttributeError | OverflowError | UnboundLocalError
| FileNotFoundError | LinAlgError | OSError.

(** Outcome of a Python call: a value or an exception. *)
Inductive res (A : Type) : Type :=
| Ok (a : A)
| Raise (e : exn).
Arguments Ok {A} a.
Arguments Raise {A} e.

Definition bind {A B : Type} (r : res A) (f : A -> res B) : res B :=
  match r with Ok a => f a | Raise e => Raise e end.

Notation "'do' x <- r ; k" := (bind r (fun x => k))
  (at level 200, x binder, r at level 100, k at level 200, right associativity).

(** Run [f] over a list left to right; the first exception wins
    (a Python [for] loop or list comprehension). *)
Fixpoint mapM {A B : Type} (f : A -> res B) (l : list A) : res (list B) :=
  match l with
  | [] => Ok []
  | a :: t => do b <- f a; do bs <- mapM f t; Ok (b :: bs)
  end.

(** In-place assignment [l[n] = v] for an index in range. *)
Fixpoint upd {A : Type} (l : list A) (n : nat) (v : A) : list A :=
  match l, n with
  | [], _ => []
  | _ :: t, O => v :: t
  | a :: t, S m => a :: upd t m v
  end.

(** [range(n, 0, -1)]. *)
Fixpoint range_down (n : nat) : list Z :=
  match n with
  | O => []
  | S m => Z.of_nat n :: range_down m
  end.

(** Elementwise combination of two arrays of equal length. *)
Fixpoint map2 {A B C : Type} (f : A -> B -> C) (l1 : list A) (l2 : list B) : list C :=
  match l1, l2 with
  | a :: t1, b :: t2 => f a b :: map2 f t1 t2
  | _, _ => []
  end.

(** Elementwise combination of three arrays. *)
Fixpoint map3 {A B C D : Type} (f : A -> B -> C -> D)
  (l1 : list A) (l2 : list B) (l3 : list C) : list D :=
  match l1, l2, l3 with
  | a :: t1, b :: t2, c :: t3 => f a b c :: map3 f t1 t2 t3
  | _, _, _ => []
  end.

(** Python's built-in [sum] of a sequence of numbers (left to right, from 0). *)
Definition pysum (l : list R) : R := fold_left Rplus l 0%R.

(** Slice [l[a:b]] for natural [a], [b] (bounds past the end are clipped). *)
Definition slice {A : Type} (l : list A) (a b : nat) : list A :=
  firstn (b - a) (skipn a l).

(** Slice [l[a:-b]], [a], [b] natural, [b > 0]. *)
Definition slice_neg {A : Type} (l : list A) (a b : nat) : list A :=
  slice l a (length l - b).

(** [l[-1]] *)
Definition lastr {A : Type} (l : list A) : res A :=
  match rev l with [] => Raise IndexError | a :: _ => Ok a end.

(** [l[n]] for natural [n]. *)
Definition getr {A : Type} (l : list A) (n : nat) : res A :=
  match nth_error l n with Some a => Ok a | None => Raise IndexError end.
