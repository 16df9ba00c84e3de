(** Specification for the segments written by the interactive picker. *)
From Coq Require Import List Arith ZArith Ascii String Reals.
From Verif Require Import M_Str M_Cursor S_Cursor.
From Coq Require Import List.
Import ListNotations.

(** The pass whose picks are used: the first one answered by 'y' or by nothing. *)
Inductive accepted : list (list event * str) -> list event -> Prop :=
| accepted_now : forall evs answer rest, answer = [] \/ answer = lit "y" -> accepted ((evs, answer) :: rest) evs
| accepted_later : forall evs answer rest evs', answer <> [] -> answer <> lit "y" -> accepted rest evs' ->
    accepted ((evs, answer) :: rest) evs'.

(** The table without its first 480 and last 240 rows. *)
Definition without_edges {A : Type} (full table : list A) : Prop :=
  List.length table = (List.length full - 720)%nat /\
  forall k, (k < List.length table)%nat -> nth_error table k = nth_error full (480 + k).

(** The picks in pairs: segment [j] runs from [a] to [b]. *)
Definition segment (stack : list nat) (j a b : nat) : Prop :=
  exists p q, nth_error stack (2 * j) = Some p /\ nth_error stack (2 * j + 1) = Some q /\
  ((a = p /\ b = q /\ (p <= q)%nat) \/ (a = q /\ b = p /\ (q <= p)%nat)).

(** Decimal numerals without leading zeros. *)
Definition digit_of (d : nat) (c : ascii) : Prop := nth_error (lit "0123456789") d = Some c.
Inductive decimal : nat -> str -> Prop :=
| decimal_one : forall d c, digit_of d c -> decimal d [c]
| decimal_more : forall n s d c, (0 < n)%nat -> decimal n s -> digit_of d c -> decimal (10 * n + d) (s ++ [c]).

(** Name of the file of segment [j] from [a] to [b]. *)
Definition segment_file (j a b : nat) (name : str) : Prop :=
  exists sj sa sb, decimal j sj /\ decimal a sa /\ decimal b sb /\
  name = lit "segment_s" ++ sj ++ lit "_" ++ sa ++ lit "-" ++ sb ++ lit ".dat".

(** Rows [a] to [b-1] of a table. *)
Definition rows_from_to {A : Type} (table : list A) (a b : nat) (c : list A) : Prop :=
  List.length c = (b - a)%nat /\ forall k, (k < b - a)%nat -> nth_error c k = nth_error table (a + k).
