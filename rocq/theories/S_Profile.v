(** Specification for property C116: the profile of anomalies and crustal thickness along an extended line. *)
From Coq Require Import ZArith QArith Reals Qreals Ascii String Arith List.
From Verif Require Import M_Str M_Table M_Ext S_Str S_Table S_Faa.
Import ListNotations.
Open Scope R_scope.

(** A column of numbers, some of them missing, in the rows of a text file. *)
Definition tracked (k : nat) (rows : list (list str)) (col : list (option R)) : Prop :=
  Forall2 (fun r v => exists s, field_at k r s /\ (missing s /\ v = None \/ ~ missing s /\ exists q, number_value s q /\ v = Some (Q2R q))) rows col.
(** The six columns of a tracked line. *)
Definition track_file (text : str) (lon lat : list R) (dep faa sed age : list (option R)) : Prop :=
  exists rows, csv_file tab 0 text rows /\ wide_enough [0; 1; 2; 3; 4; 5]%nat rows /\
    tracked 0 rows (map Some lon) /\ tracked 1 rows (map Some lat) /\ tracked 2 rows dep /\ tracked 3 rows faa /\ tracked 4 rows sed /\ tracked 5 rows age.
(** Distances from the first point. *)
Definition distances (g : geodesic) (lon lat : list R) (xs : list R) : Prop :=
  length xs = length lon /\ length lat = length lon /\ nth 0 xs 0 = 0 /\
  forall i, (0 < i < length lon)%nat -> nth i xs 0 = g_s12 g (nth 0 lat 0, nth 0 lon 0) (nth i lat 0, nth i lon 0).
(** Distances, in any order, that can be told apart; the line does not end where it begins. *)
Definition apart (xs : list R) : Prop := NoDup xs /\ 0 < last xs 0.
(** 1000 values at even steps: at one of the distances its value, elsewhere on the straight line between the values at the nearest
    distances below and above, missing if one of these is. *)
Definition evenly (xs : list R) (ys out : list (option R)) : Prop :=
  length out = 1000%nat /\
  (forall j k, (j < 1000)%nat -> (k < length xs)%nat -> INR j * last xs 0 / 999 = nth k xs 0 -> nth j out None = nth k ys None) /\
  forall j i k, (j < 1000)%nat -> (i < length xs)%nat -> (k < length xs)%nat -> nth i xs 0 < INR j * last xs 0 / 999 < nth k xs 0 ->
    (forall x, In x xs -> ~ nth i xs 0 < x < nth k xs 0) ->
    match nth i ys None, nth k ys None with
    | Some a, Some b => exists v, nth j out None = Some v /\ on_line (nth i xs 0) a (nth k xs 0) b (INR j * last xs 0 / 999) v
    | _, _ => nth j out None = None
    end.
