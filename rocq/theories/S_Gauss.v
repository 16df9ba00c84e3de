(** Specification for properties C01-C04 (gaussian filter). *)
From Coq Require Import ZArith Reals List Lia.
From Verif Require Import S_Base.
Open Scope R_scope.

(** Number of weights: the odd number 2*floor(fl/2)+1. *)
Definition win_len (fl : Z) : nat := Z.to_nat (2 * (fl / 2) + 1).

(** Index of the centre weight. *)
Definition win_mid (fl : Z) : nat := Z.to_nat (fl / 2).

(** Unnormalised window at signed distance [d] from the centre: a gaussian of
    (|d|-1)*6/fl standard deviations. *)
Definition win_raw (fl : Z) (d : Z) : R :=
  exp (- ((IZR (Z.abs d - 1) * 6 / IZR fl) ^ 2) / 2).

(** Normalised weight number [k], 0 <= k < win_len. *)
Definition weight (fl : Z) (k : nat) : R :=
  win_raw fl (Z.of_nat k - fl / 2) /
  Rsum (win_len fl) (fun j => win_raw fl (Z.of_nat j - fl / 2)).

(** The series extended by 0 to negative times. *)
Definition sample (x : list R) (n : Z) : R :=
  if (n <? 0)%Z then 0 else nth (Z.to_nat n) x 0.

(** Moving weighted sum at time [i]. *)
Definition moving (x : list R) (fl : Z) (i : nat) : R :=
  Rsum (win_len fl) (fun j =>
    weight fl (win_len fl - 1 - j) * sample x (Z.of_nat i - Z.of_nat j)).
