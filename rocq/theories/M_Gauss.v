(** Model of shipgrav/utils.py, lines 9-71: [gaussian_filter], [_gaussian_coeffs]. *)
From Coq Require Import List ZArith Reals.
From Verif Require Import M_Py.
Import ListNotations.
Open Scope R_scope.

(** utils.py 59-63: the loop that fills the half window.  [i] runs over
    [range(coeff_len, 0, -1)], [m] over 0,1,2,...; the write is in place. *)
Definition gauss_step (half : Z) (frac : R) (st : nat * list R) (i : Z) : nat * list R :=
  let '(m, g) := st in
  let x := (IZR half - IZR i) * frac in
  let x := - (1 / 2) * (x ^ 2) in
  (S m, upd g m (exp x)).

(** utils.py 43-71, [_gaussian_coeffs].  [np.floor(.5*fl)] is floor division.
    [np.zeros] of a negative size is a ValueError, [gauss_prms[0]] of an empty
    array an IndexError, [6./fl] for fl = 0 a ZeroDivisionError. *)
Definition gaussian_coeffs (fl : Z) : res (list R) :=
  let half := (fl / 2)%Z in
  let coeff_len := (half + 1)%Z in
  if (fl =? 0)%Z then Raise ZeroDivisionError else
  let frac := 6 / IZR fl in
  if (coeff_len <? 0)%Z then Raise ValueError else
  let n := Z.to_nat coeff_len in
  let '(_, g) := fold_left (gauss_step half frac) (range_down n) (O, repeat 0 n) in
  match g with
  | [] => Raise IndexError
  | g0 :: t =>
      let full := rev t ++ [g0] ++ t in
      let s := pysum full in
      Ok (map (fun c => c / s) full)
  end.

(** utils.py 34-38: the filter loop; [ring] is the ring buffer. *)
Fixpoint gf_loop (coeffs ring : list R) (x : list R) : list R :=
  match x with
  | [] => []
  | xi :: rest =>
      let ring := tl ring ++ [xi] in
      let filt_vec := map2 Rmult ring coeffs in
      pysum filt_vec :: gf_loop coeffs ring rest
  end.

(** utils.py 9-40, [gaussian_filter]. *)
Definition gaussian_filter (x : list R) (fl : Z) : res (list R) :=
  if (Z.of_nat (length x) <=? fl)%Z then Raise AssertionError else
  do coeffs <- gaussian_coeffs fl;
  let filt_len := length coeffs in
  Ok (gf_loop coeffs (repeat 0 filt_len) x).
