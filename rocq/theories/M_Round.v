(** Model of shipgrav/utils.py, lines 9-71 ([gaussian_filter], [_gaussian_coeffs]), in
    floating point: every arithmetic operation is followed by a rounding.

    [rnd] is the rounding of one operation and [fexp] the exponential of the library;
    both are arguments, so that nothing here depends on how they are computed.  With no
    rounding ([rnd] the identity, [fexp] the real exponential) these are the functions of
    M_Gauss.v (theorem C98_unrounded).  Not modelled: overflow to infinity, which cannot
    happen while the samples are below 1e300. *)
From Coq Require Import List ZArith Reals.
From Verif Require Import M_Py.
Import ListNotations.
Open Scope R_scope.

(** The built-in [sum] of an array of numpy floats (utils.py 38 and 70): left to right,
    starting from 0, one rounding for each addition. *)
Definition pysum_fl (rnd : R -> R) (l : list R) : R :=
  fold_left (fun s v => rnd (s + v)) l 0.

(** utils.py 59-63: the loop that fills the half window, as in M_Gauss.v. *)
Definition gauss_step_fl (rnd fexp : R -> R) (half : Z) (frac : R)
  (st : nat * list R) (i : Z) : nat * list R :=
  let '(m, g) := st in
  let x := rnd (rnd (IZR half - IZR i) * frac) in
  let x := rnd (- (1 / 2) * rnd (x * x)) in
  (S m, upd g m (fexp x)).

(** utils.py 43-71, [_gaussian_coeffs].  [np.floor(.5*fl)] is exact. *)
Definition gaussian_coeffs_fl (rnd fexp : R -> R) (fl : Z) : res (list R) :=
  let half := (fl / 2)%Z in
  let coeff_len := (half + 1)%Z in
  if (fl =? 0)%Z then Raise ZeroDivisionError else
  let frac := rnd (6 / IZR fl) in
  if (coeff_len <? 0)%Z then Raise ValueError else
  let n := Z.to_nat coeff_len in
  let '(_, g) := fold_left (gauss_step_fl rnd fexp half frac) (range_down n) (O, repeat 0 n) in
  match g with
  | [] => Raise IndexError
  | g0 :: t =>
      let full := rev t ++ [g0] ++ t in
      let s := pysum_fl rnd full in
      Ok (map (fun c => rnd (c / s)) full)
  end.

(** utils.py 34-38: the filter loop; [ring] is the ring buffer. *)
Fixpoint gf_loop_fl (rnd : R -> R) (coeffs ring : list R) (x : list R) : list R :=
  match x with
  | [] => []
  | xi :: rest =>
      let ring := tl ring ++ [xi] in
      let filt_vec := map2 (fun a b => rnd (a * b)) ring coeffs in
      pysum_fl rnd filt_vec :: gf_loop_fl rnd coeffs ring rest
  end.

(** utils.py 9-40, [gaussian_filter]. *)
Definition gaussian_filter_fl (rnd fexp : R -> R) (x : list R) (fl : Z) : res (list R) :=
  if (Z.of_nat (length x) <=? fl)%Z then Raise AssertionError else
  do coeffs <- gaussian_coeffs_fl rnd fexp fl;
  let filt_len := length coeffs in
  Ok (gf_loop_fl rnd coeffs (repeat 0 filt_len) x).
