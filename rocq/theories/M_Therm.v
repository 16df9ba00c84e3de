(** Model of the plate cooling functions, /repo/shipgrav/grav.py 889-1128, over exact reals.
    [x] and [z] are arrays; NaN is [None].  The spreading rate [u] and the plate thickness [zL0] are
    taken to be non-zero (numpy returns infinities or NaN with a warning otherwise). *)
From Coq Require Import List Reals Arith Bool ZArith.
From Coquelicot Require Import Rbar.
From Verif Require Import M_Py M_Erf M_Cursor.
Import ListNotations.
Open Scope R_scope.

(** grav.py 928, 979, 1037 *)
Definition secyr : R := 365.25 * 24 * 3600.
(** grav.py 930-933, 981-984, 1041-1044 *)
Definition therm_time (time : bool) (u x : R) : R :=
  if time then x * 1e6 * secyr else Rabs x / (u / secyr).

(** grav.py 924, 975, 1035 *)
Definition To : R := 0.

(** [(y)**.5] and [np.sqrt(y)] of array elements *)
Definition np_sqrt (y : R) : option R := if Rlt_dec y 0 then None else Some (sqrt y).

(** [erf(Z/(2*s))] where numpy's division by zero gives a signed infinity or NaN *)
Definition erf_ratio (Z s : R) : option R :=
  if Req_EM_T s 0 then (if Rlt_dec 0 Z then Some 1 else if Rlt_dec Z 0 then Some (-1) else None)
  else Some (erf (Z / (2 * s))).

(** grav.py 938: one temperature *)
Definition half_T (k Tm X Z : R) : option R :=
  match np_sqrt (k * X) with
  | None => None
  | Some s => option_map (fun e => To + (Tm - To) * e) (erf_ratio Z s)
  end.
(** grav.py 941-942, 988-989: one subsidence *)
Definition half_W (k Tm rhom rhow a X : R) : option R :=
  option_map (fun s => 2 * rhom * a * (Tm - To) / (rhom - rhow) * s) (np_sqrt (k * X / PI)).

(** grav.py 889-944: rows are depths, columns distances or ages *)
Definition therm_halfspace (x z : list R) (u Tm : R) (time : bool) (rhom rhow a k : R)
  : res (list (list (option R)) * list (option R)) :=
  let X := map (therm_time time u) x in
  let T := map (fun Z => map (fun t => half_T k Tm t Z) X) z in
  if Req_EM_T rhom rhow then Raise ZeroDivisionError else
  match z with
  | [] => Raise IndexError
  | _ :: _ => Ok (T, map (half_W k Tm rhom rhow a) X)
  end.

(** grav.py 948-991 *)
Definition therm_Z_halfspace (x : list R) (T u Tm : R) (time : bool) (rhom rhow a k : R)
  : res (list (option Rbar) * list (option R)) :=
  let X := map (therm_time time u) x in
  if Req_EM_T Tm To then Raise ZeroDivisionError else
  let Z := map (fun t => match np_sqrt (k * t), erfcinv ((T - Tm) / (To - Tm)) with
                         | Some s, Some r => Rbar_mult' (Finite (2 * s)) r
                         | _, _ => None
                         end) X in
  if Req_EM_T rhom rhow then Raise ZeroDivisionError else
  Ok (Z, map (half_W k Tm rhom rhow a) X).

(** grav.py 1046-1066: one temperature before the mantle is filled in *)
Definition plate_series (k zL0 Tm t Z : R) : R :=
  let Tterm2 := 2 / PI * exp (- k * PI ^ 2 * t / zL0 ^ 2) * sin (PI * Z / zL0) in
  let Tterm3 := 1 / PI * exp (- 4 * k * PI ^ 2 * t / zL0 ^ 2) * sin (2 * PI * Z / zL0) in
  let Tterm4 := 2 / PI / 3 * exp (- 9 * k * PI ^ 2 * t / zL0 ^ 2) * sin (3 * PI * Z / zL0) in
  let Tterm5 := 2 / PI / 4 * exp (- 16 * k * PI ^ 2 * t / zL0 ^ 2) * sin (4 * PI * Z / zL0) in
  let Tterm6 := 2 / PI / 5 * exp (- 25 * k * PI ^ 2 * t / zL0 ^ 2) * sin (5 * PI * Z / zL0) in
  let Tterm7 := 2 / PI / 6 * exp (- 36 * k * PI ^ 2 * t / zL0 ^ 2) * sin (6 * PI * Z / zL0) in
  let Tterm8 := 2 / PI / 7 * exp (- 49 * k * PI ^ 2 * t / zL0 ^ 2) * sin (7 * PI * Z / zL0) in
  let Tterm9 := 2 / PI / 8 * exp (- 64 * k * PI ^ 2 * t / zL0 ^ 2) * sin (8 * PI * Z / zL0) in
  let Tterm10 := 2 / PI / 9 * exp (- 81 * k * PI ^ 2 * t / zL0 ^ 2) * sin (9 * PI * Z / zL0) in
  let Tterm11 := 2 / PI / 10 * exp (- 100 * k * PI ^ 2 * t / zL0 ^ 2) * sin (10 * PI * Z / zL0) in
  To + (Tm - To) * (Z / zL0 + Tterm2 + Tterm3 + Tterm4 + Tterm5 + Tterm6 + Tterm7 +
                    Tterm8 + Tterm9 + Tterm10 + Tterm11).

(** grav.py 1068-1069: rows below the plate *)
Definition plate_row (k zL0 Tm : R) (t : list R) (Z : R) : list R :=
  if Rlt_dec zL0 Z then map (fun _ => Tm) t else map (fun t => plate_series k zL0 Tm t Z) t.

(** grav.py 1070-1074 *)
Definition plate_W (k zL0 Tm rhom rhow a t : R) : R :=
  let Wterm2 := 4 / PI ^ 2 * exp (- k * PI ^ 2 * t / zL0 ^ 2) in
  let Wterm3 := 4 / (9 * PI ^ 2) * exp (- k * 9 * PI ^ 2 * t / zL0 ^ 2) in
  let Wterm4 := 4 / (25 * PI ^ 2) * exp (- k * 25 * PI ^ 2 * t / zL0 ^ 2) in
  rhom * a * (Tm - To) * zL0 / (rhom - rhow) * (1 / 2 - Wterm2 - Wterm3 - Wterm4).

(** grav.py 994-1076 *)
Definition therm_plate (x z : list R) (u zL0 Tm : R) (time : bool) (rhom rhow a k : R) : res (list (list R) * list R) :=
  let t := map (therm_time time u) x in
  let T := map (plate_row k zL0 Tm t) z in
  match z with
  | [] => Raise IndexError
  | _ :: _ =>
      if Req_EM_T rhom rhow then Raise ZeroDivisionError else
      Ok (T, map (plate_W k zL0 Tm rhom rhow a) t)
  end.

(** [np.arange(start, stop, step)]: ceil((stop - start)/step) values *)
Definition arange (start stop step : R) : list R :=
  map (fun i => start + INR i * step) (seq 0 (Z.to_nat (- Int_part (- ((stop - start) / step))))).

(** grav.py 1079-1128 *)
Definition therm_Z_plate (x T : list R) (u zL0 Tm : R) (time : bool) (minz maxz zsp rhom rhow a k : R) : res (list (list R)) :=
  if Req_EM_T zsp 0 then Raise ZeroDivisionError else
  let z := arange minz maxz zsp in
  do r <- therm_plate x z u zL0 Tm time rhom rhow a k;
  let Tp := fst r in
  mapM (fun Ti => mapM (fun j =>
      do i <- argmin (map (fun row => Rabs (nth j row 0 - Ti)) Tp);
      getr z i) (seq 0 (length x))) T.
