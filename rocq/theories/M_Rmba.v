(** Model of example-scripts/RMBA_calc.py, lines 172-227: resampling of a tracked line to even spacing, mantle
    Bouguer anomaly and residual mantle Bouguer anomaly.  Over R; [None] is NaN. *)
From Coq Require Import List Reals Arith Bool.
From Coquelicot Require Import Rbar.
From Verif Require Import M_Py M_CC M_Four M_Therm M_Faa M_Ext M_Coh.
Import ListNotations.
Open Scope R_scope.

(** [np.linspace(0, X, n)], n > 1 *)
Definition linspace (X : R) (n : nat) : list R := map (fun j => INR j * (X / INR (n - 1))) (seq 0 n).
(** RMBA_calc.py 181 *)
Definition line_xobs (xpts : list R) : list R := linspace (last xpts 0) 1000.
(** [np.argsort(x, kind='mergesort')] of scipy's interp1d ([assume_sorted=False]): stable *)
Fixpoint insert_at (p : R * option R) (l : list (R * option R)) : list (R * option R) :=
  match l with [] => [p] | q :: r => if Rle_dec (fst p) (fst q) then p :: l else q :: insert_at p r end.
Definition by_distance (xpts : list R) (ys : list (option R)) : list (R * option R) := fold_right insert_at [] (combine xpts ys).
(** RMBA_calc.py 187-194, one series.  Series of another length and positions outside raise ValueError ([bounds_error]).  scipy's interp1d without extrapolation is np.interp ([_call_linear_np]): at a tracked
    distance the tracked value itself. *)
Definition resample (xpts : list R) (ys : list (option R)) : res (list (option R)) :=
  let xobs := line_xobs xpts in
  if negb (length ys =? length xpts)%nat then Raise ValueError else
  let xs := map fst (by_distance xpts ys) in
  let vs := map snd (by_distance xpts ys) in
  if existsb (fun x => if Rlt_dec x (nth 0 xs 0) then true else if Rlt_dec (last xs 0) x then true else false) xobs
  then Raise ValueError else Ok (map (np_interp xs vs) xobs).

(** RMBA_calc.py 200-208; [np.arange(0, 1351, 50)] has 28 values *)
Definition temps : list R := map (fun i => 50 * INR i) (seq 0 28).
Definition rhos : list R := map (fun T => 3300 * (1 - 3e-5 * (T - 1350))) temps.
Definition drho : list R := np_diff ([1000; 2100; 2900] ++ rhos).
(** RMBA_calc.py 209 *)
Definition dz_c : R := 6000.

Definition osub (a b : option R) : option R := match a, b with Some x, Some y => Some (x - y) | _, _ => None end.
Definition oadd (a b : option R) : option R := match a, b with Some x, Some y => Some (x + y) | _, _ => None end.

(** [grav1d_padded] of a profile with NaN: every Fourier coefficient is NaN, and so is every value *)
Definition nan_grav1d (xobs : list R) (profile : list (option R)) (rho : R) : res (list (option R)) :=
  match finite profile with
  | Some t => do a <- grav1d_padded xobs t 0 rho; Ok (map Some a)
  | None => match xobs with [] => Raise IndexError | _ => Ok (repeat None (length xobs)) end
  end.

(** RMBA_calc.py 221; an infinite depth (not met for these temperatures) would become NaN in the transform *)
Definition isotherm (age : list (option R)) (T : R) : res (list (option R)) :=
  do zw <- therm_Z_halfspace (map (fun o => match o with Some a => a | None => 0 end) age) T 0.01 1350 true 3300 1000 3e-5 1e-6;
  Ok (map2 (fun o z => match o, z with Some _, Some (Finite d) => Some d | _, _ => None end) age (fst zw)).

(** RMBA_calc.py 211-227: (MBA, RMBA) *)
Definition rmba (xobs : list R) (faa dep sed age : list (option R)) : res (list (option R) * list (option R)) :=
  let base := map2 osub dep sed in
  do anom_w <- nan_grav1d xobs dep (nth 0 drho 0);
  do anom_s <- nan_grav1d xobs base (nth 1 drho 0);
  do anom_c <- nan_grav1d xobs (map (fun o => osub o (Some dz_c)) base) (nth 2 drho 0);
  let MBA := map2 osub (map2 osub (map2 osub faa anom_w) anom_s) anom_c in
  do corrs <- mapM (fun i =>
      do ziso <- isotherm age (nth i temps 0);
      nan_grav1d xobs (map (fun o => osub o (Some dz_c)) (map2 osub base ziso)) (nth (i + 3) drho 0)) (seq 0 (length temps - 1));
  let total := map (fun j => fold_left oadd (map (fun row => nth j row None) corrs) (Some 0)) (seq 0 (length xobs)) in
  Ok (MBA, map2 osub MBA total).
