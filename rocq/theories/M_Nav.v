(** Model of shipgrav/nav.py. *)
From Coq Require Import List Reals Arith.
From Verif Require Import M_Py M_Np.
Import ListNotations.
Open Scope R_scope.

(** nav.py 4-5, [tay10] (the same list is grav.py 12-13) *)
Definition tay10 : list R :=
  [1/1260; -5/504; 5/84; -5/21; 5/6; 0; -5/6; 5/21; -5/84; 5/504; -1/1260].

(** nav.py 31-33 *)
Definition a_wgs : R := 6378137.
Definition b_wgs : R := 6356752.3142451.
Definition e2_wgs : R := 1 - b_wgs ^ 2 / a_wgs ^ 2.

(** nav.py 49-52: entries [:5] and [-5:] become NaN ([None]). *)
Definition nan_edges (v : list R) : list (option R) :=
  map (fun i => if orb (i <? 5)%nat (length v - 5 <=? i)%nat then None else Some (nth i v 0))
      (seq 0 (length v)).

(** nav.py 8-54, [latlon_to_EN]; finite inputs. The test on line 27-28 for a length attribute
    holds for lists. Returns (vn, ve). *)
Definition latlon_to_EN (lon lat : list R) (freq : R) : res (list (option R) * list (option R)) :=
  if negb (length lon =? length lat)%nat then Raise AssertionError else
  if negb (10 <? length lon)%nat then Raise AssertionError else
  let sin2lat := map (fun l => sin (deg2rad l) ^ 2) lat in
  let e2term := map (fun s => sqrt (1 - e2_wgs * s)) sin2lat in
  let dlat := map deg2rad (convolve_same lat tay10) in
  let dlon := map deg2rad (convolve_same lon tay10) in
  let vn := map2 (fun d e => a_wgs * (1 - e2_wgs) * (d / e ^ 3) * freq) dlat e2term in
  let ve := map3 (fun d l e => a_wgs * d * (cos (deg2rad l) / e) * freq) dlon lat e2term in
  Ok (nan_edges vn, nan_edges ve).

(** nav.py 57-72, [ENvel_to_course_heading], one sample (numpy works elementwise).
    Returns (heading, vel). *)
Definition ENvel_to_course_heading1 (ve vn : R) : R * R :=
  (rad2deg (arctan2 ve vn), sqrt (ve ^ 2 + vn ^ 2)).

(** nav.py 57-72 on arrays. *)
Definition ENvel_to_course_heading (ve vn : list R) : list R * list R :=
  (map2 (fun e n => fst (ENvel_to_course_heading1 e n)) ve vn,
   map2 (fun e n => snd (ENvel_to_course_heading1 e n)) ve vn).

(** nav.py 75-91, [rotate_acceleration_EN_to_cl], one sample. Returns (ac, al). *)
Definition rotate_acceleration_EN_to_cl (heading accE accN : R) : R * R :=
  let cosa := cos (deg2rad heading) in
  let sina := sin (deg2rad heading) in
  (accE * cosa - accN * sina, accE * sina + accN * cosa).
