(** Model of dgs_bgm_comp.py, lines 90-127, in floating point: POSIX times, the positions of the
    gravity samples between the fixes, and the free-air anomaly, with rounded operations (M_Float.v, M_FaaFl.v).
    M_Faa.v has the same lines over the real numbers.  Longitudes, latitudes and readings are numbers of the machine. *)
From Coq Require Import List ZArith Reals.
From Verif Require Import M_Py M_Np M_Cal M_Faa M_Float M_FaaFl.
Import ListNotations.
Open Scope R_scope.

(** scipy.interpolate.interp1d, [_call_linear]: comparisons are exact, each operation is rounded. *)
Definition interp1d_fl (rnd : R -> R) (xs : list R) (ys : list (option R)) (v : R) : option R :=
  let hi := interp_index xs v in
  let lo := (hi - 1)%nat in
  match nth lo ys None, nth hi ys None with
  | Some a, Some b =>
      let slope := rnd (rnd (b - a) / rnd (nth hi xs 0 - nth lo xs 0)) in
      Some (rnd (rnd (slope * rnd (v - nth lo xs 0)) + a))
  | _, _ => None
  end.

(** dgs_bgm_comp.py 105-113; lines 90 and 99, and [time_sec] of read_nav: [timestamp()] divides whole microseconds, correctly rounded. *)
Definition sync_fl (rnd : R -> R) (nav : list fix_row) (ts : list R) : list (option R) * list (option R) :=
  let time_sec := map (fun f => rnd (f_time f)) nav in
  (map (interp1d_fl rnd time_sec (map f_lon nav)) ts, map (interp1d_fl rnd time_sec (map f_lat nav)) ts).

(** dgs_bgm_comp.py 90-127 for one gravimeter, as [faa_script] of M_Faa.v; [None] if a position is missing. *)
Definition faa_script_fl (F : farith) (nav : list fix_row) (rgrav : list R) (times : list datetime) (bias sampling : R)
  : option (res (list R * list R)) :=
  match mapM timestamp times with
  | Raise e => Some (Raise e)
  | Ok tsec =>
      let grav := map (fun g => rnd F (g + bias)) rgrav in
      let '(lon_new, lat_new) := sync_fl (rnd F) nav (map (rnd F) tsec) in
      match finite lon_new, finite lat_new with
      | Some lon, Some lat => Some (corrected_fl F grav lon lat times sampling)
      | _, _ => None
      end
  end.
