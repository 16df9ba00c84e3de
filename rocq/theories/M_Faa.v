(** Model of the common steps of the example scripts (dgs_bgm_comp.py 73-127, and the same lines in
    dgs_raw_comp.py, dgs_ccp_calc.py, mru_coherence.py, interactive_line_pick.py): clean the navigation, find the position
    of each gravity sample, correct gravity to the free-air anomaly.  Over R; [None] is NaN.
    [read_nav] returns strictly increasing times, so that lines 76-77 change nothing. *)
From Coq Require Import List Arith ZArith Reals.
From Verif Require Import M_Py M_Np M_Cal M_Cursor M_Corr M_Tide.
Import ListNotations.
Open Scope R_scope.

(** One row of the navigation table. *)
Record fix_row : Type := Fix { f_time : R; f_lon : option R; f_lat : option R }.

(** dgs_bgm_comp.py 82, dgs_ccp_calc.py 66: [np.where(np.diff(lon) > 1)[0]]; comparisons with NaN are False. *)
Definition nav_bad (lon : list (option R)) : list nat :=
  filter (fun i => match nth i lon None, nth (S i) lon None with
                   | Some a, Some b => if Rlt_dec 1 (b - a) then true else false
                   | _, _ => false
                   end) (seq 0 (length lon - 1)).

(** dgs_bgm_comp.py 83: [drop(bad_inds, axis=0)]; row labels are 0, 1, 2, ... *)
Definition drop_rows {A : Type} (bad : list nat) (l : list A) : list A :=
  map snd (filter (fun p => negb (existsb (Nat.eqb (fst p)) bad)) (combine (seq 0 (length l)) l)).
Definition clean_nav (nav : list fix_row) : list fix_row := drop_rows (nav_bad (map f_lon nav)) nav.

(** scipy.interpolate.interp1d(x, y, kind='linear', fill_value='extrapolate') for increasing [x] (library,
    [_call_linear]): [searchsorted], clipped to 1 .. n-1. *)
Definition interp_index (xs : list R) (v : R) : nat := Nat.min (Nat.max (searchsorted xs v) 1) (length xs - 1).
Definition interp1d (xs : list R) (ys : list (option R)) (v : R) : option R :=
  let hi := interp_index xs v in
  let lo := (hi - 1)%nat in
  match nth lo ys None, nth hi ys None with
  | Some a, Some b =>
      let slope := (b - a) / (nth hi xs 0 - nth lo xs 0) in
      Some (slope * (v - nth lo xs 0) + a)
  | _, _ => None
  end.

(** dgs_bgm_comp.py 90, 99: [e.timestamp()] of an aware time, in seconds. *)
Definition timestamp (t : datetime) : res R :=
  match utcoffset t with
  | Some off => Ok (IZR (utc_us t off) / 1000000)
  | None => Ok (IZR (local_us t) / 1000000)
  end.

(** dgs_bgm_comp.py 105-113 *)
Definition sync (nav : list fix_row) (ts : list R) : list (option R) * list (option R) :=
  (map (interp1d (map f_time nav) (map f_lon nav)) ts, map (interp1d (map f_time nav) (map f_lat nav)) ts).

(** dgs_bgm_comp.py 118-127, positions without NaN: (faa, full_field). *)
Definition corrected (grav lon lat : list R) (times : list datetime) (sampling : R) : res (list R * list R) :=
  let ellipsoid_ht := repeat 0 (length lat) in
  let lat_corr := map2 (fun l h => wgs_grav l + free_air_second_order l h false) lat ellipsoid_ht in
  do eotvos_corr <- eotvos_full lon lat ellipsoid_ht sampling 6378137 6356752.3142;
  do tide_corr <- longman_tide_prediction lon lat times (Alt 0) false;
  let tide_corr := match tide_corr with Total g => g | Components g _ _ => g end in
  Ok (map2 Rplus (map2 Rplus (map2 Rminus grav lat_corr) eotvos_corr) tide_corr,
      map2 Rplus (map2 Rplus grav eotvos_corr) tide_corr).

(** dgs_bgm_comp.py 90-127 for one gravimeter: [rgrav] and its times, the meter's bias.  A position that is
    NaN makes the sample and its neighbours NaN; this case is left out here ([None]); M_Nan.v has it. *)
Definition finite (l : list (option R)) : option (list R) :=
  fold_right (fun o r => match o, r with Some x, Some t => Some (x :: t) | _, _ => None end) (Some []) l.
Definition faa_script (nav : list fix_row) (rgrav : list R) (times : list datetime) (bias sampling : R)
  : option (res (list R * list R)) :=
  match mapM timestamp times with
  | Raise e => Some (Raise e)
  | Ok tsec =>
      let grav := map (fun g => g + bias) rgrav in
      let '(lon_new, lat_new) := sync nav tsec in
      match finite lon_new, finite lat_new with
      | Some lon, Some lat => Some (corrected grav lon lat times sampling)
      | _, _ => None
      end
  end.
