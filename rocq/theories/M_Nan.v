(** The same steps as in M_Faa.v and M_Filt.v (dgs_bgm_comp.py 90-139 and the same lines of the other
    scripts) when positions or readings are missing: floating-point NaN is [None], and every numpy
    operation on a NaN gives NaN (also 0*NaN).  Over R otherwise.  Longitudes and latitudes come from
    interp1d of M_Faa.v, so that each may be missing by itself. *)
From Coq Require Import List Arith ZArith Reals.
From Verif Require Import M_Py M_Np M_Cal M_Corr M_Tide M_CC M_Filt M_Faa.
Import ListNotations.
Open Scope R_scope.

(** A float which may be NaN, and elementwise functions. *)
Notation NR := (option R).
Definition nf1 (f : R -> R) (x : NR) : NR := option_map f x.
Definition nf2 (f : R -> R -> R) (x y : NR) : NR :=
  match x, y with Some a, Some b => Some (f a b) | _, _ => None end.
Definition K (c : R) : NR := Some c.
Declare Scope nan_scope.
Delimit Scope nan_scope with nan.
Infix "+" := (nf2 Rplus) : nan_scope.
Infix "-" := (nf2 Rminus) : nan_scope.
Infix "*" := (nf2 Rmult) : nan_scope.
Infix "/" := (nf2 Rdiv) : nan_scope.
Notation "- x" := (nf1 Ropp x) : nan_scope.

(** grav.py 457-475, [center_diff] for n = 1 and n = 2 *)
Definition center_diff1_nan (y : list NR) (samp : R) : list NR :=
  map2 (fun p m => (p - m) * K (samp / 2))%nan (skipn 2 y) (firstn (length y - 2) y).
Definition center_diff2_nan (y : list NR) (samp : R) : list NR :=
  map3 (fun m c p => (m - K 2 * c + p) * K (samp ^ 2))%nan
       (firstn (length y - 2) y) (slice y 1 (length y - 1)) (skipn 2 y).

(** Rows of the arrays of grav.py 253-283; [np.cross] computes each component from four products. *)
Definition nvec : Type := (NR * NR * NR)%type.
Definition nvadd (u v : nvec) : nvec :=
  let '(a, b, c) := u in let '(x, y, z) := v in (a + x, b + y, c + z)%nan.
Definition nvscale (k : R) (v : nvec) : nvec := let '(x, y, z) := v in (K k * x, K k * y, K k * z)%nan.
Definition ncross (u v : nvec) : nvec :=
  let '(a, b, c) := u in let '(x, y, z) := v in (b * z - c * y, c * x - a * z, a * y - b * x)%nan.

(** grav.py 229 and 243-292 for one interior sample, as [eotvos_point] of M_Corr.v. *)
Definition eotvos_point_nan (a b : R) (latr dlat ddlat dlon ddlon ht dht ddht : NR) : NR :=
  let ecc := K ((a - b) / a) in
  let slat := nf1 sin latr in let clat := nf1 cos latr in
  let s2lat := nf1 sin (K 2 * latr)%nan in let c2lat := nf1 cos (K 2 * latr)%nan in
  let rp := (K a * (K 1 - ecc * slat * slat))%nan in
  let drp := (- K a * dlat * ecc * s2lat)%nan in
  let ddrp := (- K a * ddlat * ecc * s2lat - K 2 * K a * dlat * dlat * ecc * c2lat)%nan in
  let D := nf1 atan (ecc * s2lat)%nan in
  let dD := (K 2 * dlat * ecc * c2lat)%nan in
  let ddD := (K 2 * ddlat * ecc * c2lat - K 4 * dlat * dlat * ecc * s2lat)%nan in
  let sD := nf1 sin D in let cD := nf1 cos D in
  let r := (- rp * sD, K 0, - rp * cD - ht)%nan in
  let rdot := (- drp * sD - rp * dD * cD, K 0, - drp * cD + rp * dD * sD - dht)%nan in
  let ci := (- ddrp * sD - K 2 * drp * dD * cD - rp * (ddD * cD - dD * dD * sD))%nan in
  let ck := (- ddrp * cD + K 2 * drp * dD * sD + rp * (ddD * sD + dD * dD * cD) - ddht)%nan in
  let rdotdot := (ci, K 0, ck) in
  let w := ((dlon + K We) * clat, - dlat, - (dlon + K We) * slat)%nan in
  let wdot := (dlon * clat - (dlon + K We) * dlat * slat, - ddlat,
               - ddlon * slat - (dlon + K We) * dlat * clat)%nan in
  let w2xrdot := ncross (nvscale 2 w) rdot in
  let wdotxr := ncross wdot r in
  let wxr := ncross w r in
  let wxwxr := ncross w wxr in
  let we := (K We * clat, K 0, - K We * slat)%nan in
  let wexr := ncross we r in
  let wexwexr := ncross we wexr in
  let acc := nvadd (nvadd (nvadd rdotdot w2xrdot) wdotxr) wxwxr in
  ((snd acc - snd wexwexr) * K mps2mgal)%nan.

(** grav.py 194-296, [eotvos_full] *)
Definition eotvos_full_nan (lon lat ht : list NR) (samp a b : R) : res (list NR) :=
  if negb ((length lon =? length lat)%nat && (length ht =? length lat)%nat)%bool then Raise ValueError else
  let latr := map (nf1 deg2rad) lat in
  let lonr := map (nf1 deg2rad) lon in
  let dlat := center_diff1_nan latr samp in
  let ddlat := center_diff2_nan latr samp in
  let dlon := center_diff1_nan lonr samp in
  let ddlon := center_diff2_nan lonr samp in
  let dht := center_diff1_nan ht samp in
  let ddht := center_diff2_nan ht samp in
  let E := map (fun k => eotvos_point_nan a b (nth k (slice latr 1 (length latr - 1)) None)
                 (nth k dlat None) (nth k ddlat None) (nth k dlon None) (nth k ddlon None)
                 (nth k (slice ht 1 (length ht - 1)) None) (nth k dht None) (nth k ddht None))
               (seq 0 (length latr - 2)) in
  match E with
  | [] => Raise IndexError
  | e0 :: _ => Ok (e0 :: E ++ [last E None])
  end.

(** grav.py 42-187, [longman_tide_prediction] with alt = 0 and without components: lines 153-158 use
    longitude and latitude of the sample in every term of the sum. *)
Definition tide_nan (lon lat : list NR) (times : list datetime) : res (list NR) :=
  if negb (length lon =? length lat)%nat then Raise AssertionError else
  if negb (length lon =? length times)%nat then Raise AssertionError else
  do tts <- mapM tide_time times;
  Ok (map3 (fun lo la tt => nf2 (fun x y => fst (fst (t_out x y 0 (snd tt) (fst tt)))) lo la) lon lat tts).

(** dgs_bgm_comp.py 118-127: (faa, full_field) *)
Definition corrected_nan (grav lon lat : list NR) (times : list datetime) (sampling : R) : res (list NR * list NR) :=
  let ellipsoid_ht := repeat (K 0) (length lat) in
  let lat_corr := map2 (nf2 (fun l h => wgs_grav l + free_air_second_order l h false)) lat ellipsoid_ht in
  do eotvos_corr <- eotvos_full_nan lon lat ellipsoid_ht sampling 6378137 6356752.3142;
  do tide_corr <- tide_nan lon lat times;
  Ok (map2 (nf2 Rplus) (map2 (nf2 Rplus) (map2 (nf2 Rminus) grav lat_corr) eotvos_corr) tide_corr,
      map2 (nf2 Rplus) (map2 (nf2 Rplus) grav eotvos_corr) tide_corr).

(** dgs_bgm_comp.py 90-127 *)
Definition faa_script_nan (nav : list fix_row) (rgrav : list NR) (times : list datetime) (bias sampling : R)
  : res (list NR * list NR) :=
  do tsec <- mapM timestamp times;
  let grav := map (fun g => g + K bias)%nan rgrav in
  let '(lon_new, lat_new) := sync nav tsec in
  corrected_nan grav lon_new lat_new times sampling.

(** The filter of M_Filt.v (library: scipy.signal.filtfilt, lfilter, odd_ext). *)
Definition nsum (l : list NR) : NR := fold_left (nf2 Rplus) l (K 0).
Definition odd_ext_nan (x : list NR) (n : nat) : list NR :=
  let left_end := nth 0 x None in
  let right_end := nth (length x - 1) x None in
  map (fun v => K 2 * left_end - v)%nan (rev (slice x 1 (n + 1))) ++ x ++
  map (fun v => K 2 * right_end - v)%nan (rev (slice x (length x - 1 - n) (length x - 1))).
(** [np.convolve] forms the products of the samples under the filter only: nothing before the start. *)
Definition lfilter_fir_nan (b : list R) (x : list NR) : list NR :=
  map (fun k => nsum (map (fun j => K (nth j b 0%R) * nth (k - j) x None)%nan (filter (fun j => j <=? k)%nat (seq 0 (length b)))))
      (seq 0 (length x)).
(** lfilter: [out_full[:len(zi)] += zi*x0] *)
Definition lfilter_start_nan (b : list R) (x : list NR) (x0 : NR) : list NR :=
  map (fun k => if (k <? length b - 1)%nat then (nth k (lfilter_fir_nan b x) None + K (nth k (lfilter_zi b) 0%R) * x0)%nan
                else nth k (lfilter_fir_nan b x) None) (seq 0 (length x)).
Definition filtfilt_nan (b : list R) (x : list NR) : res (list NR) :=
  let edge := (3 * Nat.max 1 (length b))%nat in
  if (length x <=? edge)%nat then Raise ValueError else
  let ext := odd_ext_nan x edge in
  let y := lfilter_start_nan b ext (nth 0 ext None) in
  let y0 := nth (length y - 1) y None in
  let y := rev (lfilter_start_nan b (rev y) y0) in
  Ok (slice y edge (length y - edge)).
(** dgs_bgm_comp.py 131-139 *)
Definition script_filter_nan (x : list NR) : res (list NR) := filtfilt_nan script_B x.
