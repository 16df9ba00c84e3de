(** Model of shipgrav/grav.py: [center_diff] (457-475), [eotvos_full] (194-296),
    [free_air_second_order] (303-318), [wgs_grav] (321-333).  Over R: no rounding, no NaN. *)
From Coq Require Import List ZArith Reals.
From Verif Require Import M_Py M_Np.
Import ListNotations.
Open Scope R_scope.

(** What [center_diff] returns: an array, or the number -999. *)
Inductive diff_result : Type := Diffs (l : list R) | Minus999.

(** grav.py 470, 472: the two difference formulas; [y[2:]], [y[:-2]], [y[1:-1]]. *)
Definition center_diff1 (y : list R) (samp : R) : list R :=
  map2 (fun p m => (p - m) * (samp / 2)) (skipn 2 y) (firstn (length y - 2) y).
Definition center_diff2 (y : list R) (samp : R) : list R :=
  map3 (fun m c p => (m - 2 * c + p) * samp ^ 2)
       (firstn (length y - 2) y) (slice y 1 (length y - 1)) (skipn 2 y).

(** grav.py 457-475, [center_diff] *)
Definition center_diff (y : list R) (n : Z) (samp : R) : diff_result :=
  if (n =? 1)%Z then Diffs (center_diff1 y samp)
  else if (n =? 2)%Z then Diffs (center_diff2 y samp)
  else Minus999.

(** Rows of the arrays of grav.py 253-283 *)
Definition vec3 : Type := (R * R * R)%type.
Definition vadd (u v : vec3) : vec3 :=
  let '(a, b, c) := u in let '(x, y, z) := v in (a + x, b + y, c + z).
Definition vscale (k : R) (v : vec3) : vec3 := let '(x, y, z) := v in (k * x, k * y, k * z).
(** [np.cross] *)
Definition cross (u v : vec3) : vec3 :=
  let '(a, b, c) := u in let '(x, y, z) := v in (b * z - c * y, c * x - a * z, a * y - b * x).
Definition vz (v : vec3) : R := snd v.

(** grav.py 227 *)
Definition We : R := 0.00007292115.
(** grav.py 228 *)
Definition mps2mgal : R := 100000.

(** grav.py 229 and 243-292 for one interior sample: latitude (radians), height and their first
    and second differences, those of the longitude; line 272 is kept as printed ([dlon*clat]). *)
Definition eotvos_point (a b : R) (latr dlat ddlat dlon ddlon ht dht ddht : R) : R :=
  let ecc := (a - b) / a in
  let slat := sin latr in let clat := cos latr in
  let s2lat := sin (2 * latr) in let c2lat := cos (2 * latr) in
  let rp := a * (1 - ecc * slat * slat) in
  let drp := - a * dlat * ecc * s2lat in
  let ddrp := - a * ddlat * ecc * s2lat - 2 * a * dlat * dlat * ecc * c2lat in
  let D := atan (ecc * s2lat) in
  let dD := 2 * dlat * ecc * c2lat in
  let ddD := 2 * ddlat * ecc * c2lat - 4 * dlat * dlat * ecc * s2lat in
  let r := (- rp * sin D, 0, - rp * cos D - ht) in
  let rdot := (- drp * sin D - rp * dD * cos D, 0, - drp * cos D + rp * dD * sin D - dht) in
  let ci := - ddrp * sin D - 2 * drp * dD * cos D - rp * (ddD * cos D - dD * dD * sin D) in
  let ck := - ddrp * cos D + 2 * drp * dD * sin D + rp * (ddD * sin D + dD * dD * cos D) - ddht in
  let rdotdot := (ci, 0, ck) in
  let w := ((dlon + We) * clat, - dlat, - (dlon + We) * slat) in
  let wdot := (dlon * clat - (dlon + We) * dlat * slat, - ddlat,
               - ddlon * slat - (dlon + We) * dlat * clat) in
  let w2xrdot := cross (vscale 2 w) rdot in
  let wdotxr := cross wdot r in
  let wxr := cross w r in
  let wxwxr := cross w wxr in
  let we := (We * clat, 0, - We * slat) in
  let wexr := cross we r in
  let wexwexr := cross we wexr in
  let acc := vadd (vadd (vadd rdotdot w2xrdot) wdotxr) wxwxr in
  (vz acc - vz wexwexr) * mps2mgal.

(** grav.py 194-296, [eotvos_full].  Arrays of different lengths do not stack (ValueError; numpy's
    broadcasting of a single interior sample is not modelled); fewer than three samples leave
    nothing to index on line 293. *)
Definition eotvos_full (lon lat ht : list R) (samp a b : R) : res (list R) :=
  if negb ((length lon =? length lat)%nat && (length ht =? length lat)%nat)%bool then Raise ValueError else
  let latr := map deg2rad lat in
  let lonr := map deg2rad lon in
  let dlat := center_diff1 latr samp in
  let ddlat := center_diff2 latr samp in
  let dlon := center_diff1 lonr samp in
  let ddlon := center_diff2 lonr samp in
  let dht := center_diff1 ht samp in
  let ddht := center_diff2 ht samp in
  let E := map (fun k => eotvos_point a b (nth k (slice latr 1 (length latr - 1)) 0)
                 (nth k dlat 0) (nth k ddlat 0) (nth k dlon 0) (nth k ddlon 0)
                 (nth k (slice ht 1 (length ht - 1)) 0) (nth k dht 0) (nth k ddht 0))
               (seq 0 (length latr - 2)) in
  match E with
  | [] => Raise IndexError
  | e0 :: _ => Ok (e0 :: E ++ [last E 0])
  end.

(** grav.py 303-318, [free_air_second_order], one sample (numpy works elementwise) *)
Definition free_air_second_order (lat ht : R) (free_water : bool) : R :=
  let s2lat := sin (deg2rad lat) ^ 2 in
  if free_water
  then - ((0.22242 - 0.0004398 * s2lat) * ht) + 7.2125e-8 * ht ^ 2
  else - ((0.3087691 - 0.0004398 * s2lat) * ht) + 7.2125e-8 * ht ^ 2.

(** grav.py 321-333, [wgs_grav], one sample *)
Definition wgs_grav (lat : R) : R :=
  let sinsq := sin (deg2rad lat) ^ 2 in
  let num := 1 + 0.00193185265241 * sinsq in
  let den := sqrt (1 - 0.00669437999014 * sinsq) in
  978032.53359 * (num / den).
