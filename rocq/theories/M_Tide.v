(** Model of shipgrav/grav.py, lines 20-187: tidal correction (Longman 1959).
    Over R: no rounding; where numpy would divide 0 by 0 (moon's node at exactly 180 degrees,
    line 132) and return NaN, Coq's division gives 0. *)
From Coq Require Import List ZArith Reals.
From Verif Require Import M_Py M_Np M_Cal.
Import ListNotations.
Open Scope R_scope.

(** grav.py 32: [datetime(1899, 12, 31, 12, 0, 0, tzinfo=timezone.utc)] *)
Definition origin_time : datetime := mk_datetime 1899 12 31 12 0 0 0 (Some 0%Z).

(** grav.py 20-39, [_convert_datetime_tidetime]: (julian century, hour). *)
Definition convert_datetime_tidetime (timestamp : datetime) : res (R * R) :=
  do dt <- sub_us timestamp origin_time;
  let days := IZR (td_days dt) + IZR (td_seconds dt) / 3600 / 24 in
  let julian_century := days / 36525 in
  let julian_hour := IZR (hour timestamp) + IZR (minute timestamp) / 60 + IZR (second timestamp) / 3600 in
  Ok (julian_century, julian_hour).

(** grav.py 77-83: the loop body; line 83 is a comparison without effect. *)
Definition tide_time (timestamp : datetime) : res (R * R) :=
  do ab <- convert_datetime_tidetime timestamp;
  let '(a, b) := ab in
  Ok (a, if Rlt_dec b 0 then b + 24 else b).

(** grav.py 89-101, constants *)
Definition t_mu : R := 6.673e-8.
Definition t_M : R := 7.3537e25.
Definition t_S : R := 1.993e33.
Definition t_e : R := 0.05490.
Definition t_m : R := 0.074804.
Definition t_c : R := 3.84402e10.
Definition t_c1 : R := 1.495e13.
Definition t_h2 : R := 0.612.
Definition t_k2 : R := 0.303.
Definition t_a : R := 6.378270e8.
Definition t_i : R := 0.08979719.
Definition t_omega : R := deg2rad 23.452.

(** grav.py 110-116: mean longitudes of moon, perigee, sun, node *)
Definition t_s (T : R) : R := 4.720023434 + 8399.709299*T + 0.0000440696*(T*T).
Definition t_p (T : R) : R := 5.835124713 + 71.01800936*T - 0.000180545*(T*T) - 0.00000021817*(T*T*T).
Definition t_h (T : R) : R := 4.88162792 + 628.3319509*T + 0.00000527962*(T*T).
Definition t_N (T : R) : R := 4.523588564 - 33.75715303*T + 0.000036749*(T*T).

(** grav.py 119-121: inclination of the orbit to the equator, right ascension of the intersection *)
Definition t_I (T : R) : R :=
  acos (cos t_omega * cos t_i - sin t_omega * sin t_i * cos (t_N T)).
Definition t_nu (T : R) : R := asin (sin t_i * sin (t_N T) / sin (t_I T)).

(** grav.py 123 (with L = -lon, line 106): hour angle of the mean sun *)
Definition t_t (lon t0 : R) : R := deg2rad (15 * (t0 - 12) - - lon).

(** grav.py 126 *)
Definition t_chi (lon t0 T : R) : R := t_t lon t0 + t_h T - t_nu T.

(** grav.py 128-134 *)
Definition t_cos_alpha (T : R) : R :=
  cos (t_N T) * cos (t_nu T) + sin (t_N T) * sin (t_nu T) * cos t_omega.
Definition t_sin_alpha (T : R) : R := sin t_omega * sin (t_N T) / sin (t_I T).
Definition t_alpha (T : R) : R := 2 * atan (t_sin_alpha T / (1 + t_cos_alpha T)).
Definition t_xi (T : R) : R := t_N T - t_alpha T.

(** grav.py 137-140: longitude of the moon in its orbit from the equator *)
Definition t_sigma (T : R) : R := t_s T - t_xi T.
Definition t_L_moon (T : R) : R :=
  let s := t_s T in let p := t_p T in let h := t_h T in
  t_sigma T + 2*t_e*sin (s - p) + (5/4)*t_e*t_e*sin (2*(s - p)) +
  (15/4)*t_m*t_e*sin (s - 2*h + p) + (11/8)*t_m*t_m*sin (2*(s - h)).

(** grav.py 144-151: sun *)
Definition t_p1 (T : R) : R := 4.908229461 + 0.03000526416*T + 0.000007902463*(T*T).
Definition t_e1 (T : R) : R := 0.01675104 - 0.0000418*T - 0.000000126*(T*T).
Definition t_chi1 (lon t0 T : R) : R := t_t lon t0 + t_h T.
Definition t_L_sun (T : R) : R := t_h T + 2*t_e1 T*sin (t_h T - t_p1 T).

(** grav.py 153-158: cosines of the zenith angles of moon and sun *)
Definition t_cos_theta (lon lat t0 T : R) : R :=
  let lamb := deg2rad lat in let I := t_I T in let l := t_L_moon T in let chi := t_chi lon t0 T in
  sin lamb*sin I*sin l + cos lamb*((cos (0.5*I))^2 * cos (l - chi) + (sin (0.5*I))^2 * cos (l + chi)).
Definition t_cos_phi (lon lat t0 T : R) : R :=
  let lamb := deg2rad lat in let l := t_L_sun T in let chi1 := t_chi1 lon t0 T in
  sin lamb*sin t_omega*sin l +
  cos lamb*((cos (0.5*t_omega))^2 * cos (l - chi1) + (sin (0.5*t_omega))^2 * cos (l + chi1)).

(** grav.py 162-164 (and 103): distance from the centre of the earth, in cm *)
Definition t_C (lat : R) : R := sqrt (1 / (1 + 0.006738*(sin (deg2rad lat))^2)).
Definition t_r (lat alt : R) : R := t_C lat * t_a + alt * 100.

(** grav.py 166-174: distances of moon and sun *)
Definition t_aprime : R := 1 / (t_c * (1 - t_e * t_e)).
Definition t_aprime1 (T : R) : R := 1 / (t_c1 * (1 - t_e1 T * t_e1 T)).
Definition t_d (T : R) : R :=
  let s := t_s T in let p := t_p T in let h := t_h T in
  1 / ((1/t_c) + t_aprime*t_e*cos (s - p) + t_aprime*t_e*t_e*cos (2*(s - p))
       + (15/8)*t_aprime*t_m*t_e*cos (s - 2*h + p) + t_aprime*t_m*t_m*cos (2*(s - h))).
Definition t_D (T : R) : R := 1 / ((1/t_c1) + t_aprime1 T*t_e1 T*cos (t_h T - t_p1 T)).

(** grav.py 177-180: lunar and solar accelerations (cm/s^2) *)
Definition t_gm (lon lat alt t0 T : R) : R :=
  let r := t_r lat alt in let d := t_d T in let ct := t_cos_theta lon lat t0 T in
  (t_mu*t_M*r/(d*d*d))*(3*ct^2 - 1) + (3/2)*(t_mu*t_M*r*r/(d*d*d*d))*(5*ct^3 - 3*ct).
Definition t_gs (lon lat alt t0 T : R) : R :=
  let r := t_r lat alt in let D := t_D T in let cp := t_cos_phi lon lat t0 T in
  t_mu*t_S*r/(D*D*D)*(3*cp^2 - 1).

(** grav.py 182-185: factor for the yielding earth, and the outputs in mGal *)
Definition t_love : R := 1 + t_h2 - 1.5*t_k2.
Definition t_out (lon lat alt t0 T : R) : R * R * R :=
  let gm := t_gm lon lat alt t0 T in let gs := t_gs lon lat alt t0 T in
  ((gm + gs) * 1e3*t_love, gm*1e3*t_love, gs*1e3*t_love).

(** The altitude argument: one number, or one for each sample. *)
Inductive altitude : Type := Alt (h : R) | Alts (hs : list R).

(** What the call returns: g0, or (g0, gm, gs). *)
Inductive tide_result : Type := Total (g0 : list R) | Components (g0 gm gs : list R).

(** grav.py 42-187, [longman_tide_prediction] for numpy arrays.  Altitudes of another length than
    the positions do not broadcast (except length 1, which is not modelled) and raise. *)
Definition longman_tide_prediction (lon lat : list R) (times : list datetime) (alt : altitude)
    (return_components : bool) : res tide_result :=
  if negb (length lon =? length lat)%nat then Raise AssertionError else
  if negb (length lon =? length times)%nat then Raise AssertionError else
  do tts <- mapM tide_time times;
  do alts <- match alt with
             | Alt h => Ok (repeat h (length lon))
             | Alts hs => if (length hs =? length lon)%nat then Ok hs else Raise ValueError
             end;
  let outs := map2 (fun f tt => f (snd tt) (fst tt)) (map3 t_out lon lat alts) tts in
  let g0 := map (fun o => fst (fst o)) outs in
  if return_components
  then Ok (Components g0 (map (fun o => snd (fst o)) outs) (map snd outs))
  else Ok (Total g0).
