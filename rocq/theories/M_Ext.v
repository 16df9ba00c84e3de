(** Model of example-scripts/RMBA_calc.py, lines 84-124 and 158-168: extension of a line segment beyond both ends, and
    embedding of its filtered free-air anomaly in the values tracked along the extended line.  Over R.  Geodesics
    (geographiclib, library) are a parameter. *)
From Coq Require Import List Reals Arith ZArith Bool.
From Verif Require Import M_Py M_CC M_Four M_Filt.
Import ListNotations.
Open Scope R_scope.

(** (latitude, longitude) *)
Definition point : Type := (R * R)%type.
(** [Inverse(...)['s12']], [Inverse(...)['azi2']], [Direct(point, azimuth, distance)] *)
Record geodesic : Type := Geo { g_s12 : point -> point -> R; g_azi2 : point -> point -> R; g_direct : point -> R -> R -> point }.

(** RMBA_calc.py 99-102: distance of each point from the first *)
Definition ranges (g : geodesic) (p0 : point) (pts : list point) : list R :=
  map (fun i => if (i =? 0)%nat then 0 else g_s12 g p0 (nth i pts p0)) (seq 0 (length pts)).

(** RMBA_calc.py 86-124.  [np.mean] of no numbers and 0/0 are NaN, and [int(nan)] raises ValueError; a
    quotient by zero is infinite otherwise, and [int(inf)] raises OverflowError.  [l_ext/dx_avg] is not negative. *)
Definition extended_line (g : geodesic) (pts : list point) : res (nat * list point) :=
  match pts with
  | [] => Raise IndexError
  | p0 :: _ =>
      let p1 := last pts p0 in
      let faz01 := g_azi2 g p0 p1 in
      let faz10 := g_azi2 g p1 p0 in
      let l_seg := g_s12 g p0 p1 in
      let l_ext := if Rlt_dec l_seg 500e3 then l_seg else 500e3 in
      if (length pts <=? 1)%nat then Raise ValueError else
      let dx_avg := np_mean (np_diff (ranges g p0 pts)) in
      if Req_EM_T dx_avg 0 then (if Req_EM_T l_ext 0 then Raise ValueError else Raise OverflowError) else
      let n_ext := Z.to_nat (Int_part (l_ext / dx_avg)) in
      let frnt_ext := map (fun i => g_direct g p0 faz10 (dx_avg * (INR i + 1))) (seq 0 n_ext) in
      let back_ext := map (fun i => g_direct g p1 faz01 (dx_avg * (INR i + 1))) (seq 0 n_ext) in
      Ok (n_ext, rev frnt_ext ++ pts ++ back_ext)
  end.

(** [track.loc[a:a+len(v)-1, 'faa'] = v] (library) for row labels 0, 1, 2, ...: labels beyond the table are
    passed over; a different number of values and rows raises ValueError, except that nothing happens when no row
    is selected and there are as many values as rows in the table. *)
Definition loc_assign (col : list R) (a : nat) (v : list R) : res (list R) :=
  let rows := (Nat.min (length col) (a + length v) - a)%nat in
  if (rows =? length v)%nat then
    Ok (map (fun i => if (a <=? i)%nat && (i <? a + length v)%nat then nth (i - a) v 0 else nth i col 0) (seq 0 (length col)))
  else if (rows =? 0)%nat && (length v =? length col)%nat then Ok col
  else Raise ValueError.

(** RMBA_calc.py 158-168 *)
Definition embed (n_ext : nat) (track_faa data_faa : list R) : res (list R) :=
  do ffaa <- script_filter data_faa;
  loc_assign track_faa (n_ext + script_taps) (slice_neg ffaa script_taps script_taps).
