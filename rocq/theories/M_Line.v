(** Model of example-scripts/interactive_line_pick.py from its files to the segment files, and of the part of
    example-scripts/RMBA_calc.py that reads such a file and places its anomaly in the profile along the extended line.
    A number written to a segment file is read back as it was and an empty field as NaN (library: to_csv, read_csv). *)
From Coq Require Import ZArith QArith Reals Ascii String Arith Bool List.
From Verif Require Import M_Py M_Str M_Cal M_Ini M_ReadNav M_Table M_Bgm M_Dgs M_Cursor M_Seg M_Faa M_Nan M_Script M_Filt M_Ext.
Import ListNotations.
Open Scope R_scope.

(** A row of the table: the columns of the gravimeter file, then the new ones in the order of their making. *)
Record line_row : Type := Line { l_data : list (str * cell); l_tsec : R; l_grav : option R; l_lon : option R; l_lat : option R;
  l_faa : option R; l_full : option R; l_filt : option R }.
(** the first line of a segment file, interactive_line_pick.py 178 *)
Definition line_names (r : line_row) : list str :=
  map fst (l_data r) ++ [lit "tsec"; lit "grav"; lit "lon_new"; lit "lat_new"; lit "faa"; lit "full_field"; lit "faa_filt"].
(** row [k] of a table *)
Definition frame_row (f : frame) (k : nat) : list (str * cell) := map (fun c => (fst c, nth k (snd c) NaN)) f.

(** interactive_line_pick.py 59-101; the sampling rate is 1, line 31 *)
Definition line_table (argsort : list Q -> list nat) (fsys : fs) (to_datetime : list cell -> res (list cell)) (ship : str)
  (nav_files dgs_files : list str) (bias : R) : res (list line_row) :=
  do nav <- script_nav fsys ship (Some (lit "GPGGA")) false nav_files;
  do d <- script_meter argsort (read_dgs_laptop fsys to_datetime dgs_files ship None);
  let '(data, times, rgrav) := d in
  do tsec <- mapM timestamp times;
  let grav := map (fun g => nf2 Rplus g (K bias)) rgrav in
  let '(lon_new, lat_new) := sync nav tsec in
  do r <- corrected_nan grav lon_new lat_new times 1;
  let '(faa, full_field) := r in
  do ffaa <- script_filter_nan faa;
  Ok (map (fun k => Line (frame_row data k) (nth k tsec 0) (nth k grav None) (nth k lon_new None) (nth k lat_new None)
                         (nth k faa None) (nth k full_field None) (nth k ffaa None)) (seq 0 (length tsec))).

(** What the cursor looks at; a point that is NaN is not drawn (here at 0), and the cursor snaps to times only. *)
Definition shown (x : option R) : R := match x with Some v => v | None => 0 end.
Definition line_view (r : line_row) : row := Row (l_tsec r) (shown (l_lon r)) (shown (l_lat r)).
(** interactive_line_pick.py 59-178 *)
Definition line_script (argsort : list Q -> list nat) (fsys : fs) (to_datetime : list cell -> res (list cell)) (ship : str)
  (nav_files dgs_files : list str) (bias minx maxy : R) (passes : list (list event * str)) (d : dir line_row) (answer : str)
  : option (res (dir line_row)) :=
  match line_table argsort fsys to_datetime ship nav_files dgs_files bias with
  | Raise e => Some (Raise e)
  | Ok rows => line_pick line_view rows (map (fun r => shown (l_filt r)) rows) minx maxy passes d answer
  end.

(** [loc_assign] and [embed] of M_Ext.v with missing values, RMBA_calc.py 158-168 *)
Definition loc_assign_nan (col : list (option R)) (a : nat) (v : list (option R)) : res (list (option R)) :=
  let rows := (Nat.min (length col) (a + length v) - a)%nat in
  if (rows =? length v)%nat then
    Ok (map (fun i => if (a <=? i)%nat && (i <? a + length v)%nat then nth (i - a) v None else nth i col None) (seq 0 (length col)))
  else if (rows =? 0)%nat && (length v =? length col)%nat then Ok col
  else Raise ValueError.
Definition embed_nan (n_ext : nat) (track_faa data_faa : list (option R)) : res (list (option R)) :=
  do ffaa <- script_filter_nan data_faa;
  loc_assign_nan track_faa (n_ext + script_taps) (slice_neg ffaa script_taps script_taps).
(** RMBA_calc.py 80-168: number of points added at each end, the extended line, and its anomaly column.
    [None]: a position of the segment is missing (geographiclib is given NaN). *)
Definition rmba_line (g : geodesic) (data : list line_row) (track_faa : list (option R)) : option (res (nat * list point * list (option R))) :=
  match finite (map l_lat data), finite (map l_lon data) with
  | Some lat, Some lon =>
      Some (do e <- extended_line g (combine lat lon);
            do r <- embed_nan (fst e) track_faa (map l_faa data);
            Ok (fst e, snd e, r))
  | _, _ => None
  end.
