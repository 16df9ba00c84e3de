(** Model of the last plot of three example scripts: low-passed anomalies beside satellite gravity along the same track.
    The satellite values are read by numpy.loadtxt (library, from numpy 1.23 on; the number kinds of M_Str.v). *)
From Coq Require Import ZArith QArith Reals Ascii String Arith Bool List.
From Verif Require Import M_Py M_Str M_Ini M_Table M_Bgm M_Dgs M_Nan M_Filt M_Script M_Ccp.
Import ListNotations.

(** The array of one column: a single row gives an array without dimensions. *)
Inductive array : Type := Scalar (v : fval) | Vector (l : list fval).
(** the fields of a line: up to a comment, between delimiters or ([None]) between white space; none in an empty line *)
Definition txt_fields (delim : option ascii) (line : str) : list str :=
  let body := uncomment (chomp line) in
  match delim with
  | Some d => match body with [] => [] | _ => split [d] body end
  | None => words body
  end.
(** the value in column [col]; underscores are not allowed, other than in float() *)
Definition txt_value (col : nat) (fields : list str) : res fval :=
  match nth_error fields col with
  | Some s => if in_set s "_" then Raise ValueError else py_float s
  | None => Raise ValueError
  end.
(** [np.loadtxt(path, usecols=(col,), delimiter=delim, skiprows=skip)] *)
Definition loadtxt (delim : option ascii) (skip col : nat) (text : str) : res array :=
  do l <- mapM (txt_value col) (filter (fun f => match f with [] => false | _ => true end) (map (txt_fields delim) (skipn skip (readlines text))));
  Ok (match l with [v] => Scalar v | _ => Vector l end).
(** a slice of an array without dimensions raises IndexError *)
Definition sliced (a : array) (f : list fval -> list fval) : res array :=
  match a with Scalar _ => Raise IndexError | Vector l => Ok (Vector (f l)) end.

(** [a[taps:-taps//2]] (M_Filt.script_trim) *)
Definition trim {A : Type} (a : list A) : list A := slice a script_taps (List.length a - 240).
(** [plt.plot(x, y)]: the points *)
Definition plot {A B : Type} (x : list A) (y : list B) : res (list (A * B)) :=
  if (List.length x =? List.length y)%nat then Ok (combine x y) else Raise ValueError.
(** dgs_bgm_comp.py 153-154 and 157-158, and the like *)
Definition plot_anomaly (data : frame) (drop : nat) (faa : list (option R)) : res (list (cell * option R)) :=
  do dt <- get_column data (lit "date_time"); plot (trim (skipn drop dt)) (trim faa).
Definition plot_satellite (data : frame) (drop : nat) (sat : array) : res (list (cell * fval)) :=
  do dt <- get_column data (lit "date_time");
  do s <- sliced sat trim;
  match s with Vector l => plot (trim (skipn drop dt)) l | Scalar _ => Raise IndexError end.

(** dgs_bgm_comp.py 75-158; the sampling rate is 1 *)
Definition meters_plot (argsort : list Q -> list nat) (fsys : fs) (to_datetime : list cell -> res (list cell)) (ship : str)
  (nav_files dgs_files bgm_files : list str) (bias_dgs bias_bgm : R) (sat_path : str)
  : res (list (cell * option R) * list (cell * option R) * list (cell * fval)) :=
  do r <- dgs_bgm_script argsort fsys to_datetime ship nav_files dgs_files bgm_files bias_dgs bias_bgm 1;
  let '((dgs_data, faa_d, _), (bgm_data, faa_b, _)) := r in
  do dfaa <- script_filter_nan faa_d;
  do bfaa <- script_filter_nan faa_b;
  do text <- open_text fsys sat_path;
  do sat <- loadtxt (Some ","%char) 1 3 text;
  do p1 <- plot_anomaly dgs_data 0 dfaa;
  do p2 <- plot_anomaly bgm_data 0 bfaa;
  do p3 <- plot_satellite dgs_data 0 sat;
  Ok (p1, p2, p3).
(** dgs_raw_comp.py 87-121, 224-247 *)
Definition raw_plot (argsort : list Q -> list nat) (fsys : fs) (to_datetime : list cell -> res (list cell)) (ship : str)
  (nav_files dgs_files : list str) (bias : R) (sat_path : str) : res (list (cell * option R) * list (cell * fval)) :=
  do r <- dgs_script argsort fsys to_datetime ship (Some (lit "GPGGA")) false nav_files dgs_files bias 1;
  let '(data, faa, _) := r in
  do ffaa <- script_filter_nan faa;
  do text <- open_text fsys sat_path;
  do sat <- loadtxt None 0 2 text;
  do p1 <- plot_anomaly data 0 ffaa;
  do p2 <- plot_satellite data 0 sat;
  Ok (p1, p2).
(** dgs_ccp_calc.py 61-178, [params] being what the fit gives; lines 131 and 168 leave out the first two rows of both *)
Definition ccp_plot (argsort : list Q -> list nat) (fsys : fs) (to_datetime : list cell -> res (list cell)) (ship : str)
  (nav_files dgs_files : list str) (bias : R) (params : list R) (sat_path : str)
  : option (res (list (cell * option R) * list (cell * option R) * list (cell * fval))) :=
  some r <- ccp_script argsort fsys to_datetime ship nav_files dgs_files bias 1;
  Some (
    do ffaa <- script_filter (skipn 2 (c_faa r));
    do cfaa <- script_filter (ccp_anomaly r params);
    do text <- open_text fsys sat_path;
    do sat <- loadtxt (Some ","%char) 1 3 text;
    do sat <- sliced sat (skipn 2);
    do p1 <- plot_anomaly (c_data r) 2 (map Some ffaa);
    do p2 <- plot_anomaly (c_data r) 2 (map Some cfaa);
    do p3 <- plot_satellite (c_data r) 2 sat;
    Ok (p1, p2, p3)).
