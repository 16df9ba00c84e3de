(** Model of example-scripts/mru_coherence.py from its files to the curves that it plots: coherence of three motions of the ship
    with four monitors of the gravimeter.  The times of the motion are in order (C96), as np.interp needs. *)
From Coq Require Import ZArith QArith Reals Qreals Ascii String Arith Bool List.
From Verif Require Import M_Py M_Str M_Cal M_Ini M_ReadNav M_Table M_Other M_Bgm M_Dgs M_Faa M_Nan M_Script M_Mru M_Coh.
Import ListNotations.
Open Scope R_scope.

(** [coherence(x, y)] when the monitor [x] may be NaN: one NaN makes the Fourier coefficients of its segment NaN, hence the means
    over the segments and every value.  Samples after the last segment are not looked at. *)
Definition last_used (n : nat) : nat := ((nsegments n - 1) * (nperseg n - noverlap n) + nperseg n)%nat.
Definition coherence_nan (x : list (option R)) (y : list R) : list R * list (option R) :=
  let r := coherence (map (fun v => match v with Some a => a | None => 0 end) x) y in
  if existsb (fun v => match v with Some _ => false | None => true end) (firstn (last_used (length x)) x)
  then (fst r, map (fun _ => None) (snd r)) else r.

(** line 148 and line 156 *)
Definition motions : list str := [lit "Pitch"; lit "Roll"; lit "Heave"].
Definition monitors : list str := [lit "vcc"; lit "ve"; lit "al"; lit "ax"].
(** lines 156-158 *)
Definition monitor_curve (data : frame) (mru_interp : list R) (monitor : str) : res (str * (list R * list (option R))) :=
  do c <- get_column data monitor; do x <- mapM reading c; Ok (monitor, coherence_nan x mru_interp).
(** lines 148-163; a column with text is refused by [rolling] (pandas' DataError, here TypeError) *)
Definition motion_curves (data : frame) (tsec : list R) (mru : frame) (motion : str) : res (str * list (str * (list R * list (option R)))) :=
  do t <- get_column mru (lit "tsec"); do mru_tsec <- mapM reading t;
  do c <- get_column mru (motion ++ lit ":g"); do v <- mapM reading c;
  do m <- mru_interp tsec (map (fun x => match x with Some a => a | None => 0 end) mru_tsec) v;
  do curves <- mapM (monitor_curve data m) monitors;
  Ok (motion, curves).
(** lines 68-163: what is plotted.  The posix times of lines 76-77 are made here from the same column. *)
Definition motion_script {I : Type} (argsort : list Q -> list nat) (fsys : fs) (to_datetime : list cell -> res (list cell)) (ship : str)
  (nav_files dgs_files : list str) (bias : R) (specs : feed_specs I) (mru_files : list str)
  : res (list (str * list (str * (list R * list (option R))))) :=
  do d <- dgs_script argsort fsys to_datetime ship (Some (lit "GPGGA")) false nav_files dgs_files bias 1;
  let '(data, faa, full_field) := d in
  do ffaa <- script_filter_nan faa;
  do mru <- read_mru to_datetime specs fsys mru_files;
  do dt <- get_column data (lit "date_time");
  do times <- mapM cell_time dt;
  do tsec <- mapM timestamp times;
  mapM (motion_curves data tsec mru) motions.
