(** Model of example-scripts/dgs_bgm_comp.py 75-127 and of the same lines of the other scripts: from the
    navigation files and the files of the gravimeters to the free-air anomaly.  Library: the sort of pandas is a parameter ([argsort], numpy's,
    whose order of equal keys is not specified); times are cut to whole microseconds. *)
From Coq Require Import ZArith QArith Qround Reals Qreals Ascii String Bool List.
From Verif Require Import M_Py M_Np M_Str M_Cal M_Ini M_ReadNav M_Table M_Bgm M_Dgs M_Faa M_Nan.
Import ListNotations.
Open Scope Z_scope.

(** ** Dates *)
(** CPython [_ord2ymd] ([(n + 50) >> 5] is the division by 32) *)
Definition ord2ymd (n : Z) : Z * Z * Z :=
  let n := n - 1 in
  let n400 := n / 146097 in let n := n mod 146097 in
  let n100 := n / 36524 in let n := n mod 36524 in
  let n4 := n / 1461 in let n := n mod 1461 in
  let n1 := n / 365 in let n := n mod 365 in
  let year := n400 * 400 + 1 + n100 * 100 + n4 * 4 + n1 in
  if (n1 =? 4) || (n100 =? 4) then (year - 1, 12, 31) else
  let month := (n + 50) / 32 in
  let preceding := days_before_month year month in
  if n <? preceding then (year, month - 1, n - days_before_month year (month - 1) + 1) else (year, month, n - preceding + 1).
(** [pd.Timestamp] in UTC of an instant in microseconds since 1970 *)
Definition of_us (us : Z) : res datetime :=
  let '(y, m, d) := ord2ymd (us / us_per_day + epoch_ord) in
  let r := us mod us_per_day in
  datetime_new y m d (r / (3600 * us_per_sec)) (r / (60 * us_per_sec) mod 60) (r / us_per_sec mod 60) (r mod us_per_sec) (Some 0).
(** a cell of a column of times; a missing time has no [timestamp()] *)
Definition cell_time (c : cell) : res datetime :=
  match c with Time t => of_us (Qfloor (t * inject_Z us_per_sec)) | NaN => Raise ValueError | _ => Raise AttributeError end.

(** ** Sorting *)
(** [sort_values(c)] and [reset_index(drop=True)]: rows without a time come last, in their old order *)
Definition time_key (c : cell) : option Q := match c with Time t => Some t | _ => None end.
Definition some_of {A : Type} (l : list (option A)) : list A := flat_map (fun o => match o with Some a => [a] | None => [] end) l.
Definition sort_order (argsort : list Q -> list nat) (col : list cell) : list nat :=
  let keys := map time_key col in
  let idx := seq 0 (List.length col) in
  let known := filter (fun i => is_some (nth i keys None)) idx in
  let unknown := filter (fun i => negb (is_some (nth i keys None))) idx in
  map (fun j => nth j known 0%nat) (argsort (some_of keys)) ++ unknown.
Definition take_rows (idx : list nat) (f : frame) : frame := map (fun c => (fst c, map (fun i => nth i (snd c) NaN) idx)) f.
Definition sort_values (argsort : list Q -> list nat) (f : frame) (c : str) : res frame :=
  do col <- get_column f c; Ok (take_rows (sort_order argsort col) f).

(** ** The scripts *)
(** lines 92, 100: [rgrav + bias] needs a number *)
Definition reading (c : cell) : res (option R) :=
  match c with Num q => Ok (Some (Q2R q)) | NaN => Ok None | _ => Raise TypeError end.
(** column [time_sec] of the table of fixes *)
Definition nav_fix (r : M_ReadNav.fix_row) : M_Faa.fix_row := Fix (IZR (time r) / 1000000)%R (fix_lon r) (fix_lat r).
(** dgs_bgm_comp.py 75-83.  An integer (-999) cannot be sorted; the rows of a table are in order.
    [clean]: lines 82-83, only in dgs_bgm_comp.py and dgs_ccp_calc.py; [talker]: only in the other three. *)
Definition script_nav (fsys : fs) (ship : str) (talker : option str) (clean : bool) (nav_files : list str) : res (list M_Faa.fix_row) :=
  do r <- read_nav fsys ship nav_files 1 talker None 0;
  match r with
  | Refused => Raise AttributeError
  | Table rows => Ok (if clean then clean_nav (map nav_fix rows) else map nav_fix rows)
  end.
(** dgs_bgm_comp.py 87-92 and 96-100: [d] is what the reader returns; the sorted table, its times and readings *)
Definition script_meter (argsort : list Q -> list nat) (d : res (option frame)) : res (frame * list datetime * list (option R)) :=
  do d <- d;
  match d with
  | None => Raise AttributeError
  | Some data =>
      do data <- sort_values argsort data (lit "date_time");
      do dt <- get_column data (lit "date_time");
      do times <- mapM cell_time dt;
      do g <- get_column data (lit "rgrav");
      do rgrav <- mapM reading g;
      Ok (data, times, rgrav)
  end.
(** dgs_bgm_comp.py 105-127 for one meter: the table with its new columns [faa] and [full_field] *)
Definition script_anomaly (nav : list M_Faa.fix_row) (bias sampling : R) (m : frame * list datetime * list (option R))
  : res (frame * list (option R) * list (option R)) :=
  let '(data, times, rgrav) := m in
  do r <- faa_script_nan nav rgrav times bias sampling;
  Ok (data, fst r, snd r).
(** dgs_raw_comp.py 87-121 ([talker] GPGGA, [clean] false), dgs_ccp_calc.py 61-102, mru_coherence.py 68-102, interactive_line_pick.py 59-90 *)
Definition dgs_script (argsort : list Q -> list nat) (fsys : fs) (to_datetime : list cell -> res (list cell)) (ship : str) (talker : option str)
  (clean : bool) (nav_files dgs_files : list str) (bias sampling : R) : res (frame * list (option R) * list (option R)) :=
  do nav <- script_nav fsys ship talker clean nav_files;
  do d <- script_meter argsort (read_dgs_laptop fsys to_datetime dgs_files ship None);
  script_anomaly nav bias sampling d.
(** dgs_bgm_comp.py 75-127: both meters *)
Definition dgs_bgm_script (argsort : list Q -> list nat) (fsys : fs) (to_datetime : list cell -> res (list cell)) (ship : str)
  (nav_files dgs_files bgm_files : list str) (bias_dgs bias_bgm sampling : R)
  : res ((frame * list (option R) * list (option R)) * (frame * list (option R) * list (option R))) :=
  do nav <- script_nav fsys ship None true nav_files;
  do d <- script_meter argsort (read_dgs_laptop fsys to_datetime dgs_files ship None);
  do b <- script_meter argsort (read_bgm_raw fsys to_datetime bgm_files ship None None);
  do x <- script_anomaly nav bias_dgs sampling d;
  do y <- script_anomaly nav bias_bgm sampling b;
  Ok (x, y).
