(** Model of example-scripts/dgs_raw_comp.py from its files to what it plots: the laptop files of a gravimeter beside its serial files.
    All times are in UTC (pandas would refuse to compare times without zone with the laptop's).  A cell with text cannot be
    calibrated (TypeError). *)
From Coq Require Import ZArith QArith Reals Qreals Ascii String Arith Bool List.
From Verif Require Import M_Py M_Np M_Str M_Cal M_Ini M_ReadNav M_Table M_Dgs M_Faa M_Nan M_Script M_Serial M_Toml.
Import ListNotations.

(** [None]: outside the model (see M_Toml.v). *)
Definition obind {A B : Type} (x : option (res A)) (f : A -> option (res B)) : option (res B) :=
  match x with None => None | Some (Raise e) => Some (Raise e) | Some (Ok a) => f a end.

(** ** Calibration *)
Definition scale_cell (gain factor : Q) (c : cell) : res cell :=
  match c with Num v => Ok (Num (v * gain / factor)%Q) | NaN => Ok NaN | _ => Raise TypeError end.
Definition shift_cell (z : Q) (c : cell) : cell := match c with Num v => Num (v + z)%Q | _ => NaN end.
(** a statement of lines 162-176, [raw_dgs[name] = raw_dgs[channel] * gain / factor + zero] *)
Definition calibrate_column (d : doc) (factor : Q) (name channel gain zero : str) (raw : frame) : option (res frame) :=
  obind (Some (do col <- get_column raw channel; do g <- sensor d gain; Ok (col, g))) (fun cg =>
  match fin (snd cg) with
  | None => None
  | Some g =>
      obind (Some (do y <- mapM (scale_cell g factor) (fst cg); do z <- sensor d zero; Ok (y, z))) (fun yz =>
      match fin (snd yz) with
      | None => None
      | Some z => Some (Ok (set_column raw name (map (shift_cell z) (fst yz))))
      end)
  end).
(** lines 162-176 in order: new column, channel, gain, zero, counts at full scale (1 for the 10-bit channels) *)
Definition cal_steps : list (str * (str * (str * (str * Q)))) :=
  [(lit "grav_cal", (lit "Gravity", (lit "GravCal", (lit "g0", cal_factor))));
   (lit "long_cal", (lit "Long", (lit "LongCal", (lit "LongOffset", cal_factor))));
   (lit "cross_cal", (lit "Cross", (lit "CrossCal", (lit "CrossOffset", cal_factor))));
   (lit "beam_cal", (lit "Beam", (lit "beamgain", (lit "beamzero", cal_factor))));
   (lit "temp_cal", (lit "Temp", (lit "stempgain", (lit "stempoffset", 1%Q))));
   (lit "pressure_cal", (lit "Pressure", (lit "pressgain", (lit "presszero", 1%Q))));
   (lit "electemp_cal", (lit "ElecTemp", (lit "Etempgain", (lit "Etempzero", 1%Q))))].
Fixpoint calibrate_columns (d : doc) (steps : list (str * (str * (str * (str * Q))))) (raw : frame) : option (res frame) :=
  match steps with
  | [] => Some (Ok raw)
  | (name, (channel, (gain, (zero, factor)))) :: rest =>
      obind (calibrate_column d factor name channel gain zero raw) (calibrate_columns d rest)
  end.
(** lines 162-177 *)
Definition calibrated_table (d : doc) (bias : Q) (raw : frame) : option (res frame) :=
  obind (calibrate_columns d cal_steps raw) (fun raw =>
  Some (do g <- get_column raw (lit "grav_cal"); Ok (set_column raw (lit "grav") (map (shift_cell bias) g)))).

(** ** The first plot *)
(** [(f.date_time > d0) & (f.date_time < d1)] for one row; comparisons with NaT are false *)
Definition in_window (d0 d1 c : cell) : res bool :=
  match c with
  | Time t => Ok (match d0, d1 with Time a, Time b => negb (Qle_bool t a) && negb (Qle_bool b t) | _, _ => false end)
  | NaN => Ok false
  | _ => Raise TypeError
  end.
(** lines 185-192: times and values of the rows in the window; [f.date_time] raises AttributeError if there is no such column *)
Definition window_curve (d0 d1 : cell) (f : frame) (c : str) : res (list (cell * cell)) :=
  do dt <- match column f (lit "date_time") with Some v => Ok v | None => Raise AttributeError end;
  do m <- mapM (in_window d0 d1) dt;
  do y <- get_column f c;
  Ok (map snd (filter fst (combine m (combine dt y)))).

Record comparison : Type := Compare {
  c_laptop : list (cell * cell);  (** lines 185-188 *)
  c_serial : list (cell * cell);  (** lines 189-192 *)
  c_raw : frame;                  (** [raw_dgs], lines 149-177 *)
  c_lon : list (option R);        (** lines 201-205 *)
  c_lat : list (option R);
  c_steps : list R;               (** line 211 *)
  c_faa : list (option R) }.      (** line 233 *)

(** lines 87-233; the bias is a number of the database, line 53 *)
Definition raw_comp (argsort : list Q -> list nat) (fsys : fs) (to_datetime iso : list cell -> res (list cell)) (ship : str)
  (nav_files dgs_files : list str) (bias : Q) (raw_files : list str) (ini_file : str) : option (res comparison) :=
  obind (Some (do nav <- script_nav fsys ship (Some (lit "GPGGA")) false nav_files;
               do d <- dgs_script argsort fsys to_datetime ship (Some (lit "GPGGA")) false nav_files dgs_files (Q2R bias) 1; Ok (nav, d))) (fun nd =>
  let '(nav, (data, faa, _)) := nd in
  let '(fsys, cleaned) := clean_files fsys raw_files in
  obind (Some (do paths <- cleaned; read_dgs_raw fsys to_datetime iso paths ship true)) (fun raw =>
  obind (meter_conf fsys ini_file) (fun conf =>
  obind (calibrated_table conf bias raw) (fun raw =>
  Some (
    do dt <- get_column data (lit "date_time");
    do d1 <- match nth_error dt 500 with Some c => Ok c | None => Raise IndexError end;
    let d0 := nth 0 dt NaN in
    do laptop <- window_curve d0 d1 data (lit "rgrav");
    do serial <- window_curve d0 d1 raw (lit "grav_cal");
    do rt <- get_column raw (lit "date_time");
    do times <- mapM cell_time rt;
    do tsec <- mapM timestamp times;
    let '(lon_new, lat_new) := sync nav tsec in
    do ffaa <- script_filter_nan faa;
    Ok (Compare laptop serial raw lon_new lat_new (map2 Rminus (tl tsec) tsec) ffaa)))))).
