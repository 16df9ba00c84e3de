(** Model of example-scripts/mru_coherence.py, lines 126-143: the table of the ship's motion from its daily files. *)
From Coq Require Import ZArith QArith Ascii String Bool List.
From Verif Require Import M_Py M_Str M_Ini M_ReadNav M_Table M_Other M_Serial.
Import ListNotations.

(** line 131, one file.  The feed is looked up in the yaml file before the data file is opened. *)
Definition read_feed {I : Type} (specs : feed_specs I) (fsys : fs) (tag path : str) : res frame :=
  match assoc tag (formats specs) with
  | None => Raise AssertionError
  | Some _ => do data <- open_text fsys path; do r <- read_other_stuff specs data tag; Ok (fst r)
  end.

(** line 139: [drop(c, axis=1, inplace=True)] *)
Definition drop_column (f : frame) (c : str) : frame := filter (fun col => negb (str_eqb (fst col) c)) f.
(** line 140: [e.timestamp()]; a missing time has none *)
Definition stamp_seconds (c : cell) : res cell :=
  match c with Time t => Ok (Num t) | NaN => Raise ValueError | _ => Raise AttributeError end.

(** lines 126-140; [to_datetime] is [pd.to_datetime(column, utc=True)] *)
Definition read_mru {I : Type} (to_datetime : list cell -> res (list cell)) (specs : feed_specs I) (fsys : fs) (mru_files : list str) : res frame :=
  do dats <- mapM (read_feed specs fsys (lit "PASHR")) (np_sort mru_files);
  do mru_dat <- concat_frames dats;
  do mystery <- get_column mru_dat (lit "mystery");
  do dt <- to_datetime mystery;
  let mru_dat := drop_column (set_column mru_dat (lit "date_time") dt) (lit "mystery") in
  do tsec <- mapM stamp_seconds dt;
  Ok (set_column mru_dat (lit "tsec") tsec).
