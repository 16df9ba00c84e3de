(** Model of example-scripts/RMBA_calc.py as a whole, from a segment file (as rows, M_Line.v) and the file of values tracked along the
    extended line, to the anomalies and the crustal thickness.  Geodesics (geographiclib, library) are a parameter. *)
From Coq Require Import ZArith QArith Reals Ascii String Arith Bool List.
From Verif Require Import M_Py M_Str M_Ini M_Table M_Dgs M_Faa M_Nan M_Script M_Filt M_Ext M_Line M_Rmba M_Thick M_Ccp.
Import ListNotations.
Open Scope R_scope.

(** RMBA_calc.py 151-152 *)
Definition track_names : list str := [lit "lon"; lit "lat"; lit "dep"; lit "faa"; lit "sed"; lit "age"].
Definition read_track (text : str) : res frame := read_csv (numbered track_names) (csv_rows tab 0 text).
(** [track[c].values]; [None]: a column of texts, which is left out *)
Definition track_column (t : frame) (c : str) : option (list (option R)) :=
  match get_column t c with
  | Ok v => match mapM reading v with Ok x => Some x | Raise _ => None end
  | Raise _ => None
  end.

Record profile : Type := Prof { f_xpts : list R; f_xobs : list R; f_anom : list (option R); f_dep : list (option R); f_sed : list (option R); f_age : list (option R);
  f_mba : list (option R); f_rmba : list (option R); f_thick : list (option R); f_back : list (option R) }.

(** RMBA_calc.py 172-245: distances (175-179), even spacing (181-194), anomalies (211-227), thickness (231-245) *)
Definition profile_of (g : geodesic) (pts : list point) (anom dep sed age : list (option R)) : res profile :=
  match pts with
  | [] => Raise IndexError
  | p0 :: _ =>
      let xpts := ranges g p0 pts in
      let xobs := line_xobs xpts in
      do fi <- resample xpts anom;
      do di <- resample xpts dep;
      do ai <- resample xpts age;
      do si <- resample xpts sed;
      do m <- rmba xobs fi di si ai;
      do c <- line_crust xobs (snd m);
      Ok (Prof xpts xobs fi di si ai (fst m) (snd m) (fst c) (snd c))
  end.
(** RMBA_calc.py 80-245.  [None]: a position of the segment or of the track is missing (geographiclib is given NaN), or the track
    has a column of texts. *)
Definition rmba_script (g : geodesic) (data : list line_row) (fsys : fs) (track_path : str) : option (res profile) :=
  match finite (map l_lat data), finite (map l_lon data) with
  | Some lat, Some lon =>
      some e <- Some (extended_line g (combine lat lon));
      some text <- Some (open_text fsys track_path);
      some t <- Some (read_track text);
      match track_column t (lit "lon"), track_column t (lit "lat"), track_column t (lit "dep"), track_column t (lit "faa"),
            track_column t (lit "sed"), track_column t (lit "age") with
      | Some tlon, Some tlat, Some dep, Some faa, Some sed, Some age =>
          some anom <- Some (embed_nan (fst e) faa (map l_faa data));
          match finite tlat, finite tlon with
          | Some tlat, Some tlon => Some (profile_of g (combine tlat tlon) anom dep sed age)
          | _, _ => None
          end
      | _, _, _, _, _, _ => None
      end
  | _, _ => None
  end.
