(** Tables as used by the gravimeter readers of /repo/shipgrav/io.py: cells, columns, and the
    calls of pandas that these readers make (read_csv, to_numeric, to_datetime, concat).
    Simplifications: no quoting in csv files; integer and float columns are not told apart; infinite
    numbers and booleans are text; numbers are exact decimals; the conversion of texts to dates
    ([pd.to_datetime] on text) is a parameter. *)
From Coq Require Import ZArith QArith Ascii String Bool List.
From Verif Require Import M_Py M_Str M_Cal M_Ini.
Import ListNotations.
Open Scope Z_scope.

(** A cell; [Time] in seconds since 1970-01-01T00:00Z; [NaN] is also NaT and None. *)
Inductive cell : Type := Num (q : Q) | NaN | Txt (s : str) | Time (t : Q).

(** A DataFrame: named columns of equal length. *)
Definition frame : Type := list (str * list cell).
Definition nrows (f : frame) : nat := match f with [] => 0 | (_, v) :: _ => List.length v end.
(** [df[c]] *)
Fixpoint column (f : frame) (c : str) : option (list cell) :=
  match f with
  | [] => None
  | (k, v) :: t => if str_eqb k c then Some v else column t c
  end.
Definition get_column (f : frame) (c : str) : res (list cell) :=
  match column f c with Some v => Ok v | None => Raise KeyError end.
(** [df[c] = v] *)
Fixpoint set_column (f : frame) (c : str) (v : list cell) : frame :=
  match f with
  | [] => [(c, v)]
  | (k, w) :: t => if str_eqb k c then (k, v) :: t else (k, w) :: set_column t c v
  end.

(** the names of several frames, each once, in order of appearance *)
Definition has (l : list str) (c : str) : bool := existsb (str_eqb c) l.
Definition add_name (l : list str) (c : str) : list str := if has l c then l else l ++ [c].
Definition all_names (fs : list frame) : list str := fold_left add_name (concat (map (map fst) fs)) [].
(** [pd.concat(frames, ignore_index=True)]: rows one after the other, columns by name *)
Definition concat_frames (fs : list frame) : res frame :=
  match fs with
  | [] => Raise ValueError
  | _ => Ok (map (fun c => (c, concat (map (fun f => match column f c with Some v => v | None => repeat NaN (nrows f) end) fs)))
                 (all_names fs))
  end.

(** ** Texts *)
(** a line without its newline *)
Definition chomp (s : str) : str := rstrip_by (Ascii.eqb nl) s.
Definition blank (delim : ascii) (s : str) : bool :=
  forallb (fun c => (Ascii.eqb c " " || Ascii.eqb c tab) && negb (Ascii.eqb c delim)) s.
(** [pd.read_csv]: the fields of each line (after [skip] lines), blank lines left out *)
Definition csv_rows (delim : ascii) (skip : nat) (text : str) : list (list str) :=
  map (split [delim]) (filter (fun l => negb (blank delim l)) (map chomp (skipn skip (readlines text)))).
(** column number [k]; short lines are filled up *)
Definition field_column (k : nat) (rows : list (list str)) : list str := map (fun r => nth k r []) rows.

(** a decimal number *)
Definition numeral (s : str) : option Q :=
  if in_set s "_" then None else match py_float s with Ok (FDec m e) => Some (dec_Q m e) | _ => None end.
Definition is_some {A : Type} (o : option A) : bool := match o with Some _ => true | None => false end.
(** pandas, default na_values *)
Definition na_values : list str :=
  [[]; lit "#N/A"; lit "#N/A N/A"; lit "#NA"; lit "-1.#IND"; lit "-1.#QNAN"; lit "-NaN"; lit "-nan"; lit "1.#IND"; lit "1.#QNAN";
   lit "<NA>"; lit "N/A"; lit "NA"; lit "NULL"; lit "NaN"; lit "None"; lit "n/a"; lit "nan"; lit "null"].
Definition is_na (s : str) : bool := existsb (str_eqb s) na_values.
(** a column is numeric if all its fields are numbers or missing *)
Definition infer_column (l : list str) : list cell :=
  if forallb (fun s => is_na s || is_some (numeral s)) l
  then map (fun s => if is_na s then NaN else match numeral s with Some q => Num q | None => NaN end) l
  else map (fun s => if is_na s then NaN else Txt s) l.
(** the columns asked for must occur in some line, if there is a line at all *)
Definition check_columns (ks : list nat) (rows : list (list str)) : res unit :=
  match rows with
  | [] => Ok tt
  | _ => if forallb (fun k => existsb (fun r => (k <? List.length r)%nat) rows) ks then Ok tt else Raise ValueError
  end.
(** the columns of [pd.read_csv(path, delimiter, names, usecols, skiprows)] *)
Definition csv_frame (cols : list (str * nat)) (rows : list (list str)) : frame :=
  map (fun c => (fst c, infer_column (field_column (snd c) rows))) cols.
Definition read_csv (cols : list (str * nat)) (rows : list (list str)) : res frame :=
  do _ <- check_columns (map snd cols) rows; Ok (csv_frame cols rows).

(** [pd.to_numeric(column, errors='coerce')] on texts *)
Definition coerce (s : str) : cell := match numeral s with Some q => Num q | None => NaN end.

(** ** Dates *)
(** elementwise [a + sep + b] *)
Definition glue (sep : str) (ab : cell * cell) : res cell :=
  match ab with
  | (Txt x, Txt y) => Ok (Txt (x ++ sep ++ y))
  | (NaN, Txt _) | (Txt _, NaN) | (NaN, NaN) => Ok NaN
  | _ => Raise TypeError
  end.
(** a column of texts (or an empty one); a blank cannot be added to a column of numbers *)
Definition textual (l : list cell) : bool :=
  match l with [] => true | _ => existsb (fun c => match c with Txt _ => true | _ => false end) l end.
(** [pd.to_datetime(dat.pop('date') + ' ' + dat.pop('time'), utc=True)] *)
Definition date_time (to_datetime : list cell -> res (list cell)) (date time : list cell) : res (list cell) :=
  if textual date && textual time then do t <- mapM (glue (lit " ")) (combine date time); to_datetime t
  else Raise TypeError.

Definition Q_int (q : Q) : option Z := if Qnum q mod Zpos (Qden q) =? 0 then Some (Qnum q / Zpos (Qden q)) else None.
(** [pd.to_datetime(dat[['year', 'month', 'day', 'hour', 'minute', 'second']], utc=True)] for one row:
    year * 10000 + month * 100 + day is read as [%Y%m%d] (years of four digits), then hours, minutes
    and seconds are added *)
Definition parts_time (c : list cell) : res cell :=
  match c with
  | [Num y; Num mo; Num d; Num h; Num mi; Num s] =>
      match Q_int (y * inject_Z 10000 + mo * inject_Z 100 + d) with
      | Some n =>
          let y := n / 10000 in let mo := (n / 100) mod 100 in let d := n mod 100 in
          if (y <? 1000) || (9999 <? y) then Raise ValueError else
          do t <- datetime_new y mo d 0 0 0 0 (Some 0);
          Ok (Time (inject_Z ((ymd2ord y mo d - epoch_ord) * 86400) + h * inject_Z 3600 + mi * inject_Z 60 + s)%Q)
      | None => Raise ValueError
      end
  | _ => if existsb (fun x => match x with Txt _ | Time _ => true | _ => false end) c then Raise ValueError else Ok NaN
  end.
(** row [i] of some columns *)
Definition row_of (cols : list (list cell)) (i : nat) : list cell := map (fun v => nth i v NaN) cols.
Definition parts_column (f : frame) : res (list cell) :=
  do cols <- mapM (get_column f) [lit "year"; lit "month"; lit "day"; lit "hour"; lit "minute"; lit "second"];
  mapM (fun i => parts_time (row_of cols i)) (seq 0 (nrows f)).

(** Reading a file. *)
Definition open_text (fsys : fs) (path : str) : res str :=
  match fsys path with Some t => Ok t | None => Raise FileNotFoundError end.
