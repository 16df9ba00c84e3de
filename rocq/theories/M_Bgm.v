(** Model of the BGM3 readers, /repo/shipgrav/io.py 383-538. *)
From Coq Require Import ZArith QArith Ascii String Bool List.
From Verif Require Import M_Py M_Str M_Cal M_Ini M_Nmea M_ReadNav M_Table.
Import ListNotations.
Open Scope Z_scope.

(** database.toml, [BGM-scale] *)
Definition bgm_scale : list (str * Q) :=
  [(lit "Atlantis", 4994070552 # 1000000000); (lit "Thompson", 5003353363 # 1000000000);
   (lit "Revelle", 499980755 # 100000000); (lit "Langseth", 50 # 10)]%Q.

(** [int(x.split(':')[-1])] (io.py 480-481, 502, 513) *)
Definition count_last (x : str) : res Z := py_int (List.last (split (lit ":") x) []).
(** [int(x.split(' ')[0].split(':')[-1])] (io.py 491) *)
Definition count_first (x : str) : res Z := count_last (hd [] (split (lit " ") x)).
Definition count_cells (l : list Z) : list cell := map (fun z => Num (inject_Z z)) l.

Definition counts_name : str := lit "counts".
Definition date_time_name : str := lit "date_time".

(** io.py 477-485 *)
Definition bgmserial_Atlantis (to_datetime : list cell -> res (list cell)) (text : str) : res frame :=
  let rows := csv_rows " " 0 text in
  do _ <- check_columns [1; 2; 4]%nat rows;
  do counts <- mapM count_last (field_column 4 rows);
  do t <- date_time to_datetime (infer_column (field_column 1 rows)) (infer_column (field_column 2 rows));
  Ok [(counts_name, count_cells counts); (date_time_name, t)].

(** io.py 488-495; lines with more than three fields raise here (pandas would make index columns) *)
Definition bgmserial_Thompson (to_datetime : list cell -> res (list cell)) (text : str) : res frame :=
  let rows := csv_rows "," 0 text in
  if existsb (fun r => (3 <? List.length r)%nat) rows then Raise ValueError else
  do counts <- mapM count_first (field_column 2 rows);
  do t <- date_time to_datetime (infer_column (field_column 0 rows)) (infer_column (field_column 1 rows));
  Ok [(counts_name, count_cells counts); (date_time_name, t)].

(** io.py 498-504; [parse_dates] leaves the column as it is if it cannot be converted *)
Definition bgmserial_Revelle (to_datetime : list cell -> res (list cell)) (text : str) : res frame :=
  let rows := csv_rows " " 0 text in
  do _ <- check_columns [0; 1]%nat rows;
  do counts <- mapM count_last (field_column 1 rows);
  let t := infer_column (field_column 0 rows) in
  Ok [(date_time_name, match to_datetime t with Ok t' => t' | Raise _ => t end); (counts_name, count_cells counts)].

(** [s.split()] *)
Fixpoint words_go (s cur : str) : list str :=
  match s with
  | [] => match cur with [] => [] | _ => [rev cur] end
  | c :: t => if is_space c then match cur with [] => words_go t [] | _ => rev cur :: words_go t [] end
              else words_go t (c :: cur)
  end.
Definition words (s : str) : list str := words_go s [].
(** io.py 506-515; [read_fwf] is taken to separate columns at blanks *)
Definition bgmserial_Langseth (text : str) : res frame :=
  let rows := filter (fun r => match r with [] => false | _ => true end) (map words (readlines text)) in
  do stamps <- mapM strptime_Langseth (field_column 1 rows);
  do counts <- mapM count_last (field_column 2 rows);
  Ok [(date_time_name, map (fun us => Time (us # 1000000)) stamps); (counts_name, count_cells counts)].

(** [scale * x] *)
Definition scaled (scale : Q) (c : cell) : res cell :=
  match c with Num q => Ok (Num (scale * q)) | NaN => Ok NaN | _ => Raise TypeError end.

(** io.py 454-471: the file reader; [None] is -999 *)
Definition bgm_reader (fsys : fs) (to_datetime : list cell -> res (list cell)) (ship : str) (ship_function : option (str -> res frame)) (path : str)
  : res (option frame) :=
  let via (f : str -> res frame) := do text <- open_text fsys path; do d <- f text; Ok (Some d) in
  match ship_function with
  | Some g => do d <- g path; Ok (Some d)
  | None =>
      if str_eqb ship (lit "Atlantis") then via (bgmserial_Atlantis to_datetime)
      else if str_eqb ship (lit "Thompson") then via (bgmserial_Thompson to_datetime)
      else if str_eqb ship (lit "Revelle") then via (bgmserial_Revelle to_datetime)
      else if str_eqb ship (lit "Langseth") then via bgmserial_Langseth
      else Ok None
  end.

(** a loop over files that stops with -999 ([None]) or collects tables *)
Fixpoint collect (reader : str -> res (option frame)) (paths : list str) : res (option (list frame)) :=
  match paths with
  | [] => Ok (Some [])
  | p :: rest =>
      do r <- reader p;
      match r with
      | None => Ok None
      | Some f => do more <- collect reader rest; Ok (option_map (cons f) more)
      end
  end.
Definition gathered (r : option (list frame)) : res (option frame) :=
  match r with None => Ok None | Some fs => do f <- concat_frames fs; Ok (Some f) end.

(** io.py 416-474, [scales] being the table [BGM-scale] of the database *)
Definition read_bgm_raw_from (scales : list (str * Q)) (fsys : fs) (to_datetime : list cell -> res (list cell)) (paths : list str) (ship : str)
  (scale : option Q) (ship_function : option (str -> res frame)) : res (option frame) :=
  match (match scale with Some s => Some s | None => assoc ship scales end) with
  | None => Ok None
  | Some sc =>
      do fs <- collect (fun p =>
          do r <- bgm_reader fsys to_datetime ship ship_function p;
          match r with
          | None => Ok None
          | Some dat => do c <- get_column dat counts_name; do g <- mapM (scaled sc) c; Ok (Some (set_column dat (lit "rgrav") g))
          end) paths;
      gathered fs
  end.

(** with the database of the package *)
Definition read_bgm_raw := read_bgm_raw_from bgm_scale.

(** io.py 383-413 *)
Definition read_bgm_rgs (fsys : fs) (to_datetime : list cell -> res (list cell)) (paths : list str) (ship : str) : res (option frame) :=
  if negb (has [lit "Atlantis"; lit "NBP"] ship) then Ok None else
  do fs <- collect (fun p =>
      do text <- open_text fsys p;
      let rows := csv_rows " " 0 text in
      do _ <- check_columns [1; 2; 3; 11; 12]%nat rows;
      do t <- date_time to_datetime (infer_column (field_column 1 rows)) (infer_column (field_column 2 rows));
      Ok (Some (csv_frame [(lit "grav", 3%nat); (lit "lat", 11%nat); (lit "lon", 12%nat)] rows ++ [(date_time_name, t)]))) paths;
  gathered fs.

(** ** Despiking, io.py 518-538 *)
Definition Qlt_b (x y : Q) : bool := negb (Qle_bool y x).
(** [abs(diff) > thresh]; comparisons with NaN are false; text raises *)
Definition exceeds (thresh : Q) (ab : cell * cell) : res bool :=
  match ab with
  | (Num a, Num b) => Ok (Qlt_b thresh (Qabs.Qabs (b - a)))
  | (NaN, Num _) | (Num _, NaN) | (NaN, NaN) => Ok false
  | _ => Raise TypeError
  end.
Definition true_positions (l : list bool) : list nat := filter (fun i => nth i l false) (seq 0 (List.length l)).
(** differences of neighbours; [l[1:] - l[:-1]] *)
Fixpoint diffs (l : list nat) : list nat :=
  match l with
  | a :: ((b :: _) as t) => (b - a)%nat :: diffs t
  | _ => []
  end.
(** [dat.drop(inds)] on a fresh index, then [reset_index()], which keeps the old index as a column *)
Definition drop_rows (f : frame) (inds : list nat) : res frame :=
  let keep := filter (fun i => negb (existsb (Nat.eqb i) inds)) (seq 0 (nrows f)) in
  let names := map fst f in
  let kept := map (fun c => (fst c, map (fun i => nth i (snd c) NaN) keep)) f in
  let old := map (fun i => Num (inject_Z (Z.of_nat i))) keep in
  if negb (has names (lit "index")) then Ok ((lit "index", old) :: kept)
  else if negb (has names (lit "level_0")) then Ok ((lit "level_0", old) :: kept)
  else Raise ValueError.
Definition despike_bgm_serial (thresh : Q) (dat : frame) : res frame :=
  do counts <- (match column dat counts_name with Some c => Ok c | None => Raise AttributeError end);
  do big <- mapM (exceeds thresh) (combine counts (tl counts));
  let meh := true_positions big in
  if (2 <? List.length meh)%nat then
    if Nat.odd (List.length meh) || existsb (fun d => negb (Nat.eqb d 1)) (every 2 0 (diffs meh)) then Ok dat
    else drop_rows dat (every 2 1 meh)
  else Ok dat.
