(** Model of the DGS readers, /repo/shipgrav/io.py 545-777. *)
From Coq Require Import ZArith QArith Ascii String Bool List.
From Verif Require Import M_Py M_Str M_Cal M_Ini M_Nmea M_ReadNav M_Table M_Bgm.
Import ListNotations.
Open Scope Z_scope.

(** ** Laptop files *)
(** names and positions, io.py 589-592, 601-604, 646-651 *)
Definition laptop_columns : list (str * nat) :=
  combine [lit "rgrav"; lit "long_a"; lit "crss_a"; lit "status"; lit "ve"; lit "vcc"; lit "al"; lit "ax"; lit "lat"; lit "lon";
           lit "year"; lit "month"; lit "day"; lit "hour"; lit "minute"; lit "second"]
          [1; 2; 3; 6; 10; 11; 12; 13; 14; 15; 19; 20; 21; 22; 23; 24]%nat.
Definition with_parts_time (f : frame) : res frame :=
  do t <- parts_column f; Ok (set_column f date_time_name t).
(** io.py 586-595 *)
Definition dgs_laptop_general (text : str) : res frame := do f <- read_csv laptop_columns (csv_rows "," 0 text); with_parts_time f.
(** io.py 598-606 *)
Definition dgs_laptop_Sikuliaq (text : str) : res frame := do f <- read_csv laptop_columns (csv_rows "," 19 text); with_parts_time f.
(** io.py 609-616 *)
Definition dgs_laptop_Thompson (to_datetime : list cell -> res (list cell)) (text : str) : res frame :=
  let rows := csv_rows "," 0 text in
  do _ <- check_columns [0; 1; 3; 12; 13; 14; 15; 16; 17]%nat rows;
  do t <- date_time to_datetime (infer_column (field_column 0 rows)) (infer_column (field_column 1 rows));
  Ok (csv_frame (combine [lit "rgrav"; lit "ve"; lit "vcc"; lit "al"; lit "ax"; lit "lat"; lit "lon"] [3; 12; 13; 14; 15; 16; 17]%nat) rows
      ++ [(date_time_name, t)]).

(** [s.split(None, 2)] for a text that does not begin with white space *)
Definition not_space (c : ascii) : bool := negb (is_space c).
Definition split_none2 (s : str) : list str :=
  let '(a, r) := span not_space s in
  match lstrip r with
  | [] => match a with [] => [] | _ => [a] end
  | r' => let '(b, r2) := span not_space r' in
          match lstrip r2 with [] => [a; b] | r2' => [a; b; r2'] end
  end.
(** what becomes of a line: fields, or skipped with the number of fields ([None]: bad prefix) *)
Inductive scanned : Type := Fields (l : list str) | Skipped (nf : option nat).
(** io.py 627-643 *)
Definition langseth_line (raw : str) : scanned :=
  let s := lstrip raw in
  let keep tail := let fields := split (lit ",") tail in
                   if (List.length fields =? 26)%nat then Fields fields else Skipped (Some (List.length fields)) in
  if prefixb (lit "dgsdata") s then
    match nth_error (split_none2 s) 2 with
    | None => Skipped None
    | Some tail => keep (rstrip_by (Ascii.eqb nl) tail)
    end
  else keep (rstrip_by (Ascii.eqb nl) s).
(** lines kept, and (line number, report) of each skipped line *)
Fixpoint langseth_scan (n : nat) (lines : list str) : list (list str) * list (nat * option nat) :=
  match lines with
  | [] => ([], [])
  | l :: rest =>
      let '(kept, skipped) := langseth_scan (S n) rest in
      match langseth_line l with
      | Fields f => (f :: kept, skipped)
      | Skipped r => (kept, (n, r) :: skipped)
      end
  end.
(** io.py 618-665: the table and the reports; [bytes above 127 are dropped by errors='ignore'] *)
Definition dgs_laptop_Langseth (text : str) : res (frame * list (nat * option nat)) :=
  let '(cleaned, skipped) := langseth_scan 1 (readlines text) in
  match cleaned with
  | [] => Ok (map (fun c => (fst c, [])) laptop_columns ++ [(date_time_name, [])], skipped)
  | _ =>
      let f := map (fun c => (fst c, map coerce (field_column (snd c) cleaned))) laptop_columns in
      do f <- with_parts_time f; Ok (f, skipped)
  end.

(** io.py 565-579: the file reader; [None] is -999 *)
Definition laptop_reader (fsys : fs) (to_datetime : list cell -> res (list cell)) (ship : str) (ship_function : option (str -> res frame)) (path : str)
  : res (option frame) :=
  let via (f : str -> res frame) := do text <- open_text fsys path; do d <- f text; Ok (Some d) in
  match ship_function with
  | Some g => do d <- g path; Ok (Some d)
  | None =>
      if has [lit "Atlantis"; lit "Revelle"; lit "NBP"; lit "Ride"; lit "DGStest"] ship then via dgs_laptop_general
      else if str_eqb ship (lit "Thompson") then via (dgs_laptop_Thompson to_datetime)
      else if str_eqb ship (lit "Sikuliaq") then via dgs_laptop_Sikuliaq
      else if str_eqb ship (lit "Langseth") then via (fun t => do r <- dgs_laptop_Langseth t; Ok (fst r))
      else Ok None
  end.
(** io.py 545-583 *)
Definition read_dgs_laptop (fsys : fs) (to_datetime : list cell -> res (list cell)) (paths : list str) (ship : str)
  (ship_function : option (str -> res frame)) : res (option frame) :=
  do fs <- collect (laptop_reader fsys to_datetime ship ship_function) paths; gathered fs.

(** ** Raw files *)
(** names in order, io.py 711-716 *)
Definition raw_names : list str :=
  [lit "string"; lit "Gravity"; lit "Long"; lit "Cross"; lit "Beam"; lit "Temp"; lit "Pressure"; lit "ElecTemp"; lit "vcc"; lit "ve"; lit "al"; lit "ax";
   lit "status"; lit "checksum"; lit "latitude"; lit "longitude"; lit "speed"; lit "course"].
Definition numbered (l : list str) : list (str * nat) := combine l (seq 0 (List.length l)).

(** [pd.to_datetime(x, utc=True, format='%Y%m%d%H%M%S')] on fields of fourteen digits *)
Definition stamp14 (s : str) : res cell :=
  if (List.length s =? 14)%nat && forallb is_digit s then
    do us <- dt_us (digits_val (firstn 4 s)) (digits_val (firstn 2 (skipn 4 s))) (digits_val (firstn 2 (skipn 6 s)))
                   (digits_val (firstn 2 (skipn 8 s))) (digits_val (firstn 2 (skipn 10 s))) (digits_val (skipn 12 s)) 0;
    Ok (Time (us # 1000000))
  else Raise ValueError.
(** io.py 708-736.  [str(dat.iloc[0].timestamp).startswith('1')] is decided on the text of the field.
    [iso]: [pd.to_datetime(times, format='ISO8601')]. *)
Definition dgs_raw_general (iso : list cell -> res (list cell)) (text : str) : res frame :=
  let rows := csv_rows "," 0 text in
  do dat <- read_csv (numbered (raw_names ++ [lit "timestamp"])) rows;
  match rows with
  | [] => Raise IndexError
  | r0 :: _ =>
      if negb (prefixb (lit "1") (strip (nth 18 r0 []))) then
        do t <- mapM (fun s => stamp14 (strip s)) (field_column 18 rows); Ok (dat ++ [(date_time_name, t)])
      else
        let strings := infer_column (field_column 0 rows) in
        match nth 0 strings NaN with
        | Txt s0 =>
            if prefixb (lit "$") s0 then Ok dat else
            match mapM (fun c => match c with Txt s => Ok (Txt (hd [] (split (lit " ") s))) | _ => Raise AttributeError end) strings with
            | Raise _ => Ok dat
            | Ok times => match iso times with Ok t => Ok (dat ++ [(date_time_name, t)]) | Raise _ => Ok dat end
            end
        | _ => Raise AttributeError
        end
  end.

(** [pd.to_datetime(x, utc=True, format='%m/%d/%Y:%H:%M:%S.%f')] *)
Definition strptime_Thompson (s : str) : res Q :=
  do mo <- directive 1 2 (lit "/") s;
  do d <- directive 1 2 (lit "/") (snd mo);
  do y <- directive 4 4 (lit ":") (snd d);
  do h <- directive 1 2 (lit ":") (snd y);
  do mi <- directive 1 2 (lit ":") (snd h);
  do sc <- directive 1 2 (lit ".") (snd mi);
  do f <- directive 1 6 [] (snd sc);
  match snd f with
  | [] => do us <- dt_us (digits_val (fst y)) (digits_val (fst mo)) (digits_val (fst d)) (digits_val (fst h)) (digits_val (fst mi)) (digits_val (fst sc))
                     (digits_val (fst f) * 10 ^ Z.of_nat (6 - List.length (fst f)));
          Ok (us # 1000000)
  | _ => Raise ValueError
  end.
(** io.py 739-758 ([join] needs two texts) *)
Definition thompson_time (dt : cell * cell) : res cell :=
  match dt with
  | (Txt d, Txt t) => do q <- strptime_Thompson (d ++ lit ":" ++ t); Ok (Time q)
  | _ => Raise TypeError
  end.
Definition dgs_raw_Thompson (text : str) : res frame :=
  let rows := csv_rows "," 0 text in
  do dat <- read_csv (numbered ([lit "date"; lit "time"] ++ raw_names)) rows;
  do t <- mapM thompson_time (combine (infer_column (field_column 0 rows)) (infer_column (field_column 1 rows)));
  Ok (dat ++ [(date_time_name, t)]).

(** characters of the class [-\d.] *)
Definition num_char (c : ascii) : bool := is_digit c || Ascii.eqb c "-" || Ascii.eqb c ".".
Definition num_field (s : str) : bool := match s with [] => false | _ => forallb num_char s end.
(** io.py 766-768: the nine groups of the regular expression, by the comma separated fields *)
Definition sikuliaq_groups (raw : str) : option (list str) :=
  let f := split (lit ",") raw in
  let last := fst (span num_char (nth 15 f [])) in
  if (16 <=? List.length f)%nat && prefixb (lit "$AT1M_") (nth 0 f []) &&
     forallb (fun k => num_field (nth k f [])) [1; 2; 3; 8; 9; 10; 11; 14]%nat && num_field last
  then Some (map (fun k => nth k f []) [1; 2; 3; 8; 9; 10; 11; 14]%nat ++ [last])
  else None.
Definition sikuliaq_names : list str :=
  [lit "rgrav"; lit "long_a"; lit "crss_a"; lit "vcc"; lit "ve"; lit "al"; lit "ax"; lit "lat"; lit "lon"].
(** [comment='#']: the rest of the line is dropped *)
Definition uncomment (s : str) : str := fst (span (fun c => negb (Ascii.eqb c "#")) s).
(** io.py 760-777; lines with more than three fields raise here (pandas would make index columns);
    the column [raw] is text *)
Definition dgs_raw_Sikuliaq (to_datetime : list cell -> res (list cell)) (text : str) : res frame :=
  let lines := filter (fun l => negb (blank tab l)) (map (fun l => uncomment (chomp l)) (readlines text)) in
  let rows := map (split [tab]) lines in
  if existsb (fun r => (3 <? List.length r)%nat) rows then Raise ValueError else
  let groups := map sikuliaq_groups (field_column 2 rows) in
  do t <- to_datetime (infer_column (field_column 1 rows));
  Ok (map (fun c => (fst c, map (fun g => match g with Some l => coerce (nth (snd c) l []) | None => NaN end) groups)) (numbered sikuliaq_names)
      ++ [(date_time_name, t)]).

(** [dat[c] = dat[c].mul(0.00001)] *)
Definition rescale (f : frame) (c : str) : res frame :=
  do v <- get_column f c; do w <- mapM (scaled (1 # 100000)) v; Ok (set_column f c w).
(** io.py 668-705 *)
Definition raw_reader (fsys : fs) (to_datetime iso : list cell -> res (list cell)) (ship : str) (path : str) : res frame :=
  do text <- open_text fsys path;
  if str_eqb ship (lit "Thompson") then dgs_raw_Thompson text
  else if str_eqb ship (lit "Sikuliaq") then dgs_raw_Sikuliaq to_datetime text
  else dgs_raw_general iso text.
Definition read_dgs_raw (fsys : fs) (to_datetime iso : list cell -> res (list cell)) (paths : list str) (ship : str) (scale_ccp : bool) : res frame :=
  do fs <- mapM (fun p =>
      do dat <- raw_reader fsys to_datetime iso ship p;
      if scale_ccp then
        do dat <- rescale dat (lit "ve"); do dat <- rescale dat (lit "ax"); do dat <- rescale dat (lit "al"); rescale dat (lit "vcc")
      else Ok dat) paths;
  concat_frames fs.
