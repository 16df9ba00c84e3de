(** The database of the package, /repo/shipgrav/database.toml, loaded by [tomli.load] (library behaviour, tomli/_parser.py; on top
    of M_Toml: literal strings, quoted keys in inline tables, inline tables of simple values), and its use in
    /repo/shipgrav/io.py 48-69, 438-452 and the example scripts.  The result is [None] for what is not modelled (see M_Toml; also
    inline tables within inline tables, and tables whose values have another type than the use needs). *)
From Coq Require Import ZArith QArith Reals Ascii String Bool List.
From Verif Require Import M_Py M_Str M_Ini M_Toml M_Nmea M_ReadNav M_Table M_Bgm M_DbText.
Import ListNotations.
Open Scope Z_scope.

(** a value, or an inline table *)
Inductive dval : Type := DVal (v : tval) | DTab (t : table).
Definition dtable : Type := list (str * dval).
Record ddoc : Type := mk_ddoc { dtop : dtable; dtables : list (str * dtable) }.

(** rest of a literal string after its opening quote: text and rest *)
Fixpoint literal_string (s : str) : res (str * str) :=
  match s with
  | [] => Raise ValueError
  | c :: t =>
      if Ascii.eqb c "'" then Ok ([], t)
      else if is_ctrl c then Raise ValueError
      else do r <- literal_string t; Ok (c :: fst r, snd r)
  end.
Definition squote2 : str := lit "''".
(** a simple value and the rest of the line *)
Definition simple_value (s : str) : option (res (tval * str)) :=
  match s with
  | c :: t =>
      if Ascii.eqb c "'" then
        if prefixb squote2 t then None else Some (do r <- literal_string t; Ok (TStr (fst r), snd r))
      else toml_value s
  | [] => toml_value s
  end.
(** a key of an inline table: bare or a literal string; what follows it and its white space *)
Definition inline_key (s : str) : option (res (str * str)) :=
  match s with
  | c :: t =>
      if Ascii.eqb c "'" then
        match literal_string t with
        | Raise e => Some (Raise e)
        | Ok (k, r) => match skip_ws r with
                       | p :: r' => if Ascii.eqb p "." then None else Some (Ok (k, p :: r'))
                       | [] => Some (Ok (k, []))
                       end
        end
      else toml_key s
  | [] => toml_key s
  end.
(** rest of an inline table after its opening brace (or a comma) and white space; [fuel]: its length *)
Fixpoint inline_table (fuel : nat) (s : str) (acc : table) : option (res (table * str)) :=
  match fuel with
  | O => Some (Raise ValueError)
  | S n =>
      match inline_key s with
      | None => None
      | Some (Raise e) => Some (Raise e)
      | Some (Ok (k, r)) =>
          match r with
          | e :: r' =>
              if Ascii.eqb e "=" then
                match simple_value (skip_ws r') with
                | None => None
                | Some (Raise e) => Some (Raise e)
                | Some (Ok (v, r'')) =>
                    match assoc k acc with
                    | Some _ => Some (Raise ValueError)
                    | None =>
                        match skip_ws r'' with
                        | c :: q => if Ascii.eqb c "}" then Some (Ok (acc ++ [(k, v)], q))
                                    else if Ascii.eqb c "," then inline_table n (skip_ws q) (acc ++ [(k, v)])
                                    else Some (Raise ValueError)
                        | [] => Some (Raise ValueError)
                        end
                    end
                end
              else Some (Raise ValueError)
          | [] => Some (Raise ValueError)
          end
      end
  end.
Definition db_value (s : str) : option (res (dval * str)) :=
  match s with
  | c :: t =>
      if Ascii.eqb c "{" then
        match skip_ws t with
        | d :: q => if Ascii.eqb d "}" then Some (Ok (DTab [], q))
                    else match inline_table (List.length t) (d :: q) [] with
                         | None => None
                         | Some (Raise e) => Some (Raise e)
                         | Some (Ok (tb, r)) => Some (Ok (DTab tb, r))
                         end
        | [] => Some (Raise ValueError)
        end
      else match simple_value s with
           | None => None
           | Some (Raise e) => Some (Raise e)
           | Some (Ok (v, r)) => Some (Ok (DVal v, r))
           end
  | [] => Some (Raise ValueError)
  end.

Inductive dstmt : Type := DNone | DTable (k : str) | DKey (k : str) (v : dval).
(** one line: a key with its value, otherwise as M_Toml *)
Definition db_line (ln : str) : option (res dstmt) :=
  let other := match toml_line ln with
               | None => None
               | Some (Raise e) => Some (Raise e)
               | Some (Ok SNone) => Some (Ok DNone)
               | Some (Ok (STable k)) => Some (Ok (DTable k))
               | Some (Ok (SKey k v)) => Some (Ok (DKey k (DVal v)))
               end in
  match skip_ws ln with
  | [] => other
  | c :: t =>
      if Ascii.eqb c "#" || Ascii.eqb c "[" then other
      else match toml_key (c :: t) with
           | Some (Ok (k, r)) =>
               match r with
               | e :: r' =>
                   if Ascii.eqb e "=" then
                     match db_value (skip_ws r') with
                     | Some (Ok (v, r'')) => Some (do _ <- end_of_line r''; Ok (DKey k v))
                     | Some (Raise e) => Some (Raise e)
                     | None => None
                     end
                   else Some (Raise ValueError)
               | [] => Some (Raise ValueError)
               end
           | Some (Raise e) => Some (Raise e)
           | None => None
           end
  end.
(** the lines in turn, as [toml_lines] *)
Fixpoint db_lines (lines : list str) (tp : dtable) (ts : list (str * dtable)) : option (res ddoc) :=
  match lines with
  | [] => Some (Ok (mk_ddoc tp (rev ts)))
  | ln :: rest =>
      match db_line ln with
      | None => None
      | Some (Raise e) => Some (Raise e)
      | Some (Ok DNone) => db_lines rest tp ts
      | Some (Ok (DTable k)) =>
          match assoc k tp, assoc k ts with
          | None, None => db_lines rest tp ((k, []) :: ts)
          | _, _ => Some (Raise ValueError)
          end
      | Some (Ok (DKey k v)) =>
          match ts with
          | [] => match assoc k tp with Some _ => Some (Raise ValueError) | None => db_lines rest (tp ++ [(k, v)]) [] end
          | (n, t) :: ts' =>
              match assoc k t with Some _ => Some (Raise ValueError) | None => db_lines rest tp ((n, t ++ [(k, v)]) :: ts') end
          end
      end
  end.
Definition db_load (text : str) : option (res ddoc) := db_lines (split [nl] text) [] [].

(** [info[name]]: a table; a key of that name before the first header is left out *)
Definition info_table (d : ddoc) (name : string) : option (res dtable) :=
  match assoc (lit name) (dtop d) with
  | Some _ => None
  | None => match assoc (lit name) (dtables d) with Some t => Some (Ok t) | None => Some (Raise KeyError) end
  end.
(** all values of one type *)
Fixpoint typed {A : Type} (f : dval -> option A) (t : dtable) : option (list (str * A)) :=
  match t with
  | [] => Some []
  | (k, v) :: r => match f v, typed f r with Some a, Some l => Some ((k, a) :: l) | _, _ => None end
  end.
Definition text_of (v : dval) : option str := match v with DVal (TStr s) => Some s | _ => None end.
Definition decimal_of (v : dval) : option Q :=
  match v with DVal (TFloat (FDec m e)) => Some (dec_Q m e) | DVal (TInt z) => Some (inject_Z z) | _ => None end.

(** [opened text name f]: io.py 49-53, 438-443: load the database and take one of its tables *)
Definition opened {A B : Type} (text : str) (name : string) (f : dval -> option A) (k : list (str * A) -> res B) : option (res B) :=
  match db_load text with
  | None => None
  | Some (Raise e) => Some (Raise e)
  | Some (Ok d) =>
      match info_table d name with
      | None => None
      | Some (Raise e) => Some (Raise e)
      | Some (Ok t) => match typed f t with None => None | Some l => Some (k l) end
      end
  end.
(** [read_nav] and [read_bgm_raw] with the database file [text] beside them *)
Definition read_nav_db (text : str) (fsys : fs) (ship : str) (pathlist : list str) (sampling : R) (talker : option str)
  (ship_function : option (list str -> str -> res nav_arrays)) (decimate : Z) : option (res nav_result) :=
  opened text "nav-talkers" text_of (fun t => read_nav_from t fsys ship pathlist sampling talker ship_function decimate).
Definition read_bgm_raw_db (text : str) (fsys : fs) (to_datetime : list cell -> res (list cell)) (paths : list str) (ship : str)
  (scale : option Q) (ship_function : option (str -> res frame)) : option (res (option frame)) :=
  opened text "BGM-scale" decimal_of (fun t => read_bgm_raw_from t fsys to_datetime paths ship scale ship_function).

(** [info['bias-values'][ship][meter]] (dgs_bgm_comp.py 48-51, 92, 100, and the same lines of the other scripts) *)
Definition bias_value (d : ddoc) (ship meter : str) : option (res Q) :=
  match info_table d "bias-values" with
  | None => None
  | Some (Raise e) => Some (Raise e)
  | Some (Ok t) =>
      match assoc ship t with
      | None => Some (Raise KeyError)
      | Some (DVal _) => None
      | Some (DTab b) => match assoc meter b with
                         | None => Some (Raise KeyError)
                         | Some v => option_map Ok (decimal_of (DVal v))
                         end
      end
  end.
(** [info['dgs-stuff']['calibration_factor']] (dgs_raw_comp.py 54) *)
Definition calibration_factor (d : ddoc) : option (res Q) :=
  match info_table d "dgs-stuff" with
  | None => None
  | Some (Raise e) => Some (Raise e)
  | Some (Ok t) => match assoc (lit "calibration_factor") t with None => Some (Raise KeyError) | Some v => option_map Ok (decimal_of v) end
  end.
