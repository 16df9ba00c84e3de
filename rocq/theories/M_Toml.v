(** [tomli.load] (library behaviour, tomli/_parser.py), as far as the files written by [clean_ini_to_toml] need it, and its use in
    example-scripts/dgs_raw_comp.py, lines 151-177.  The result is [None] for documents that use what is not modelled: dotted
    and quoted keys, literal and multi-line strings, unicode escapes, arrays, inline tables, arrays of tables, dates, and
    numbers in base 2, 8 or 16.  Numbers are exact decimals.  tomli's TOMLDecodeError is a ValueError. *)
From Coq Require Import ZArith QArith Ascii String Bool List.
From Verif Require Import M_Py M_Str M_Ini.
Import ListNotations.
Open Scope Z_scope.

Inductive tval : Type := TBool (b : bool) | TInt (z : Z) | TFloat (f : fval) | TStr (s : str).
Definition table : Type := list (str * tval).
(** The document: keys before the first header, and the tables in order. *)
Record doc : Type := mk_doc { top : table; tables : list (str * table) }.

(** TOML_WS, ASCII_CTRL without tab, BARE_KEY_CHARS *)
Definition is_ws (c : ascii) : bool := Ascii.eqb c " " || Ascii.eqb c tab.
Definition is_ctrl (c : ascii) : bool := let n := N_of_ascii c in ((n <? 32) && negb (n =? 9) || (n =? 127))%N.
Definition is_bare (c : ascii) : bool :=
  let n := N_of_ascii c in
  ((65 <=? n) && (n <=? 90) || (97 <=? n) && (n <=? 122) || (48 <=? n) && (n <=? 57) || (n =? 95) || (n =? 45))%N.
Definition skip_ws (s : str) : str := drop_while is_ws s.

(** after a statement: white space, a comment without control characters, end of line *)
Definition end_of_line (s : str) : res unit :=
  match skip_ws s with
  | [] => Ok tt
  | c :: t => if Ascii.eqb c "#" then (if existsb is_ctrl t then Raise ValueError else Ok tt) else Raise ValueError
  end.

(** a key of one bare part, and what follows it and its white space *)
Definition toml_key (s : str) : option (res (str * str)) :=
  let '(k, r) := span is_bare s in
  match k with
  | [] => match s with
          | c :: _ => if Ascii.eqb c dquote || Ascii.eqb c "'" then None else Some (Raise ValueError)
          | [] => Some (Raise ValueError)
          end
  | _ => match skip_ws r with
         | c :: t => if Ascii.eqb c "." then None else Some (Ok (k, c :: t))
         | [] => Some (Ok (k, []))
         end
  end.

(** (?:_?[0-9])* : digits read, without underscores, and the rest *)
Fixpoint more_digits (s : str) : str * str :=
  match s with
  | c :: t =>
      if is_digit c then let '(a, b) := more_digits t in (c :: a, b)
      else if Ascii.eqb c "_" then
        match t with
        | d :: t' => if is_digit d then let '(a, b) := more_digits t' in (d :: a, b) else ([], s)
        | [] => ([], s)
        end
      else ([], s)
  | [] => ([], [])
  end.
(** RE_NUMBER (decimal part): value and rest; None if there is no match *)
Definition toml_number (s : str) : option (tval * str) :=
  let '(neg, d) := take_sign s in
  match d with
  | c :: t =>
      if negb (is_digit c) then None else
      let '(i, r) := if Ascii.eqb c "0" then ([c], t) else let '(a, b) := more_digits t in (c :: a, b) in
      let '(f, r) := match r with
                     | p :: x :: r' => if Ascii.eqb p "." && is_digit x then let '(a, b) := more_digits r' in (x :: a, b) else ([], r)
                     | _ => ([], r)
                     end in
      let '(e, r) := match r with
                     | p :: r' =>
                         if Ascii.eqb p "e" || Ascii.eqb p "E" then
                           let '(eneg, x) := take_sign r' in
                           match x with
                           | y :: x' => if is_digit y then let '(a, b) := more_digits x' in (Some (signed eneg (digits_val (y :: a))), b) else (None, r)
                           | [] => (None, r)
                           end
                         else (None, r)
                     | [] => (None, r)
                     end in
      let m := signed neg (digits_val (i ++ f)) in
      match f, e with
      | [], None => Some (TInt m, r)
      | _, _ => Some (TFloat (FDec m (match e with Some z => z | None => 0 end - Z.of_nat (List.length f))), r)
      end
  | [] => None
  end.

(** rest of a basic string after its opening quote: text and rest *)
Fixpoint basic_string (s : str) : option (res (str * str)) :=
  match s with
  | [] => Some (Raise ValueError)
  | c :: t =>
      if Ascii.eqb c dquote then Some (Ok ([], t))
      else if Ascii.eqb c "\" then
        match t with
        | e :: t' =>
            let esc := if Ascii.eqb e "b" then Some "008"%char else if Ascii.eqb e "t" then Some tab else if Ascii.eqb e "n" then Some nl
                       else if Ascii.eqb e "f" then Some "012"%char else if Ascii.eqb e "r" then Some "013"%char
                       else if Ascii.eqb e dquote then Some dquote else if Ascii.eqb e "\" then Some "\"%char else None in
            match esc with
            | Some x => match basic_string t' with Some (Ok (a, b)) => Some (Ok (x :: a, b)) | o => o end
            | None => if Ascii.eqb e "u" || Ascii.eqb e "U" then None else Some (Raise ValueError)
            end
        | [] => Some (Raise ValueError)
        end
      else if is_ctrl c then Some (Raise ValueError)
      else match basic_string t with Some (Ok (a, b)) => Some (Ok (c :: a, b)) | o => o end
  end.

(** beginnings of RE_DATETIME and RE_LOCALTIME, and of numbers in another base *)
Definition unmodelled_value (s : str) : bool :=
  match s with
  | a :: b :: c :: d :: e :: _ => forallb is_digit [a; b; c; d] && Ascii.eqb e "-" || forallb is_digit [a; b] && Ascii.eqb c ":"
  | a :: b :: c :: _ => forallb is_digit [a; b] && Ascii.eqb c ":"
  | _ => false
  end
  || existsb (fun p => prefixb (lit p) s) ["0x"; "0o"; "0b"]%string.
(** a value and the rest of the line *)
Definition toml_value (s : str) : option (res (tval * str)) :=
  match s with
  | [] => Some (Raise ValueError)
  | c :: t =>
      if Ascii.eqb c dquote then
        if prefixb [dquote; dquote] t then None
        else match basic_string t with
             | Some (Ok (a, b)) => Some (Ok (TStr a, b))
             | Some (Raise e) => Some (Raise e)
             | None => None
             end
      else if Ascii.eqb c "'" || Ascii.eqb c "[" || Ascii.eqb c "{" then None
      else if prefixb (lit "true") s then Some (Ok (TBool true, skipn 4 s))
      else if prefixb (lit "false") s then Some (Ok (TBool false, skipn 5 s))
      else if unmodelled_value s then None
      else match toml_number s with
           | Some (v, r) => Some (Ok (v, r))
           | None =>
               let '(neg, u) := take_sign s in
               if prefixb (lit "inf") u then Some (Ok (TFloat (FInf neg), skipn 3 u))
               else if prefixb (lit "nan") u then Some (Ok (TFloat FNan, skipn 3 u))
               else Some (Raise ValueError)
           end
  end.

Inductive stmt : Type := SNone | STable (k : str) | SKey (k : str) (v : tval).
(** one line *)
Definition toml_line (ln : str) : option (res stmt) :=
  match skip_ws ln with
  | [] => Some (Ok SNone)
  | c :: t =>
      if Ascii.eqb c "#" then Some (do _ <- end_of_line (c :: t); Ok SNone)
      else if Ascii.eqb c "[" then
        match t with
        | d :: _ => if Ascii.eqb d "[" then None
                    else match toml_key (skip_ws t) with
                         | Some (Ok (k, r)) =>
                             match r with
                             | e :: r' => if Ascii.eqb e "]" then Some (do _ <- end_of_line r'; Ok (STable k)) else Some (Raise ValueError)
                             | [] => Some (Raise ValueError)
                             end
                         | Some (Raise e) => Some (Raise e)
                         | None => None
                         end
        | [] => Some (Raise ValueError)
        end
      else match toml_key (c :: t) with
           | Some (Ok (k, r)) =>
               match r with
               | e :: r' =>
                   if Ascii.eqb e "=" then
                     match toml_value (skip_ws r') with
                     | Some (Ok (v, r'')) => Some (do _ <- end_of_line r''; Ok (SKey k v))
                     | Some (Raise e) => Some (Raise e)
                     | None => None
                     end
                   else Some (Raise ValueError)
               | [] => Some (Raise ValueError)
               end
           | Some (Raise e) => Some (Raise e)
           | None => None
           end
  end.

Fixpoint assoc {A : Type} (k : str) (l : list (str * A)) : option A :=
  match l with
  | [] => None
  | (k', v) :: t => if str_eqb k' k then Some v else assoc k t
  end.
(** the lines in turn; [ts] holds the tables declared so far, the current one first; a key or table may occur once *)
Fixpoint toml_lines (lines : list str) (tp : table) (ts : list (str * table)) : option (res doc) :=
  match lines with
  | [] => Some (Ok (mk_doc tp (rev ts)))
  | ln :: rest =>
      match toml_line ln with
      | None => None
      | Some (Raise e) => Some (Raise e)
      | Some (Ok SNone) => toml_lines rest tp ts
      | Some (Ok (STable k)) =>
          match assoc k tp, assoc k ts with
          | None, None => toml_lines rest tp ((k, []) :: ts)
          | _, _ => Some (Raise ValueError)
          end
      | Some (Ok (SKey k v)) =>
          match ts with
          | [] => match assoc k tp with Some _ => Some (Raise ValueError) | None => toml_lines rest (tp ++ [(k, v)]) [] end
          | (n, t) :: ts' =>
              match assoc k t with Some _ => Some (Raise ValueError) | None => toml_lines rest tp ((n, t ++ [(k, v)]) :: ts') end
          end
      end
  end.
Definition toml_load (text : str) : option (res doc) := toml_lines (split [nl] text) [] [].

(** dgs_raw_comp.py 155-156: [opath = sgu.clean_ini_to_toml(ini_file[0]); meter_conf = tm.load(open(opath, 'rb'))] *)
Definition meter_conf (f : fs) (ini_file : str) : option (res doc) :=
  let '(f', r) := clean_ini_to_toml f ini_file in
  match r with
  | Raise e => Some (Raise e)
  | Ok opath => match f' opath with Some text => toml_load text | None => Some (Raise FileNotFoundError) end
  end.

(** [meter_conf['Sensor'][k]] as a number; a text cannot be multiplied with or added to a column of numbers.  A key [Sensor]
    before the first header holds a value, and indexing it raises TypeError.  Booleans count as 0 and 1. *)
Definition sensor (d : doc) (k : str) : res fval :=
  match assoc (lit "Sensor") (top d) with
  | Some _ => Raise TypeError
  | None =>
      match assoc (lit "Sensor") (tables d) with
      | None => Raise KeyError
      | Some t =>
          match assoc k t with
          | None => Raise KeyError
          | Some (TInt z) => Ok (FDec z 0)
          | Some (TFloat f) => Ok f
          | Some (TBool b) => Ok (FDec (if b then 1 else 0) 0)
          | Some (TStr _) => Raise TypeError
          end
      end
  end.
(** shipgrav/database.toml, line 26: [calibration_factor], read by dgs_raw_comp.py, line 54 *)
Definition cal_factor : Q := 8388607 # 1.
(** finite calibration values; infinities and NaN are left out ([None]) *)
Definition fin (f : fval) : option Q := match f with FDec m e => Some (dec_Q m e) | _ => None end.
(** lines 162-176: [raw * gain / cal_factor + zero] for the 24-bit channels, [raw * gain + zero] for the others: (channel, gain, zero) *)
Definition channels24 : list (str * (str * str)) :=
  [(lit "Gravity", (lit "GravCal", lit "g0")); (lit "Long", (lit "LongCal", lit "LongOffset"));
   (lit "Cross", (lit "CrossCal", lit "CrossOffset")); (lit "Beam", (lit "beamgain", lit "beamzero"))].
Definition channels10 : list (str * (str * str)) :=
  [(lit "Temp", (lit "stempgain", lit "stempoffset")); (lit "Pressure", (lit "pressgain", lit "presszero"));
   (lit "ElecTemp", (lit "Etempgain", lit "Etempzero"))].
Definition calibrate (factor : Q) (d : doc) (gain zero : str) (raw : list Q) : res (option (list Q)) :=
  do g <- sensor d gain;
  do z <- sensor d zero;
  Ok (match fin g, fin z with Some g, Some z => Some (map (fun v => v * g / factor + z)%Q raw) | _, _ => None end).
(** all calibrated columns in order; the first failure wins *)
Definition calibrated (d : doc) (raw : str -> list Q) : res (list (option (list Q))) :=
  do a <- mapM (fun c => calibrate cal_factor d (fst (snd c)) (snd (snd c)) (raw (fst c))) channels24;
  do b <- mapM (fun c => calibrate 1 d (fst (snd c)) (snd (snd c)) (raw (fst c))) channels10;
  Ok (a ++ b).
(** line 177: [raw_dgs['grav'] = raw_dgs['grav_cal'] + biases['dgs']] *)
Definition raw_grav (d : doc) (raw : str -> list Q) (bias : Q) : res (option (list Q)) :=
  do c <- calibrated d raw;
  Ok (match c with Some g :: _ => Some (map (fun v => v + bias)%Q g) | _ => None end).
