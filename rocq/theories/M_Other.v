(** Model of [read_other_stuff], /repo/shipgrav/io.py 784-864. *)
From Coq Require Import ZArith QArith Ascii String Bool List.
From Verif Require Import M_Py M_Str M_Ini M_ReadNav M_Table.
Import ListNotations.
Open Scope Z_scope.

(** What is used of the yaml file below its top level key: the templates of [format] and the
    descriptions of [fields] (parsing of yaml not modelled). *)
Record feed_specs (I : Type) : Type := mk_specs { formats : list (str * str); descriptions : list (str * I) }.
Arguments formats {I}. Arguments descriptions {I}.

Definition is_ascii (c : ascii) : bool := (N_of_ascii c <? 128)%N.

(** io.py 828-834: [readline] until the end of the file is reached; the line read last is not looked at *)
Fixpoint tagged_lines (tag : str) (lines : list str) : list str :=
  match lines with
  | ln :: ((_ :: _) as rest) =>
      let ln := rstrip ln in
      if containsb tag ln then ln :: tagged_lines tag rest else tagged_lines tag rest
  | _ => []
  end.

(** [numeric] of io.py 855-862 on one cell; infinities are left as text *)
Definition numeric (s : str) : cell :=
  match s with
  | [] => NaN
  | _ => match numeral s with Some q => Num q | None => Txt s end
  end.

(** [pd.DataFrame(rows, columns=names)]: short rows are filled up; the longest must fit *)
Definition frame_of_rows (names : list str) (rows : list (list str)) : res frame :=
  match rows with
  | [] => Ok (map (fun c => (c, [])) names)
  | _ =>
      if (fold_right Nat.max 0 (map (@List.length str) rows) =? List.length names)%nat then
        Ok (map (fun ck => (fst ck, map (fun r => match nth_error r (snd ck) with Some s => numeric s | None => NaN end) rows))
                (combine names (seq 0 (List.length names))))
      else Raise ValueError
  end.

Definition without_braces (s : str) : str := filter (fun c => negb (Ascii.eqb c "{" || Ascii.eqb c "}")) s.
(** io.py 848 *)
Definition colnames (template : str) : list str := tl (split (lit ",") (without_braces template)).

(** io.py 784-864; the data file as one string of bytes *)
Definition read_other_stuff {I : Type} (specs : feed_specs I) (data : str) (tag : str) : res (frame * list (str * I)) :=
  let tag := if prefixb (lit "$") tag then tl tag else tag in
  let dtag := lit "$" ++ tag in
  match assoc tag (formats specs) with
  | None => Raise AssertionError
  | Some template =>
      match data with
      | [] => Raise ValueError
      | _ =>
          if negb (forallb is_ascii tag) then Raise ValueError else
          if negb (containsb tag data) then Raise AssertionError else
          if negb (forallb is_ascii data) then Raise ValueError else
          let lines := tagged_lines tag (readlines data) in
          let tagsplit := map (split dtag) lines in
          do named_fields <- mapM (fun e => do post <- getr e 1; Ok (split (lit ",") (strip_by (Ascii.eqb ",") post))) tagsplit;
          let names := colnames template in
          do df <- frame_of_rows names named_fields;
          let df := set_column df (lit "mystery") (map (fun e => numeric (hd [] e)) tagsplit) in
          let col_info := flat_map (fun c => match assoc (hd [] (split (lit ":") c)) (descriptions specs) with Some i => [(c, i)] | None => [] end) names in
          Ok (df, col_info)
      end
  end.
