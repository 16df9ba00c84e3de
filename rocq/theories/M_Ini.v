(** Model of shipgrav/utils.py, lines 108-175: [clean_ini_to_toml]. *)
From Coq Require Import List ZArith Ascii String Bool.
From Verif Require Import M_Py M_Str.
Import ListNotations.

(** utils.py 125-134: substitutions on the whole text.  Line 134, [re.sub('$', '', text)],
    matches only the empty string at the end (and before a final newline) and so changes nothing. *)
Definition clean_subs (text : str) : str :=
  let text := sub_lit (lit "//") (lit "#") text in
  let text := sub_lit [tab] (lit "  ") text in
  let text := sub_lit (lit "TRUE") (lit "true") text in
  let text := sub_lit (lit "FALSE") (lit "false") text in
  text.

(** utils.py 137: [ini_file.rstrip('ini') + 'toml'] (strips a set of characters). *)
Definition toml_path (ini_file : str) : str :=
  rstrip_by (in_set (lit "ini")) ini_file ++ lit "toml".

(** utils.py 141-142: talker lines lose all their dollar signs. *)
Definition drop_dollar (ln : str) : str :=
  if prefixb (lit "$") ln then remove_char "$" ln else ln.

(** utils.py 149-154: value and "extra comment" of a key=value line.  Note line 153 splits the
    already shortened value, so the comment is always empty. *)
Definition value_and_comment (val : str) : str * str :=
  if containsb (lit "#") val then
    let val := hd [] (split (lit "#") val) in
    let extra_comm := join (lit "=") (tl (split (lit "#") val)) in
    (strip val, extra_comm)
  else (strip val, []).

(** utils.py 141-171: the line written for one input line, or the exception. *)
Definition clean_line (ln : str) : res str :=
  let ln := drop_dollar ln in
  if prefixb (lit "[") ln || prefixb (lit "#") ln || str_eqb ln [] then Ok ln else
  do val <- getr (split (lit "=") ln) 1;
  let '(val, extra_comm) := value_and_comment val in
  if str_eqb val (lit "true") || str_eqb val (lit "false") then Ok ln
  else if prefixb [dquote] val then Ok ln
  else match py_float val with
       | Ok _ => Ok ln
       | Raise _ =>
           let val := dquote :: val ++ [dquote] in
           let ln := join (lit "= ") [hd [] (split (lit "=") ln); val] in
           if str_eqb extra_comm [] then Ok ln else Ok (join (lit "   #") [ln; extra_comm])
       end.

(** utils.py 140-172: the writing loop; what is in the output file when it ends, and how. *)
Fixpoint clean_loop (lines : list str) : str * res unit :=
  match lines with
  | [] => ([], Ok tt)
  | ln :: rest =>
      match clean_line ln with
      | Raise e => ([], Raise e)
      | Ok out => let '(w, r) := clean_loop rest in (out ++ nl :: w, r)
      end
  end.

(** File system: the decoded text (newlines already translated, as [open(..., 'r')] on line 121
    does) of each path. *)
Definition fs : Type := str -> option str.
(** [open(p, 'w')] ... [close()], utils.py 138-174. *)
Definition fs_write (f : fs) (p : str) (c : str) : fs :=
  fun q => if str_eqb q p then Some c else f q.

(** utils.py 108-175, [clean_ini_to_toml].  The output file is opened (truncated) before the
    loop, so what was written stays there if the loop raises (the handle is then closed, and so
    flushed, by the interpreter; that is taken for granted here). *)
Definition clean_ini_to_toml (f : fs) (ini_file : str) : fs * res str :=
  match f ini_file with
  | None => (f, Raise FileNotFoundError)
  | Some text =>
      let opath := toml_path ini_file in
      let '(w, r) := clean_loop (split [nl] (clean_subs text)) in
      (fs_write f opath w, match r with Ok _ => Ok opath | Raise e => Raise e end)
  end.
