(** Model of example-scripts/dgs_raw_comp.py, lines 125-143: cleaning of the serial files before they are read.
    Directories and permissions are not modelled; texts are read and written with translated newlines. *)
From Coq Require Import ZArith Ascii String Bool List.
From Verif Require Import M_Py M_Str M_Ini.
Import ListNotations.

(** lines 127-130: [splitpath[-1] = 'clean_' + splitpath[-1]] *)
Definition clean_name (path : str) : str :=
  let splitpath := split (lit "/") path in
  let newname := lit "clean_" ++ last splitpath [] in
  join (lit "/") (removelast splitpath ++ [newname]).

(** line 138 *)
Definition keep_line (line : str) : bool :=
  containsb (lit "AT1M") line && (List.length (split (lit ",") line) =? 19)%nat.
(** lines 134-142 *)
Definition clean_text (text : str) : str := concat (filter keep_line (readlines text)).

(** lines 126-142, one pass of the loop *)
Definition clean_file (f : fs) (path : str) : fs * res str :=
  let opath := clean_name path in
  match f opath with
  | Some _ => (f, Ok opath)
  | None =>
      match f path with
      | None => (f, Raise FileNotFoundError)
      | Some text => (fs_write f opath (clean_text text), Ok opath)
      end
  end.
Fixpoint clean_serial (f : fs) (paths : list str) : fs * res (list str) :=
  match paths with
  | [] => (f, Ok [])
  | p :: rest =>
      let '(f, r) := clean_file f p in
      match r with
      | Raise e => (f, Raise e)
      | Ok o => let '(f, os) := clean_serial f rest in (f, do l <- os; Ok (o :: l))
      end
  end.

(** line 143: [np.sort] of texts, by code points *)
Fixpoint str_leb (a b : str) : bool :=
  match a, b with
  | [], _ => true
  | _ :: _, [] => false
  | x :: a', y :: b' =>
      if Ascii.eqb x y then str_leb a' b' else (N_of_ascii x <? N_of_ascii y)%N
  end.
Fixpoint insert (s : str) (l : list str) : list str :=
  match l with
  | [] => [s]
  | t :: l' => if str_leb s t then s :: l else t :: insert s l'
  end.
Definition np_sort (l : list str) : list str := fold_right insert [] l.

(** lines 125-143 *)
Definition clean_files (f : fs) (paths : list str) : fs * res (list str) :=
  let '(f, r) := clean_serial f paths in (f, do l <- r; Ok (np_sort l)).
