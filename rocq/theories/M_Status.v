(** Model of shipgrav/utils.py, lines 74-105: [decode_dgs_status_bits]. *)
From Coq Require Import List ZArith Ascii String Bool.
From Verif Require Import M_Py.
Import ListNotations.
Open Scope Z_scope.

(** utils.py 88-89: the flag names, most significant bit first. *)
Definition flags : list string :=
  ["clamp status"; "GPSsync"; "reserved"; "feedback"; "R1"; "R2"; "ADlock"; "ack host";
   "NavMod1"; "NavMod2"; "dgs1_trouble"; "dgs2_trouble"; "GPStime"; "ADsat"; "nemo1"; "nemo2"]%string.

(** Binary numeral of a positive number, most significant digit first
    (Python's [format(p, 'b')], called in utils.py 94 and 100). *)
Fixpoint bin_pos (p : positive) : list ascii :=
  match p with
  | xH => ["1"%char]
  | xO q => bin_pos q ++ ["0"%char]
  | xI q => bin_pos q ++ ["1"%char]
  end.

(** Python's [format(s, '016b')] for an int (utils.py 94, 100): sign, then zeros up
    to a total width of 16, then the numeral of |s|; never truncated. *)
Definition format016b (s : Z) : list ascii :=
  let digits := match s with
                | Z0 => ["0"%char] | Zpos p => bin_pos p | Zneg p => bin_pos p end in
  let sign := match s with Zneg _ => ["-"%char] | _ => [] end in
  sign ++ repeat "0"%char (16 - List.length sign - List.length digits) ++ digits.

(** Python dict assignment [out[f] = v]: overwrite or append (utils.py 97). *)
Fixpoint dict_set {V : Type} (d : list (string * V)) (k : string) (v : V) : list (string * V) :=
  match d with
  | [] => [(k, v)]
  | (k', v') :: t => if String.eqb k k' then (k, v) :: t else (k', v') :: dict_set t k v
  end.

(** utils.py 96-97: [for i, f in enumerate(flags): out[f] = bt[i]]. *)
Fixpoint decode_loop (bt : list ascii) (i : nat) (fs : list string)
  (out : list (string * ascii)) : res (list (string * ascii)) :=
  match fs with
  | [] => Ok out
  | f :: fs' =>
      do b <- getr bt i;
      decode_loop bt (S i) fs' (dict_set out f b)
  end.

(** utils.py 93-98: integer input. *)
Definition decode_int (s : Z) : res (list (string * ascii)) :=
  decode_loop (format016b s) 0 flags [].

(** Values in a table cell: integers, one-character strings, anything else
    (which [format(_, '016b')] refuses with a ValueError). *)
Inductive cell : Type := CInt (z : Z) | CChar (a : ascii) | COther (tag : nat).

(** A DataFrame: named columns in order, all of the same length. *)
Definition column : Type := (string * list cell)%type.
Definition table : Type := list column.

Definition has_col (t : table) (k : string) : bool :=
  existsb (fun c => String.eqb k (fst c)) t.

(** [stat[key]] (utils.py 100): KeyError if missing; a repeated column name gives a
    sub-table whose iteration yields names, which [format] refuses. *)
Definition get_col (t : table) (k : string) : res (list cell) :=
  match filter (fun c => String.eqb k (fst c)) t with
  | [] => Raise KeyError
  | [c] => Ok (snd c)
  | _ => Raise ValueError
  end.

(** [format(s, '016b')] on a cell. *)
Definition format_cell (c : cell) : res (list ascii) :=
  match c with CInt z => Ok (format016b z) | _ => Raise ValueError end.

(** [DataFrame.insert(loc, name, values)] (utils.py 102): in place. *)
Definition insert_col (t : table) (loc : nat) (k : string) (v : list cell) : res table :=
  if has_col t k then Raise ValueError
  else if Nat.ltb (List.length t) loc then Raise IndexError
  else Ok (firstn loc t ++ (k, v) :: skipn loc t).

(** utils.py 101-103: the loop over flags.  The table is mutated in place, so the
    state reached is returned together with the outcome. *)
Fixpoint insert_loop (bts : list (list ascii)) (i : nat) (fs : list string) (t : table)
  : table * res unit :=
  match fs with
  | [] => (t, Ok tt)
  | f :: fs' =>
      match mapM (fun b => do c <- getr b i; Ok (CChar c)) bts with
      | Raise e => (t, Raise e)
      | Ok vals =>
          match insert_col t (S i) f vals with
          | Raise e => (t, Raise e)
          | Ok t' => insert_loop bts (S i) fs' t'
          end
      end
  end.

(** utils.py 99-103: DataFrame input; final state of the caller's table and outcome. *)
Definition decode_df (t : table) (key : string) : table * res unit :=
  match get_col t key with
  | Raise e => (t, Raise e)
  | Ok col =>
      match mapM format_cell col with
      | Raise e => (t, Raise e)
      | Ok bts => insert_loop bts 0 flags t
      end
  end.
