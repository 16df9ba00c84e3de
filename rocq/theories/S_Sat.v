(** Specification for property C115: satellite gravity beside the anomalies. *)
From Coq Require Import ZArith QArith Reals Ascii String Bool List.
From Verif Require Import M_Str S_Str S_Nmea S_ReadNav S_Table S_Bgm S_Dgs S_Written M_Table.
Import ListNotations.
Open Scope Z_scope.

(** The rows of a text after its first [skip] lines, each line up to a comment: the fields between delimiters, or the words.  Empty lines are no rows. *)
Definition text_rows (delim : option ascii) (skip : nat) (text : str) (rows : list (list str)) : Prop :=
  exists lines head rest bodies, file_lines text lines /\ lines = head ++ rest /\
    (List.length head = skip \/ (List.length head < skip)%nat /\ rest = []) /\ Forall2 before_comment rest bodies /\
    match delim with
    | Some d => exists kept, selected (fun b => b <> []) bodies kept /\ Forall2 (fields_of d) kept rows
    | None => exists wss, Forall2 words_of bodies wss /\ selected (fun ws => ws <> []) wss rows
    end.
(** A number without underscores; its value ([None]: infinite or nan). *)
Definition plain_number (s : str) : Prop := float_literal s /\ ~ In "_"%char s.
Definition value_of (s : str) (v : option Q) : Prop :=
  match v with Some q => float_value s q | None => not_finite s end.
Definition cell_number (col : nat) (row : list str) (s : str) : Prop := nth_error row col = Some s /\ plain_number s.
Definition finite_value (v : fval) : option Q := match v with FDec m e => Some (dec_Q m e) | _ => None end.
(** [v] is the number in column [col] of row [k]. *)
Definition row_value (rows : list (list str)) (col k : nat) (v : fval) : Prop :=
  exists r s, nth_error rows k = Some r /\ nth_error r col = Some s /\ value_of s (finite_value v).

(** Points [480 ..] of a record of [n] rows but for the last 240: the time of the row that comes [k]-th in the order [idx], and its value. *)
Definition drawn_part {V : Type} (us : list Z) (idx : list nat) (from : nat) (n : nat) (value : nat -> V -> Prop) (points : list (cell * V)) : Prop :=
  List.length points = (n - 720)%nat /\
  forall k, (k < n - 720)%nat -> exists t v, nth_error points k = Some (Time t, v) /\ (t == nth (nth (from + 480 + k) idx 0%nat) us 0%Z # 1000000)%Q /\ value k v.
