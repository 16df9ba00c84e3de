(** Specification for property C85 (cleaning of serial files). *)
From Coq Require Import ZArith Ascii String Bool List.
From Verif Require Import M_Str S_Str S_Nmea S_ReadNav.
Import ListNotations.

(** A line worth keeping: from the meter, with 19 fields. *)
Definition sound_line (l : str) : Prop :=
  occurs (lit "AT1M") l /\ exists fields, List.length fields = 19%nat /\ Forall (fun x => ~ In ","%char x) fields /\ l = join (lit ",") fields.

(** The file beside [p] with [clean_] put before its name. *)
Definition clean_path (p q : str) : Prop :=
  exists d name, p = d ++ name /\ ~ In "/"%char name /\ (d = [] \/ exists d', d = d' ++ lit "/") /\ q = d ++ lit "clean_" ++ name.

(** The sound lines of a text. *)
Definition cleaned_text (text t : str) : Prop :=
  exists lines kept, file_lines text lines /\ selected sound_line lines kept /\ t = concat kept.

(** Order by code points. *)
Inductive lex_le : str -> str -> Prop :=
| lex_nil : forall b, lex_le [] b
| lex_less : forall x y a b, (nat_of_ascii x < nat_of_ascii y)%nat -> lex_le (x :: a) (y :: b)
| lex_same : forall x a b, lex_le a b -> lex_le (x :: a) (x :: b).
