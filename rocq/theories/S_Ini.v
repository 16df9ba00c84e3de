(** Specification for properties C08-C12 (ini to toml rewriting). *)
From Coq Require Import List ZArith Ascii String Bool.
From Verif Require Import M_Str S_Str.
Import ListNotations.

(** [p] is the part of [s] before the first [c] (all of [s] if there is none). *)
Definition upto (c : ascii) (s p : str) : Prop :=
  ~ In c p /\ (s = p \/ exists r, s = p ++ c :: r).

(** Lines that are copied: empty, section headers, comments. *)
Definition plain_line (ln : str) : Prop :=
  ln = [] \/ exists r, ln = "["%char :: r \/ ln = "#"%char :: r.

(** A talker line (starting with a dollar sign) loses its dollar signs. *)
Inductive undollared : str -> str -> Prop :=
| und_no : forall ln, (forall r, ln <> "$"%char :: r) -> undollared ln ln
| und_yes : forall r, undollared ("$"%char :: r) (filter (fun c => negb (Ascii.eqb c "$")) r).

(** Line [ln] has key [k] and value [v]: the text between the first '=' and the next '=', '#'
    or the end, without surrounding white space. *)
Definition key_value (ln k v : str) : Prop :=
  exists rest v0 v1, ln = k ++ "="%char :: rest /\ ~ In "="%char k /\
    upto "=" rest v0 /\ upto "#" v0 v1 /\ trimmed v1 v.

(** Values that TOML already understands. *)
Definition toml_ready (v : str) : Prop :=
  v = lit "true" \/ v = lit "false" \/ (exists r, v = dquote :: r) \/ float_literal v.

(** What is written for a line. *)
Inductive rewritten : str -> str -> Prop :=
| rw_plain : forall ln, plain_line ln -> rewritten ln ln
| rw_ready : forall ln k v, ~ plain_line ln -> key_value ln k v -> toml_ready v -> rewritten ln ln
| rw_quoted : forall ln k v, ~ plain_line ln -> key_value ln k v -> ~ toml_ready v ->
    rewritten ln (k ++ lit "= " ++ [dquote] ++ v ++ [dquote]).

(** Lines that cannot be rewritten. *)
Definition offending (ln : str) : Prop := ~ plain_line ln /\ ~ In "="%char ln.

(** The text after the four substitutions. *)
Definition substituted (text t : str) : Prop :=
  exists t1 t2 t3, Subst (lit "//") (lit "#") text t1 /\ Subst [tab] (lit "  ") t1 t2 /\
    Subst (lit "TRUE") (lit "true") t2 t3 /\ Subst (lit "FALSE") (lit "false") t3 t.

(** The lines of a text. *)
Definition lines_of (t : str) (ls : list str) : Prop :=
  ls <> [] /\ t = join [nl] ls /\ Forall (fun l => ~ In nl l) ls.
