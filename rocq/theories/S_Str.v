(** Specification vocabulary for text: occurrences, substitution, lines, Python number
    literals, zero-padded decimals.  Independent of the functions of the model (only the type
    of strings and literals is shared). *)
From Coq Require Import List ZArith Ascii String Bool QArith.
From Verif Require Import M_Str.
Import ListNotations.
Open Scope Z_scope.

Definition occurs (sub s : str) : Prop := exists a b, s = a ++ sub ++ b.

(** no occurrence of [sub] in [s] starts before position [n] *)
Definition none_before (sub s : str) (n : nat) : Prop :=
  forall a b, s = a ++ sub ++ b -> (n <= List.length a)%nat.

(** [t] is [s] with the non-overlapping occurrences of [old], taken from the left, replaced. *)
Inductive Subst (old new : str) : str -> str -> Prop :=
| Subst_none : forall s, ~ occurs old s -> Subst old new s s
| Subst_one : forall a b b', none_before old (a ++ old ++ b) (List.length a) ->
    Subst old new b b' -> Subst old new (a ++ old ++ b) (a ++ new ++ b').

(** White space, digits. *)
Definition space (c : ascii) : Prop := In (nat_of_ascii c)
  [9; 10; 11; 12; 13; 28; 29; 30; 31; 32; 133; 160]%nat.
Definition digit (c : ascii) : Prop := In c (list_ascii_of_string "0123456789").

(** [t] is [s] without leading and trailing white space. *)
Definition trimmed (s t : str) : Prop :=
  exists a b, s = a ++ t ++ b /\ Forall space a /\ Forall space b /\
    (forall c r, t = c :: r -> ~ space c) /\ (forall c r, t = r ++ [c] -> ~ space c).

(** Every underscore stands between two digits. *)
Definition well_underscored (t : str) : Prop :=
  forall a b, t = a ++ "_"%char :: b ->
    (exists a' d, a = a' ++ [d] /\ digit d) /\ (exists d b', b = d :: b' /\ digit d).

Definition without_underscores (t : str) : str := filter (fun c => negb (Ascii.eqb c "_")) t.

Definition digits (s : str) : Prop := s <> [] /\ Forall digit s.

Inductive sign_opt : str -> Prop :=
| sg_none : sign_opt []
| sg_plus : sign_opt ["+"%char]
| sg_minus : sign_opt ["-"%char].

Inductive exponent_opt : str -> Prop :=
| ex_none : exponent_opt []
| ex_some : forall e sg d, (e = "e"%char \/ e = "E"%char) -> sign_opt sg -> digits d ->
    exponent_opt (e :: sg ++ d).

(** Unsigned number: 12, 12., 12.5, .5 with optional exponent. *)
Inductive number : str -> Prop :=
| nb_int : forall i x, digits i -> exponent_opt x -> number (i ++ x)
| nb_point : forall i x, digits i -> exponent_opt x -> number (i ++ "."%char :: x)
| nb_both : forall i f x, digits i -> digits f -> exponent_opt x -> number (i ++ "."%char :: f ++ x)
| nb_frac : forall f x, digits f -> exponent_opt x -> number ("."%char :: f ++ x).

(** inf, infinity, nan in any case. *)
Definition special (s : str) : Prop :=
  In (map lower s) [lit "inf"; lit "infinity"; lit "nan"].

(** What Python's float() accepts (library reference, "float"). *)
Definition float_literal (s : str) : Prop :=
  exists t sg u, trimmed s t /\ well_underscored t /\ without_underscores t = sg ++ u /\
    sign_opt sg /\ (special u \/ number u).

(** Zero-padded decimal numeral with [n] digits. *)
Definition digit_char (z : Z) : ascii := ascii_of_N (Z.to_N (z mod 10 + 48)).
Fixpoint pad (n : nat) (z : Z) : str :=
  match n with
  | O => []
  | S m => pad m (z / 10) ++ [digit_char z]
  end.
