(** Specification for properties C106 and C107 (cross-coupling fit of changed readings, and from files). *)
From Coq Require Import ZArith QArith Reals Ascii String List.
From Verif Require Import M_Str M_Table S_Table.
Import ListNotations.
Open Scope R_scope.

(** The rows determine the coefficients of the first four monitors: no combination of them alone, or with the level error
    and a constant, vanishes. *)
Definition determined (ve vcc al ax lev : list R) : Prop :=
  forall c0 c1 c2 c3 c4 c5,
    (forall i, (i < List.length ve)%nat ->
       c0 + c1 * nth i ve 0 + c2 * nth i vcc 0 + c3 * nth i al 0 + c4 * nth i ax 0 + c5 * nth i lev 0 = 0) ->
    c1 = 0 /\ c2 = 0 /\ c3 = 0 /\ c4 = 0.

(** The monitors in the table of the gravimeter, all of them numbers. *)
Definition monitors (T : frame) (vcc ve al ax : list Q) : Prop :=
  has_column T (lit "vcc") (map Num vcc) /\ has_column T (lit "ve") (map Num ve) /\
  has_column T (lit "al") (map Num al) /\ has_column T (lit "ax") (map Num ax).
