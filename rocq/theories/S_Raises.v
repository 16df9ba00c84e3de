(** Specification for property C108: the exceptions that the navigation reader can raise. *)
From Coq Require Import ZArith Ascii String List.
From Verif Require Import M_Py M_Str.
Import ListNotations.

(** If the call raises, then one of these. *)
Definition raises_only {A : Type} (P : exn -> Prop) (r : res A) : Prop := forall e, r = Raise e -> P e.

(** Reading the lines of a file of a ship whose lines are looked for by [talker]. *)
Inductive line_exception (ship talker : str) : exn -> Prop :=
| le_index : line_exception ship talker IndexError
| le_value : line_exception ship talker ValueError
| le_clock : In ship [lit "Atlantis"; lit "NBP"; lit "Thompson"; lit "Revelle"] -> line_exception ship talker OverflowError
| le_stamp : In ship [lit "Ride"; lit "Sikuliaq"] -> In talker [lit "INGGA"; lit "GPGGA"] -> line_exception ship talker OverflowError
| le_posix : ship = lit "Ride" -> talker = lit "INGGA" -> line_exception ship talker OSError
| le_undated : ship = lit "Revelle" -> line_exception ship talker AttributeError
| le_unstamped : ship = lit "Ride" -> ~ In talker [lit "INGGA"; lit "GPGGA"] -> line_exception ship talker AttributeError.

(** Reading the files. *)
Inductive nav_exception (ship talker : str) : exn -> Prop :=
| ne_file : nav_exception ship talker FileNotFoundError
| ne_line : forall e, In ship [lit "Atlantis"; lit "NBP"; lit "Thompson"; lit "Revelle"; lit "Ride"; lit "Langseth"] -> line_exception ship talker e ->
    nav_exception ship talker e
| ne_Sikuliaq : forall e, ship = lit "Sikuliaq" -> talker = lit "GPGGA" -> line_exception ship talker e -> nav_exception ship talker e.
