(** Specification for property C104: lists of navigation files with the same fixes. *)
From Coq Require Import ZArith Reals List.
From Verif Require Import S_ReadNav.
Import ListNotations.

(** The files give the same position for every time that both of them keep. *)
Definition agree (d : Z) (f g : file_data) : Prop :=
  forall t lon lat lon' lat', first_seen d [f] t lon lat -> first_seen d [g] t lon' lat' -> lon' = lon /\ lat' = lat.
