(** Specification for properties C05-C07 (status bits). *)
From Coq Require Import List ZArith Ascii String Bool.
Import ListNotations.
Open Scope Z_scope.

(** Character of bit [n] of an integer. *)
Definition bit_char (s : Z) (n : Z) : ascii :=
  if Z.testbit s n then "1"%char else "0"%char.

(** The documented flags from bit 15 down to bit 0. *)
Definition documented : list (string * Z) :=
  [("clamp status", 15); ("GPSsync", 14); ("reserved", 13); ("feedback", 12);
   ("R1", 11); ("R2", 10); ("ADlock", 9); ("ack host", 8);
   ("NavMod1", 7); ("NavMod2", 6); ("dgs1_trouble", 5); ("dgs2_trouble", 4);
   ("GPStime", 3); ("ADsat", 2); ("nemo1", 1); ("nemo2", 0)]%string.

(** The expected decoding of one status word. *)
Definition expected (s : Z) : list (string * ascii) :=
  map (fun '(n, b) => (n, bit_char s b)) documented.
