(** Specification for property C105. *)
From Coq Require Import ZArith Reals.
Open Scope R_scope.

(** Instants, in microseconds, up to 2^31 seconds from 1970. *)
Definition in_range (t : Z) : Prop := (Z.abs t <= 2 ^ 31 * 1000000)%Z.
(** The POSIX time. *)
Definition sec (t : Z) : R := IZR t / 1000000.
