(** The special functions [erf] and [erfcinv] of scipy (library behaviour, not code of /repo), by
    their definitions over exact reals. *)
From Coq Require Import Reals.
From Coquelicot Require Import Coquelicot.
Open Scope R_scope.

Definition gauss (t : R) : R := exp (- t ^ 2).
Definition erf (x : R) : R := 2 / sqrt PI * RInt gauss 0 x.

(** [erfcinv(y)] is the x with 1 - erf x = y for 0 < y < 2, +inf at 0, -inf at 2 and NaN ([None])
    elsewhere: the supremum of the points where erfc is still above y. *)
Definition erfcinv (y : R) : option Rbar :=
  if Rlt_dec y 0 then None else if Rlt_dec 2 y then None
  else Some (Lub_Rbar (fun x => y < 1 - erf x)).
