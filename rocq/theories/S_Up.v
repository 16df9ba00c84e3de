(** Specification for properties C38-C40 (platform tilt). *)
From Coq Require Import List Reals.
Import ListNotations.
Open Scope R_scope.

(** Acceleration as used: missing and flagged samples count as zero. *)
Definition cleaned (v flag : option R) : R :=
  match v with
  | None => 0
  | Some x => match flag with Some f => if Rlt_dec 0 f then 0 else x | None => x end
  end.
(** Driving term; a missing gravity value counts as no drive. *)
Definition driving (acc : R) (g : option R) : R := match g with Some y => acc / y | None => 0 end.

(** Frequency warping of the trapezoidal rule. *)
Definition prewarp (dt w : R) : R := 2 / dt * tan (w * dt / 2).
Definition schuler : R := sqrt (9.8 / 6371100).

(** A causal signal: value at sample [k - j], zero before the start. *)
Definition back (x : nat -> R) (k j : nat) : R := if (j <=? k)%nat then x (k - j)%nat else 0.

(** The damped platform
      y'' + 2 zeta W0 y' + W0^2 y = (WS^2 - W0^2) x - 2 zeta W0 x'
    discretised by the trapezoidal rule, W0 and WS the warped platform and Schuler frequencies. *)
Definition platform_equation (per dt zeta : R) (x y : nat -> R) (k : nat) : Prop :=
  let W0 := prewarp dt (2 * PI / per) in
  let WS := prewarp dt schuler in
  let sum2 (f : nat -> R) := back f k 0 + 2 * back f k 1 + back f k 2 in
  let slope (f : nat -> R) := 2 / dt * (back f k 0 - back f k 2) in
  let curv (f : nat -> R) := (2 / dt) ^ 2 * (back f k 0 - 2 * back f k 1 + back f k 2) in
  curv y + 2 * zeta * W0 * slope y + W0 ^ 2 * sum2 y =
  (WS ^ 2 - W0 ^ 2) * sum2 x - 2 * zeta * W0 * slope x.

(** Response [hr + i hi] of that platform at angular frequency [W]. *)
Definition platform_response (per dt zeta W hr hi : R) : Prop :=
  let W0 := prewarp dt (2 * PI / per) in
  let WS := prewarp dt schuler in
  (W0 ^ 2 - W ^ 2) * hr - 2 * zeta * W0 * W * hi = WS ^ 2 - W0 ^ 2 /\
  (W0 ^ 2 - W ^ 2) * hi + 2 * zeta * W0 * W * hr = - (2 * zeta * W0 * W).

(** Up vector of a platform tilted by slopes [c] (cross) and [l] (long), the long tilt applied
    first on even samples and the cross tilt first on odd ones. *)
Definition tilted_up (even : bool) (c l : R) (v : R * R * R) : Prop :=
  let '(x, y, z) := v in
  x ^ 2 + y ^ 2 + z ^ 2 = 1 /\ 0 < z /\
  if even then x = - c * z /\ y = - l * sqrt (x ^ 2 + z ^ 2)
  else y = - l * z /\ x = - c * sqrt (y ^ 2 + z ^ 2).
