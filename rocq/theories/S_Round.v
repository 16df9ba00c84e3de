(** Specification of double precision arithmetic, for properties C98 and following. *)
From Coq Require Import Reals ZArith.
From Flocq Require Import Core.
Open Scope R_scope.

(** The IEEE 754 binary64 number nearest to [x], ties to even: 53 bits, exponents down to
    -1074 (no upper bound: overflow is not represented). *)
Definition b64 (x : R) : R := round radix2 (FLT_exp (-1074) 53) ZnearestE x.

(** The unit roundoff of binary64 and half its smallest number. *)
Definition u64 : R := / 2 ^ 53.
Definition eta64 : R := / 2 ^ 1075.

(** An exponential that is off by at most one unit in the last place. *)
Definition good_exp (fexp : R -> R) : Prop :=
  forall x, -20 <= x <= 1 -> Rabs (fexp x - exp x) <= / 2 ^ 52 * exp x.

(** Library functions that are off by at most one unit in the last place of 1. *)
Definition good_fun (f g : R -> R) : Prop := forall x, Rabs (f x - g x) <= / 2 ^ 52.

(** The inverse functions, on their domain, with values up to 4; powers, off by at most one
    unit in the last place. *)
Definition good_arc (f g : R -> R) : Prop := forall x, Rabs x <= 1 -> Rabs (f x - g x) <= / 2 ^ 51.
Definition good_pow (f : R -> nat -> R) : Prop :=
  forall x n, Rabs (f x n - x ^ n) <= / 2 ^ 52 * Rabs (x ^ n) + eta64.

(** The rate of change of [y] at sample [k], and the rate of change of that, by central
    differences at [samp] samples per second. *)
Definition rate (samp : R) (y : nat -> R) (k : nat) : R := (y (k + 1)%nat - y (k - 1)%nat) * samp / 2.
Definition curv (samp : R) (y : nat -> R) (k : nat) : R :=
  (y (k - 1)%nat - 2 * y k + y (k + 1)%nat) * samp ^ 2.

(** A track of [n] positions sailed by a ship: latitude changes by less than 1e-5 rad/s (64 m/s)
    and longitude by less than 1e-4 rad/s, these rates by less than 1e-5 and 1e-3 rad/s each
    second; the height stays within a kilometre, and moves less than 10 m/s, 10 m/s^2. *)
Definition sailed (samp : R) (n : nat) (lon lat ht : nat -> R) : Prop :=
  (forall k, (k < n)%nat -> Rabs (lat k) <= 90 /\ Rabs (lon k) <= 360 /\ Rabs (ht k) <= 1000) /\
  (forall k, (0 < k < n - 1)%nat ->
     Rabs (rate samp lat k * (PI / 180)) <= 1 / 100000 /\
     Rabs (curv samp lat k * (PI / 180)) <= 1 / 100000 /\
     Rabs (rate samp lon k * (PI / 180)) <= 1 / 10000 /\
     Rabs (curv samp lon k * (PI / 180)) <= 1 / 1000 /\
     Rabs (rate samp ht k) <= 10 /\ Rabs (curv samp ht k) <= 10).
