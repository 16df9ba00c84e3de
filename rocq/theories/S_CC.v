(** Specification for properties C34-C37 (cross-coupling coefficients). *)
From Coq Require Import List Reals.
From Verif Require Import S_Base.
Import ListNotations.
Open Scope R_scope.

(** A time step above five nominal sample intervals, after sample [i]. *)
Definition gap (ts : list R) (rate : R) (i : nat) : Prop :=
  (S i < length ts)%nat /\ nth (S i) ts 0 - nth i ts 0 > 5 * rate.

(** Weights over 11 consecutive samples that differentiate all polynomials up to degree 10. *)
Definition differentiates (d : nat -> R) : Prop :=
  forall p, (p <= 10)%nat -> Rsum 11 (fun u => d u * (INR u - 5) ^ p) = (if Nat.eqb p 1 then 1 else 0).

(** Low-pass filter with 200 taps: ideal response with cutoff 1/200 of the Nyquist frequency,
    sin(pi fc m)/(pi m), shaped by a Blackman window and scaled to unit gain at frequency 0. *)
Definition blackman_window (k : nat) : R :=
  0.42 - 0.5 * cos (2 * PI * INR k / 199) + 0.08 * cos (4 * PI * INR k / 199).
Definition low_pass (h : nat -> R) : Prop :=
  Rsum 200 h = 1 /\
  exists K, forall k, (k < 200)%nat ->
    let m := INR k - 99.5 in h k * (PI * m) = K * sin (PI * m / 200) * blackman_window k.

(** One row from 220 consecutive samples starting at [i]: low-passed second derivative. *)
Definition curvature (h d : nat -> R) (x : list R) (i : nat) : R :=
  Rsum 200 (fun j => h (199 - j)%nat *
    Rsum 11 (fun u => Rsum 11 (fun v => d u * d v * nth (i + j + u + v) x 0))).

(** Rows of a series over the ranges [a, b): the samples a+1 .. b-200 are used. *)
Definition curvature_rows (h d : nat -> R) (bounds : list (nat * nat)) (x : list R) : list R :=
  concat (map (fun ab => map (fun r => curvature h d x (fst ab + 1 + r)) (seq 0 (snd ab - fst ab - 420))) bounds).

(** What the code takes as ranges, for [n] samples and gaps [g]. *)
Definition code_range (n : nat) (g : nat -> Prop) (a b : nat) : Prop :=
  (a + 1000 <= b <= n)%nat /\ (a = 0 \/ exists e, a = S e /\ g e)%nat /\
  ((g b) \/ (b = n /\ forall i, ~ g i)) /\ forall i, (a <= i < b)%nat -> ~ g i.

(** The five monitors and a constant are linearly independent over the rows. *)
Definition independent (ve vcc al ax lev : list R) : Prop :=
  forall c0 c1 c2 c3 c4 c5,
    (forall i, (i < length ve)%nat ->
       c0 + c1 * nth i ve 0 + c2 * nth i vcc 0 + c3 * nth i al 0 + c4 * nth i ax 0 + c5 * nth i lev 0 = 0) ->
    c0 = 0 /\ c1 = 0 /\ c2 = 0 /\ c3 = 0 /\ c4 = 0 /\ c5 = 0.
